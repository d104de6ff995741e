(** Whole runs with the rules the linter ships with (C93). *)
From Coq Require Import Lia Permutation.
From Verif.Model Require Import Base Node Locate Helpers Rules Runner Config Core Standard.
From Verif.Spec Require Import Pipeline RuleSets Shipped.
From Verif.Proofs Require Import BaseFacts PipelineProofs RunProofs ReportProofs GroupProofs RuleSetProofs RuleSetMain RuleSetLint StandardProofs.
Local Open Scope string_scope.

Lemma c93_documented w : forall id, In id documented_ids <-> In id built_in_ids \/ exists r, In r (shipped w) /\ r_id r = id.
Proof.
  intros id.
  assert (A : forallb (fun i => smem i built_in_ids || smem i shipped_ids)%bool documented_ids = true) by (vm_compute; reflexivity).
  assert (B : forallb (fun i => smem i documented_ids) (built_in_ids ++ shipped_ids)%list = true) by (vm_compute; reflexivity).
  rewrite forallb_forall in A, B. assert (C := shipped_listed w id). rewrite in_map_iff in C. split.
  - intros H. apply A in H. apply Bool.orb_true_iff in H as [H|H]; apply smem_iff in H; [now left | right].
    apply C in H as [r [E H]]. exists r. auto.
  - intros H. apply smem_iff, B. apply in_or_app. destruct H as [H|[r [H E]]]; [now left | right]. apply C. exists r. auto.
Qed.
Lemma c93_once w : NoDup (map r_id (shipped w)) /\ forall r, In r (shipped w) -> ~ In (r_id r) built_in_ids.
Proof.
  split; [apply shipped_once|]. intros r H K. assert (I : In (r_id r) shipped_ids) by (apply (shipped_listed w), in_map; exact H).
  assert (A : forallb (fun i => negb (smem i built_in_ids)) shipped_ids = true) by (vm_compute; reflexivity).
  rewrite forallb_forall in A. apply A in I. apply smem_iff in K. rewrite K in I. discriminate I.
Qed.
Lemma c93_settings w r : In r (shipped w) ->
  (r_experimental r = true <-> In (r_id r) experimental_ids) /\ r_definition r = documented_settings (r_id r) /\
  r_config r = map (fun d => (fst d, snd (snd d))) (r_definition r).
Proof.
  intros H. destruct (shipped_settings w r H) as [E1 E2]. rewrite E1, smem_iff. split; [reflexivity|]. split; [exact E2|].
  rewrite E2. now apply (shipped_defaults w).
Qed.
(** The severity of each id is known. *)
Lemma c93_severity id : In id documented_ids -> first_letter "e" "E" id \/ first_letter "w" "W" id \/ first_letter "i" "I" id.
Proof.
  assert (A : forallb (fun i => match i with String c _ => (char_eqb c "E" || char_eqb c "W" || char_eqb c "I")%bool | _ => false end) documented_ids = true)
    by (vm_compute; reflexivity).
  rewrite forallb_forall in A. intros H. apply A in H. destruct id as [|c rest]; [discriminate|].
  unfold first_letter. rewrite !Bool.orb_true_iff in H. destruct H as [[H|H]|H]; apply Ascii.eqb_eq in H; subst c; eauto 10.
Qed.

(** * Loading in another order *)
Lemma shipped_unique w r r' : In r (shipped w) -> In r' (shipped w) -> r_id r = r_id r' -> r = r'.
Proof.
  intros H H' E. assert (N := shipped_once w). induction (shipped w) as [|a l IH]; [destruct H|]. cbn [map] in N. inversion N as [|? ? N1 N2]; subst.
  destruct H as [<-|H], H' as [<-|H']; auto.
  - exfalso. apply N1. rewrite E. now apply in_map.
  - exfalso. apply N1. rewrite <- E. now apply in_map.
Qed.
Lemma shipped_loaded w all : Permutation (shipped w) all -> same_loaded (shipped w) all.
Proof.
  intros H. split; [intros r; split; intros K; [exact (Permutation_in _ H K) | exact (Permutation_in _ (Permutation_sym H) K)]|].
  apply shipped_unique.
Qed.
Lemma c93_order w str sp tr cli fl all files : Permutation (shipped w) all ->
  alike_end (snd (lint_all str sp tr (shipped w) cli fl initial_state files [])) (snd (lint_all str sp tr all cli fl initial_state files [])).
Proof. intros H. apply c91_loaded. now apply shipped_loaded. Qed.
Lemma c93_order_status w str sp tr cli fl all files o o' : Permutation (shipped w) all ->
  snd (lint_all str sp tr (shipped w) cli fl initial_state files []) = Ok o -> snd (lint_all str sp tr all cli fl initial_state files []) = Ok o' ->
  exit_status o = exit_status o'.
Proof. intros H. apply c91_status. now apply shipped_loaded. Qed.
Lemma loaded_with w all : Permutation (shipped w) all -> with_shipped w all /\ only_shipped w all.
Proof.
  intros H. split; [split|].
  - intros r0 H0. exists r0. split; [exact (Permutation_in _ H H0) | apply checks_refl].
  - intros r0 r H0 Hr E. assert (r = r0) by (apply (shipped_unique w); auto; exact (Permutation_in _ (Permutation_sym H) Hr)). subst r. apply checks_refl.
  - intros r Hr. exists r. split; [exact (Permutation_in _ (Permutation_sym H) Hr) | apply checks_refl].
Qed.

(** * All runs in a process use the shipped rules *)
Section Runs.
Variables (str : val -> string) (sp : spec) (tr : translator) (all : list rule) (cli fl : args) (w : world).

Definition kept_state (st : state) : Prop := forall k, st_rules st = Some k -> descends all (k_all k).
Lemma get_kept st d st' r : kept_state st -> get_template_rules str all cli fl st d = (st', r) ->
  kept_state st' /\ (forall t k, r = Ok (Ready t k) -> descends all (k_all k) /\
    exists targs ig inc man, set_template_args (erase t) = Ok targs /\ st_targs st' = targs /\ ignore_checks (src cli fl targs) = Ok ig /\
      include_checks (src cli fl targs) = Ok inc /\ mandatory_checks (src cli fl targs) = Ok man /\
      k_set k = mkSettings (include_experimental (src cli fl targs)) ig (add_default_includes inc) man (configure_rules (src cli fl targs))).
Proof.
  intros Hk. unfold get_template_rules. destruct (ignore_bad cli fl st) as [bad|e]; [|intros H; injection H as <- <-; split; [exact Hk | discriminate]].
  destruct d as [t|errors]; [|intros H; injection H as <- <-; split; [exact Hk | discriminate]].
  destruct (set_template_args (erase t)) as [targs|e] eqn:Et; [|intros H; injection H as <- <-; split; [exact Hk | discriminate]].
  cbv zeta.
  destruct (ignore_checks (src cli fl targs)) as [ig|e] eqn:E1; cbn [bind]; [|intros H; injection H as <- <-; split; [exact Hk | discriminate]].
  destruct (include_checks (src cli fl targs)) as [inc|e] eqn:E2; cbn [bind]; [|intros H; injection H as <- <-; split; [exact Hk | discriminate]].
  destruct (mandatory_checks (src cli fl targs)) as [man|e] eqn:E3; cbn [bind]; [|intros H; injection H as <- <-; split; [exact Hk | discriminate]].
  assert (G : forall x, (forall k, x = Ok k -> descends all (k_all k) /\
      k_set k = mkSettings (include_experimental (src cli fl targs)) ig (add_default_includes inc) man (configure_rules (src cli fl targs))) ->
    (match x with Err e => (mkState (st_rules st) targs, Err e) | Ok k' => (mkState (Some k') targs, Ok (Ready t k')) end) = (st', r) ->
    kept_state st' /\ (forall t k, r = Ok (Ready t k) -> descends all (k_all k) /\
      exists targs ig inc man, set_template_args (erase t) = Ok targs /\ st_targs st' = targs /\ ignore_checks (src cli fl targs) = Ok ig /\
        include_checks (src cli fl targs) = Ok inc /\ mandatory_checks (src cli fl targs) = Ok man /\
        k_set k = mkSettings (include_experimental (src cli fl targs)) ig (add_default_includes inc) man (configure_rules (src cli fl targs)))).
  { intros [k'|e] Hx H; injection H as <- <-; [|split; [exact Hk | discriminate]]. destruct (Hx k' eq_refl) as [D S]. split.
    - intros k E. cbn in E. injection E as <-. exact D.
    - intros t0 k E. injection E as <- <-. split; [exact D|]. exists targs, ig, inc, man. cbn [st_targs]. auto 10. }
  apply G. intros k Hx.
  destruct (st_rules st) as [[ks ss]|] eqn:Er.
  - destruct (rules (mkColl ks ss)); [now apply descends_new in Hx|]. apply descends_configure in Hx as [D S]. split; [|exact S].
    apply (descends_trans _ ks); [exact (Hk _ Er) | exact D].
  - now apply descends_new in Hx.
Qed.
Lemma one_kept st name d st' o : kept_state st -> lint_one str sp tr all cli fl st name d = (st', o) -> kept_state st'.
Proof.
  intros Hk. unfold lint_one. destruct (get_template_rules str all cli fl st d) as [st1 r] eqn:E.
  destruct (get_kept st d st1 r Hk E) as [K1 K2]. destruct r as [[l|t k]|e]; try (intros H; injection H as <- <-; exact K1).
  destruct (K2 t k eq_refl) as [D _].
  destruct (negb (truthy (erase t))); [intros H; injection H as <- <-; exact K1|]. cbv zeta.
  destruct (regions (src cli fl (st_targs st1))) as [rg|e]; [|intros H; injection H as <- <-; exact K1].
  destruct (mandatory_checks (src cli fl (st_targs st1))) as [man|e]; [|intros H; injection H as <- <-; exact K1].
  destruct (run_checks sp tr k rg man _) as [k' oo] eqn:R. intros H. injection H as <- <-. intros k0 E0. cbn in E0. injection E0 as <-.
  apply (descends_trans _ (k_all k)); [exact D|]. assert (X := descends_run sp tr k rg man (mkCfn name (hd "us-east-1" rg) t)). rewrite R in X. exact X.
Qed.
Lemma all_kept files : forall st acc, kept_state st -> kept_state (fst (lint_all str sp tr all cli fl st files acc)).
Proof.
  induction files as [|[n d] files IH]; intros st acc Hk; [exact Hk|]. cbn [lint_all].
  destruct (lint_one str sp tr all cli fl st n d) as [st1 o] eqn:E. assert (K := one_kept _ _ _ _ _ Hk E).
  destruct o as [[l|x]|e]; [now apply IH | exact K | exact K].
Qed.
Lemma c93_runs files acc name t st' l : with_shipped w all -> truthy (erase t) = true ->
  lint_one str sp tr all cli fl (fst (lint_all str sp tr all cli fl initial_state files acc)) name (DecOk t) = (st', Ok (Findings l)) ->
  exists k targs rg man inc, set_template_args (erase t) = Ok targs /\ regions (src cli fl targs) = Ok rg /\ with_shipped w (k_all k) /\
    (only_shipped w all -> only_shipped w (k_all k)) /\
    s_experimental (k_set k) = include_experimental (src cli fl targs) /\ ignore_checks (src cli fl targs) = Ok (s_ignore (k_set k)) /\
    include_checks (src cli fl targs) = Ok inc /\ (forall p, In p (s_include (k_set k)) <-> p = "W" \/ p = "E" \/ In p inc) /\
    mandatory_checks (src cli fl targs) = Ok man /\ s_mandatory (k_set k) = man /\
    snd (run_checks sp tr k rg man (mkCfn name (hd "us-east-1" rg) t)) = Findings l.
Proof.
  intros Hw Ht H. assert (K : kept_state (fst (lint_all str sp tr all cli fl initial_state files acc))) by (apply all_kept; intros k; discriminate).
  set (st := fst (lint_all str sp tr all cli fl initial_state files acc)) in *. unfold lint_one in H.
  destruct (get_template_rules str all cli fl st (DecOk t)) as [st1 r] eqn:E. destruct (get_kept _ _ _ _ K E) as [_ K2].
  assert (Hr : forall es, r <> Ok (Errors es)).
  { intros es ->. clear -E. unfold get_template_rules in E. destruct (ignore_bad cli fl st); [|discriminate]. destruct (set_template_args (erase t)); [|discriminate].
    cbv zeta in E. match type of E with match ?x with _ => _ end = _ => destruct x end; discriminate. }
  destruct r as [[es|t0 k]|e]; [destruct (Hr es eq_refl) | | discriminate].
  destruct (K2 t0 k eq_refl) as [D (targs & ig & inc & man & S1 & S2 & S3 & S4 & S5 & S6)].
  assert (t0 = t). { clear -E. unfold get_template_rules in E. destruct (ignore_bad cli fl st); [|discriminate]. destruct (set_template_args (erase t)); [|discriminate].
    cbv zeta in E. match type of E with match ?x with _ => _ end = _ => destruct x end; [|discriminate]. injection E as _ E _. congruence. } subst t0.
  rewrite Ht in H. cbn [negb] in H. rewrite S2 in H. destruct (regions (src cli fl targs)) as [rg|e] eqn:Rg; [|discriminate]. rewrite S5 in H.
  destruct (run_checks sp tr k rg man (mkCfn name (hd "us-east-1" rg) t)) as [k' o] eqn:R. injection H as _ ->.
  exists k, targs, rg, man, inc. rewrite S6. cbn [s_experimental s_ignore s_include s_mandatory]. rewrite R. cbn [snd].
  split; [exact S1|]. split; [exact Rg|]. split; [exact (descends_with w _ _ D Hw)|]. split; [exact (descends_only w _ _ D)|].
  split; [reflexivity|]. split; [exact S3|]. split; [exact S4|].
  split; [intros p; rewrite add_default_includes_spec; tauto|]. auto.
Qed.
End Runs.

(** * What is reported is documented *)
Lemma run_ids w sp tr k rg man c l : only_shipped w (k_all k) -> (forall fi, In fi (fst (tr c)) -> In (f_rule fi) documented_ids) ->
  snd (run_checks sp tr k rg man c) = Findings l -> forall fi, In fi l -> In (f_rule fi) documented_ids.
Proof.
  intros Ho Ht Hl fi Hfi. destruct (run_checks_cases sp tr k rg man c) as [[E G]|[(G & W & T & E)|(G & T & E)]]; rewrite E in Hl; [discriminate| |];
    injection Hl as Hl; subst l.
  - destruct (is_rule_enabled (k_set k) "E0001" false); [now apply Ht | destruct Hfi].
  - apply reports_told in Hfi as [[[r [Hr Er]]|Hfi] _].
    + apply runs_iff in Hr as [Hr _]. destruct (Ho r Hr) as [r0 [H0 (Ei & _)]]. apply (c93_documented w). right. exists r0. split; [exact H0 | congruence].
    + rewrite Hfi. apply (c93_documented w). left. apply smem_iff. reflexivity.
Qed.
Lemma c93_reported str sp tr all cli fl w files l : only_shipped w all ->
  (forall c fi, In fi (fst (tr c)) -> In (f_rule fi) documented_ids) ->
  (forall name es fi, In (name, DecErr es) files -> In fi es -> In (f_rule fi) documented_ids) ->
  snd (lint_all str sp tr all cli fl initial_state files []) = Ok (Findings l) -> forall fi, In fi l -> In (f_rule fi) documented_ids.
Proof.
  intros Ho Ht. assert (G : forall files st acc l, kept_state all st -> (forall fi, In fi acc -> In (f_rule fi) documented_ids) ->
    (forall name es fi, In (name, DecErr es) files -> In fi es -> In (f_rule fi) documented_ids) ->
    snd (lint_all str sp tr all cli fl st files acc) = Ok (Findings l) -> forall fi, In fi l -> In (f_rule fi) documented_ids);
    [|intros Hd H; apply (G files initial_state [] l); [intros k; discriminate | intros fi [] | exact Hd | exact H]].
  clear files l. induction files as [|[n d] files IH]; intros st acc l Hk Ha Hd H; [cbn in H; injection H as <-; exact Ha|].
  cbn [lint_all] in H. destruct (lint_one str sp tr all cli fl st n d) as [st1 o] eqn:E.
  assert (K := one_kept str sp tr all cli fl _ _ _ _ _ Hk E). destruct o as [[l1|x]|x]; try discriminate.
  apply (IH st1 (acc ++ l1)%list l K); auto; [|intros name es fi Hin; apply (Hd name); now right].
  intros fi Hfi. apply in_app_or in Hfi as [Hfi|Hfi]; [now apply Ha|].
  clear H IH. unfold lint_one in E. destruct (get_template_rules str all cli fl st d) as [st2 r] eqn:Eg.
  destruct (get_kept str all cli fl _ _ _ _ Hk Eg) as [_ K2]. destruct r as [[es|t k]|]; try discriminate.
  - injection E as _ <-. assert (exists es', d = DecErr es' /\ incl es es') as [es' [-> Hi]].
    { clear -Eg. unfold get_template_rules in Eg. destruct (ignore_bad cli fl st) as [b|]; [|discriminate]. destruct d as [t|es'].
      - destruct (set_template_args (erase t)); [|discriminate]. cbv zeta in Eg.
        match type of Eg with match ?x with _ => _ end = _ => destruct x end; discriminate.
      - exists es'. split; [reflexivity|]. injection Eg as _ <-. destruct es' as [|e1 [|e2 es']]; try apply incl_refl.
        destruct (b && _); [intros ? [] | apply incl_refl]. }
    apply (Hd n es' fi); [now left | now apply Hi].
  - destruct (K2 t k eq_refl) as [D _]. destruct (negb (truthy (erase t))); [injection E as _ <-; destruct Hfi|]. cbv zeta in E.
    destruct (regions _) as [rg|]; [|discriminate]. destruct (mandatory_checks _) as [man|]; [|discriminate].
    destruct (run_checks sp tr k rg man (mkCfn n (hd "us-east-1" rg) t)) as [k' oo] eqn:R. injection E as _ ->.
    apply (run_ids w sp tr k rg man (mkCfn n (hd "us-east-1" rg) t) l1); [exact (descends_only w _ _ D Ho) | apply Ht | now rewrite R | exact Hfi].
Qed.

(** Unless asked for, informational and experimental rules are silent. *)
Lemma c93_default w sp tr k rg man c l : only_shipped w (k_all k) -> (forall fi, In fi (fst (tr c)) -> f_rule fi = "E0001") ->
  (forall p, In p (s_include (k_set k)) -> p = "W" \/ p = "E") -> s_experimental (k_set k) = false ->
  snd (run_checks sp tr k rg man c) = Findings l -> forall fi, In fi l -> (is_error fi \/ is_warning fi) /\ ~ In (f_rule fi) experimental_ids.
Proof.
  intros Ho Ht Hi Hx Hl fi Hfi.
  assert (F : forall fi, f_rule fi = "E0001" \/ f_rule fi = "E0002" -> (is_error fi \/ is_warning fi) /\ ~ In (f_rule fi) experimental_ids).
  { intros fj Hj. split; [left; unfold is_error, first_letter; destruct Hj as [-> | ->]; eauto|]. intros K. apply smem_iff in K. destruct Hj as [Hj|Hj]; rewrite Hj in K; discriminate. }
  destruct (run_checks_cases sp tr k rg man c) as [[E G]|[(G & W & T & E)|(G & T & E)]]; rewrite E in Hl; [discriminate| |];
    injection Hl as Hl; subst l.
  - destruct (is_rule_enabled (k_set k) "E0001" false); [auto | destruct Hfi].
  - apply reports_told in Hfi as [[[r [Hr Er]]|Hfi] _]; [|auto]. apply runs_iff in Hr as [Hr (S1 & [p [Hp Hpre]] & _)].
    destruct (Ho r Hr) as [r0 [H0 (Ei & Ee & _)]]. destruct (shipped_settings w r0 H0) as [Es _]. split.
    + rewrite Er in Hpre. apply Hi in Hp. unfold is_error, is_warning, first_letter. destruct Hpre as [rest Hpre]. rewrite Hpre.
      destruct Hp as [-> | ->]; cbn [String.append]; eauto 10.
    + intros K. apply smem_iff in K. rewrite <- Er, Ei in K. rewrite <- Es in K. rewrite Hx in S1. destruct S1; congruence.
Qed.
