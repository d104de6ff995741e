(** The rules the linter ships with (C93). *)
From Coq Require Import Lia ZArith Permutation.
From Verif.Model Require Import Base Node Locate Helpers Rules Runner Config Core Standard.
From Verif.Spec Require Import Pipeline Paths RuleSets Shipped.
From Verif.Proofs Require Import BaseFacts PipelineProofs RunProofs ReportProofs GroupProofs RuleSetProofs RuleSetMain RuleSetLint WfDecide SearchWitness.
Local Open Scope string_scope.

(** * The table of rules *)
Definition shipped_ids : list string :=
  Eval vm_compute in filter (fun i => negb (smem i built_in_ids)) documented_ids.
Lemma shipped_listed w : forall i, In i (map r_id (shipped w)) <-> In i shipped_ids.
Proof.
  intros i.
  assert (A : forallb (fun i => smem i shipped_ids) (map r_id (shipped w)) = true) by (vm_compute; reflexivity).
  assert (B : forallb (fun i => smem i (map r_id (shipped w))) shipped_ids = true) by (vm_compute; reflexivity).
  rewrite forallb_forall in A, B. split; intros H; apply smem_iff; auto.
Qed.
Lemma shipped_once w : NoDup (map r_id (shipped w)).
Proof. apply nodupb_sound. vm_compute. reflexivity. Qed.
Lemma shipped_settings w : forall r, In r (shipped w) ->
  r_experimental r = smem (r_id r) experimental_ids /\ r_definition r = documented_settings (r_id r).
Proof.
  assert (E : map (fun r => (r_experimental r, r_definition r)) (shipped w) =
              map (fun i => (smem i experimental_ids, documented_settings i)) (map r_id (shipped w))) by (vm_compute; reflexivity).
  rewrite map_map in E. intros r H. induction (shipped w) as [|a l IH]; [destruct H|]. cbn [map] in E.
  injection E as E1 E2 E3. destruct H as [<-|H]; auto.
Qed.
Lemma shipped_defaults w : forall r, In r (shipped w) -> r_config r = map (fun d => (fst d, snd (snd d))) (documented_settings (r_id r)).
Proof.
  assert (E : map r_config (shipped w) =
              map (fun i => map (fun d => (fst d, snd (snd d))) (documented_settings i)) (map r_id (shipped w))) by (vm_compute; reflexivity).
  rewrite map_map in E. intros r H. induction (shipped w) as [|a l IH]; [destruct H|]. cbn [map] in E.
  injection E as E1 E2. destruct H as [<-|H]; auto.
Qed.

(** * The checks of a rule survive its configuration and initialisation *)
Lemma checks_refl r : same_checks r r.
Proof. repeat split; auto. Qed.
Lemma checks_trans a b c : same_checks a b -> same_checks b c -> same_checks a c.
Proof.
  intros (A1 & A2 & A3 & A4 & A5 & A6 & A7 & A8 & A9 & A10 & A11) (B1 & B2 & B3 & B4 & B5 & B6 & B7 & B8 & B9 & B10 & B11).
  rewrite A4 in *. repeat split; try congruence; auto; intros t H.
  - apply B10 in H as [H|H]; auto.
  - apply B11 in H as [H|H]; auto.
Qed.
Lemma checks_prepare c r : same_checks r (prepare c r).
Proof.
  repeat split; cbn [prepare add_types r_types r_subtypes]; intros t H; try (apply in_or_app; now left); apply in_app_or in H as [H|H]; eauto.
Qed.
Lemma checks_register str s r r' : register_effect str s r = Ok r' -> same_checks r r'.
Proof.
  assert (G : forall cf, same_checks r (mkRule (r_id r) (r_experimental r) (r_definition r) cf (r_types r) (r_subtypes r) (r_init r) (r_match r) (r_match_props r) (r_match_subs r)))
    by (intros cf; repeat split; auto).
  unfold register_effect. destruct (enabled s r); [|intros H; injection H as <-; apply checks_refl].
  destruct (assoc (r_id r) (s_configure s)) as [cs|]; [|intros H; injection H as <-; apply checks_refl].
  unfold rule_configure.
  destruct cs as [| | | | | |cs]; try (intros H; injection H as <-; apply G).
  destruct (config_apply str (r_definition r) cs (config_defaults r)) as [cf|]; [|discriminate]. cbn [bind]. intros H. injection H as <-. apply G.
Qed.

(** Collections made from the same rules. *)
Definition descends (l l' : list rule) : Prop :=
  (forall r, In r l -> exists r', In r' l' /\ same_checks r r') /\ (forall r', In r' l' -> exists r, In r l /\ same_checks r r').
Lemma descends_refl l : descends l l.
Proof. split; intros r H; exists r; split; auto using checks_refl. Qed.
Lemma descends_trans a b c : descends a b -> descends b c -> descends a c.
Proof.
  intros [H1 H2] [K1 K2]. split.
  - intros r H. destruct (H1 r H) as [r1 [I1 E1]]. destruct (K1 r1 I1) as [r2 [I2 E2]]. exists r2. split; auto. eapply checks_trans; eauto.
  - intros r H. destruct (K2 r H) as [r1 [I1 E1]]. destruct (H2 r1 I1) as [r2 [I2 E2]]. exists r2. split; auto. eapply checks_trans; eauto.
Qed.
Lemma descends_with w l l' : descends l l' -> with_shipped w l -> with_shipped w l'.
Proof.
  intros [H1 H2] [K1 K2]. split.
  - intros r0 H. destruct (K1 r0 H) as [r [I E]]. destruct (H1 r I) as [r' [I' E']]. exists r'. split; auto. eapply checks_trans; eauto.
  - intros r0 r' H H' Hid. destruct (H2 r' H') as [r [I E]]. apply (checks_trans _ r); [|exact E]. apply K2; auto.
    destruct E as [Ei _]. congruence.
Qed.
Lemma descends_only w l l' : descends l l' -> only_shipped w l -> only_shipped w l'.
Proof.
  intros [_ H2] K r' H'. destruct (H2 r' H') as [r [I E]]. destruct (K r I) as [r0 [I0 E0]]. exists r0. split; auto. eapply checks_trans; eauto.
Qed.
Lemma descends_register str s l l' : map_res (register_effect str s) l = Ok l' -> descends l l'.
Proof.
  intros H. split.
  - intros r Hr. destruct (map_res_each _ _ _ H r Hr) as [r' E]. exists r'. split; [apply (map_res_In _ _ _ H); eauto | eapply checks_register; eauto].
  - intros r' Hr'. apply (map_res_In _ _ _ H) in Hr' as [r [Hr E]]. exists r. split; [exact Hr | eapply checks_register; eauto].
Qed.
Lemma descends_init k c : descends (k_all k) (k_all (initialize_all k c)).
Proof.
  unfold initialize_all. cbn [k_all].
  assert (K : forall r, same_checks r (if enabled (k_set k) r then add_types r (fst (r_init r c)) (snd (r_init r c)) else r)).
  { intros r. destruct (enabled (k_set k) r); [exact (checks_prepare c r) | apply checks_refl]. }
  split.
  - intros r H. eexists. split; [apply in_map; exact H | apply K].
  - intros r' H. apply in_map_iff in H as [r [<- H]]. exists r. split; [exact H | apply K].
Qed.
Lemma descends_new str all ig inc cf ex man k : coll_new str all ig inc cf ex man = Ok k ->
  descends all (k_all k) /\ k_set k = mkSettings ex ig (add_default_includes inc) man cf.
Proof.
  unfold coll_new. rewrite extend_map. cbn [k_set k_all]. destruct (map_res _ all) as [l|] eqn:E; [|discriminate]. cbn [bind app].
  intros H. injection H as <-. cbn [k_all k_set]. split; [eapply descends_register; exact E | reflexivity].
Qed.
Lemma descends_configure str k ig inc cf ex man k' : coll_configure str k ig inc cf ex man = Ok k' ->
  descends (k_all k) (k_all k') /\ k_set k' = mkSettings ex ig (add_default_includes inc) man cf.
Proof.
  unfold coll_configure. destruct (map_res _ (k_all k)) as [l|] eqn:E; [|discriminate]. cbn [bind].
  intros H. injection H as <-. cbn [k_all k_set]. split; [eapply descends_register; exact E | reflexivity].
Qed.
Lemma descends_run sp tr k rg man c : descends (k_all k) (k_all (fst (run_checks sp tr k rg man c))).
Proof.
  unfold run_checks. destruct (negb _); [apply descends_refl|].
  destruct (if wants_transform (template c) then _ else _) as [[|e es] c']; [|apply descends_refl].
  unfold runner_run. rewrite coll_run_body. cbn [fst]. apply descends_init.
Qed.

(** * The findings of one rule in a run *)
Section One.
Variables (w : world) (k : collection) (c : cfn) (r0 : rule) (ms : list rulematch) (f : list (string * val) -> cfn -> res (list rulematch)).
Hypothesis (Hw : with_shipped w (k_all k)) (Hr0 : In r0 (shipped w)).
Hypothesis (Hf : r_match r0 = Some f) (Hp : r_match_props r0 = None) (Hs : r_match_subs r0 = None) (Hms : forall cfg, f cfg c = Ok ms).
Hypothesis Hid : r_id r0 <> "E0002".

Lemma init_checks r : In r (rules (initialize_all k c)) -> r_id r = r_id r0 -> same_checks r0 r.
Proof using Hw Hr0.
  intros H E. assert (K := descends_with w _ _ (descends_init k c) Hw). apply filter_In in H as [H _]. exact (proj2 K r0 r Hr0 H E).
Qed.
Lemma one_answer ch r l : same_checks r0 r -> answer ch r c = Ok l -> forall fi, In fi l -> exists m, In m ms /\ locate_match c (r_id r0) m = Ok fi.
Proof using Hf Hp Hs Hms.
  intros (Ei & _ & _ & _ & Em & Ep & Es & _) H fi Hfi. destruct ch as [|props t p|props t p]; cbn [answer] in H.
  - unfold matchall in H. rewrite Em, Hf, Hms in H. cbn [bind] in H. rewrite Ei in H.
    apply (map_res_In _ _ _ H) in Hfi. exact Hfi.
  - unfold matchall_props in H. rewrite Ep, Hp in H. injection H as <-. destruct Hfi.
  - unfold matchall_subs in H. rewrite Es, Hs in H. injection H as <-. destruct Hfi.
Qed.
Lemma one_sound sp raw : run_body sp (initialize_all k c) c = Ok raw ->
  forall fi, In fi raw -> f_rule fi = r_id r0 -> exists m, In m ms /\ locate_match c (r_id r0) m = Ok fi.
Proof using Hw Hr0 Hf Hp Hs Hms Hid.
  set (P := fun (l _ : list finding) => forall fi, In fi l -> f_rule fi = r_id r0 -> exists m, In m ms /\ locate_match c (r_id r0) m = Ok fi).
  intros H. assert (K : agree P (run_body sp (initialize_all k c) c) (run_body sp (initialize_all k c) c)).
  { apply body_agree.
    - intros a a' b b' Ha Hb m Hm. apply in_app_iff in Hm as [Hm|Hm]; [now apply Ha | now apply Hb].
    - intros m [].
    - intros ch. apply group_ends; [now right|]. intros la lb E _ m Hm Em.
      apply concat_res_inv in E as [g [Hg ->]]. apply in_flat_map in Hm as [r [Hr Hm]]. specialize (Hg r Hr).
      destruct (guarded_cases ch (k_set (initialize_all k c)) c r) as [Q|Q]; rewrite Q in Hg.
      { injection Hg as Hg. rewrite <- Hg in Hm. destruct Hm. }
      destruct (guarded_whose ch (k_set (initialize_all k c)) c r (g r) (eq_trans Q Hg) m Hm) as [[K|K] _]; [|congruence].
      assert (Hc : same_checks r0 r) by (apply init_checks; [exact Hr | congruence]).
      destruct (answer ch r c) as [fs|e] eqn:Ea; cbn [run_check] in Hg.
      + injection Hg as Hg. rewrite <- Hg in Hm. exact (one_answer ch r fs Hc Ea m Hm).
      + assert (X : g r = [] \/ g r = [crash_finding (c_file c) (r_id r) e]).
        { destruct e; try (destruct (is_rule_enabled _ _ _); [right | discriminate]); injection Hg as Hg; rewrite <- Hg; auto. }
        destruct X as [X|X]; rewrite X in Hm; [destruct Hm|]. destruct Hm as [<-|[]]. cbn in Em. congruence. }
  rewrite H in K. exact K.
Qed.
Lemma one_complete sp raw fs : run_body sp (initialize_all k c) c = Ok raw -> is_rule_enabled (k_set k) (r_id r0) (r_experimental r0) = true ->
  map_res (locate_match c (r_id r0)) ms = Ok fs -> incl fs raw.
Proof using Hw Hr0 Hf Hms.
  intros H He E. destruct (proj1 Hw r0 Hr0) as [r [Hr Hc]].
  assert (Hin : In (prepare c r) (rules (initialize_all k c))).
  { apply init_In. exists r. split; [|reflexivity]. apply filter_In. split; [exact Hr|]. destruct Hc as (Ei & Ex & _).
    unfold enabled. now rewrite Ei, Ex. }
  destruct (match_reported _ _ _ _ _ H Hin) as [K _]. apply K. destruct Hc as (Ei & _ & _ & _ & Em & _).
  unfold matchall. cbn [prepare add_types r_match r_config r_id]. rewrite Em, Hf, Hms. cbn [bind]. now rewrite Ei.
Qed.
End One.

Lemma covers_dec d m : covers d m \/ ~ covers d m.
Proof.
  unfold covers. destruct (string_dec (d_rule d) (f_rule m)); [|right; tauto].
  destruct (Z_lt_dec (d_sl d) (f_line m)), (Z_lt_dec (f_line m) (d_el d)), (Z.eq_dec (f_line m) (d_sl d)), (Z_le_dec (d_sc d) (f_col m)),
    (Z.eq_dec (f_line m) (d_el d)), (Z_le_dec (f_col_end m) (d_ec d)); tauto.
Qed.
Lemma suppressed_dec man ds m : suppressed man ds m \/ ~ suppressed man ds m.
Proof.
  unfold suppressed.
  assert (A : (exists d, In d ds /\ covers d m) \/ ~ exists d, In d ds /\ covers d m).
  { induction ds as [|d l IH]; [right; intros [d [[] _]]|]. destruct (covers_dec d m) as [C|C]; [left; exists d; split; [now left | exact C]|].
    destruct IH as [[d' [I' C']]|IH]; [left; exists d'; split; [now right | exact C'] | right].
    intros [d' [[<-|I'] C']]; [exact (C C') | apply IH; eauto]. }
  assert (B := existsb_prefix man (f_rule m)). destruct (existsb (fun p => starts_with p (f_rule m)) man); intuition congruence.
Qed.
Lemma locate_finding c id m : (exists m0 d, c_tmpl c = MDict m0 d) -> rm_path m <> [] -> indices_ok (c_tmpl c) (rm_path m) ->
  exists fi, locate_match c id m = Ok fi /\ finding_of c id (rm_path m) (rm_msg m) fi.
Proof.
  intros [m0 [d E]] Hp Hi. destruct c as [file region t]. cbn [c_tmpl] in *. subst t.
  destruct (c14_finding m0 d file region id m Hp Hi) as [fi [L K]]. exists fi. split; [exact L|].
  unfold finding_of, placed. cbn [c_file c_tmpl].
  destruct K as [(n & x & K1 & K2 & ->)|[K ->]]; (split; [reflexivity|]; split; [reflexivity|]; split; [reflexivity|]).
  - left. exists n, x. repeat split; auto.
  - right. repeat split; auto.
Qed.

Lemma tells_one w sp tr k rg man c ds id l r0 f ms :
  lints w sp tr k rg man c ds id l ->
  In r0 (shipped w) -> r_id r0 = id -> r_experimental r0 = false -> id <> "E0002" ->
  r_match r0 = Some f -> r_match_props r0 = None -> r_match_subs r0 = None ->
  (forall cfg, f cfg c = Ok ms) ->
  (forall m, In m ms -> rm_path m <> [] /\ indices_ok (c_tmpl c) (rm_path m)) ->
  tells_exactly c man ds l id (fun q words => In (mkRM q words) ms).
Proof.
  intros (Hw & Hsp & He & Hsel & (Hnt & _) & Hdict & Hds & Hrun) Hin <- Hex Hid Hf Hp Hs Hms Hpath.
  destruct (run_checks_cases sp tr k rg man c) as [[K _]|[(_ & K & _)|(_ & _ & K)]]; [congruence | congruence |].
  rewrite Hnt, Hrun in K. injection K as ->. rewrite reports_body.
  assert (He0 : e0002_on (k_set (initialize_all k c))) by (apply is_enabled_spec; exact He).
  destruct (run_body_total sp (initialize_all k c) c Hsp He0) as [raw Eraw]. rewrite Eraw, Hds.
  assert (Hloc : exists fs, map_res (locate_match c (r_id r0)) ms = Ok fs).
  { assert (Z : forall m, In m ms -> exists fi, locate_match c (r_id r0) m = Ok fi).
    { intros m Hm. destruct (Hpath m Hm) as [P1 P2]. destruct (locate_finding c (r_id r0) m Hdict P1 P2) as [fi [L _]]. eauto. }
    clear -Z. induction ms as [|m l IH]; [exists []; reflexivity|]. destruct (Z m (or_introl eq_refl)) as [fi E].
    destruct IH as [fs E']; [intros; apply Z; now right|]. exists (fi :: fs). cbn [map_res]. now rewrite E, E'. }
  destruct Hloc as [fs Efs]. split.
  - intros fi Hfi Er. apply (Permutation_in _ (sort_perm _)) in Hfi. apply report_sound in Hfi as [Hfi Hn]. split; [exact Hn|].
    destruct (one_sound w k c r0 ms f Hw Hin Hf Hp Hs Hms Hid sp raw Eraw fi Hfi Er) as [m [Hm L]].
    destruct (Hpath m Hm) as [P1 P2]. destruct (locate_finding c (r_id r0) m Hdict P1 P2) as [fi' [L' F]].
    assert (fi' = fi) by congruence. subst fi'. exists (rm_path m), (rm_msg m). split; [destruct m; exact Hm | exact F].
  - intros q words Hm. destruct (Hpath _ Hm) as [P1 P2]. destruct (locate_finding c (r_id r0) _ Hdict P1 P2) as [fi [L F]].
    exists fi. split; [exact F|].
    assert (Hraw : In fi raw).
    { apply (one_complete w k c r0 ms f Hw Hin Hf Hms sp raw fs Eraw); [|exact Efs|].
      - rewrite Hex. apply is_enabled_spec. exact Hsel.
      - apply (map_res_In _ _ _ Efs). eauto. }
    destruct (suppressed_dec man ds fi) as [S|S]; [now left | right].
    destruct (report_complete man ds raw fi Hraw S) as [u [Hu Su]]. exists u. split; [|exact Su].
    apply (Permutation_in _ (Permutation_sym (sort_perm _))). exact Hu.
Qed.
Lemma tells_ext c man ds l id (P Q : path -> string -> Prop) : (forall q s, P q s <-> Q q s) -> tells_exactly c man ds l id P -> tells_exactly c man ds l id Q.
Proof.
  intros H [A B]. split.
  - intros fi Hi Hr. destruct (A fi Hi Hr) as [N (q & s & Hq & F)]. split; [exact N|]. exists q, s. split; [now apply H | exact F].
  - intros q s Hq. apply B. now apply H.
Qed.
