(** The report of main depends only on the set of rules that were loaded (C91). *)
From Coq Require Import Lia Permutation Sorted.
From Verif.Model Require Import Base Node Locate Helpers Rules Runner Config Core.
From Verif.Spec Require Import Pipeline RuleSets.
From Verif.Proofs Require Import BaseFacts PipelineProofs RunProofs ReportProofs GroupProofs RuleSetProofs RuleSetMain.

Definition same_coll (k k' : collection) : Prop := k_set k = k_set k' /\ same_loaded (k_all k) (k_all k').
Lemma same_rules_of k k' : same_coll k k' -> forall r, In r (rules k) <-> In r (rules k').
Proof. intros [Hs [Hl _]] r. unfold rules. rewrite !filter_In, Hs. specialize (Hl r). tauto. Qed.
Lemma same_unique k k' : same_coll k k' -> forall r r', In r (rules k) -> In r' (rules k) -> r_id r = r_id r' -> r = r'.
Proof. intros [_ [_ Hu]] r r' H H'. apply filter_In in H as [H _]. apply filter_In in H' as [H' _]. now apply Hu. Qed.

Definition agree_coll (a b : res collection) : Prop :=
  match a, b with Ok x, Ok y => same_coll x y | Err _, Err _ => True | _, _ => False end.
Lemma map_res_err {A B} (f : A -> res B) l e : map_res f l = Err e -> exists x e', In x l /\ f x = Err e'.
Proof.
  induction l as [|x l IH]; cbn; [discriminate|]. destruct (f x) as [a|e0] eqn:E; cbn; [|intros _; exists x, e0; auto].
  destruct (map_res f l) as [b|e0]; cbn; [discriminate|]. intros H. destruct (IH H) as (y & e' & Hy & He). exists y, e'; auto.
Qed.
Lemma map_res_In {A B} (f : A -> res B) l out : map_res f l = Ok out -> forall y, In y out <-> exists x, In x l /\ f x = Ok y.
Proof.
  intros H. apply map_res_inv in H. induction H as [|x y l l' Hxy H IH]; intros z.
  - split; [intros [] | intros [x [[] _]]].
  - cbn [In]. rewrite IH. split.
    + intros [<-|[w [Hw E]]]; [exists x; auto | exists w; auto].
    + intros [w [[<-|Hw] E]]; [left; congruence | right; exists w; auto].
Qed.
Lemma map_res_each {A B} (f : A -> res B) l out : map_res f l = Ok out -> forall x, In x l -> exists y, f x = Ok y.
Proof.
  intros H. apply map_res_inv in H. induction H as [|x y l l' Hxy H IH]; intros z []; [subst; eauto | auto].
Qed.
Lemma register_id str s r r' : register_effect str s r = Ok r' -> r_id r' = r_id r.
Proof.
  unfold register_effect. destruct (enabled s r); [|congruence]. destruct (assoc _ _) as [cs|]; [|congruence].
  intros H. now apply rule_configure_id in H.
Qed.
Lemma register_same str s l l' : same_loaded l l' ->
  match map_res (register_effect str s) l, map_res (register_effect str s) l' with
  | Ok x, Ok y => same_loaded x y | Err _, Err _ => True | _, _ => False end.
Proof.
  intros [Hl Hu]. destruct (map_res _ l) as [x|e] eqn:E; destruct (map_res _ l') as [y|e'] eqn:E'; auto.
  - split.
    + intros r. rewrite (map_res_In _ _ _ E), (map_res_In _ _ _ E'). split; intros [r0 [H0 K]]; exists r0; split; auto; now apply Hl.
    + intros r r' Hr Hr' Hid. apply (map_res_In _ _ _ E) in Hr as [a [Ha Ka]]. apply (map_res_In _ _ _ E) in Hr' as [b [Hb Kb]].
      assert (a = b). { apply Hu; auto. apply register_id in Ka, Kb. congruence. } subst b. congruence.
  - apply map_res_err in E' as (r & e0 & Hr & K). destruct (map_res_each _ _ _ E r (proj2 (Hl r) Hr)). congruence.
  - apply map_res_err in E as (r & e0 & Hr & K). destruct (map_res_each _ _ _ E' r (proj1 (Hl r) Hr)). congruence.
Qed.
Lemma extend_map str rs : forall k, coll_extend str k rs = do l <- map_res (register_effect str (k_set k)) rs; Ok (mkColl (k_all k ++ l) (k_set k)).
Proof.
  induction rs as [|r rs IH]; intros [all s]; cbn [coll_extend map_res k_all k_set].
  - cbn. now rewrite app_nil_r.
  - unfold coll_register. cbn [k_set k_all]. destruct (register_effect str s r) as [r'|e]; cbn [bind]; [|reflexivity].
    rewrite IH. cbn [k_set k_all]. destruct (map_res _ rs) as [l|e]; cbn [bind]; [|reflexivity]. now rewrite <- app_assoc.
Qed.
Lemma new_same str l l' ig inc cf ex man : same_loaded l l' -> agree_coll (coll_new str l ig inc cf ex man) (coll_new str l' ig inc cf ex man).
Proof.
  intros H. unfold coll_new. rewrite !extend_map. cbn [k_set k_all]. set (s := mkSettings _ _ _ _ _).
  assert (K := register_same str s l l' H). destruct (map_res _ l), (map_res _ l'); cbn; auto. split; [reflexivity | exact K].
Qed.
Lemma configure_same str k k' ig inc cf ex man : same_coll k k' -> agree_coll (coll_configure str k ig inc cf ex man) (coll_configure str k' ig inc cf ex man).
Proof.
  intros [_ H]. unfold coll_configure. set (s := mkSettings _ _ _ _ _).
  assert (K := register_same str s _ _ H). destruct (map_res _ (k_all k)), (map_res _ (k_all k')); cbn; auto. split; [reflexivity | exact K].
Qed.
Lemma init_same_coll k k' c : same_coll k k' -> same_coll (initialize_all k c) (initialize_all k' c).
Proof.
  intros [Hs [Hl Hu]]. split; [exact Hs|]. unfold initialize_all. cbn [k_all]. rewrite Hs. split.
  - intros r. rewrite !in_map_iff. split; intros [r0 [E H]]; exists r0; split; auto; now apply Hl.
  - intros r r' Hr Hr' Hid. apply in_map_iff in Hr as [a [<- Ha]]. apply in_map_iff in Hr' as [b [<- Hb]].
    assert (a = b). { apply Hu; auto. destruct (enabled (k_set k') a), (enabled (k_set k') b); exact Hid. } now subst b.
Qed.
Lemma run_checks_coll sp tr k k' rg man c : same_coll k k' ->
  same_coll (fst (run_checks sp tr k rg man c)) (fst (run_checks sp tr k' rg man c)).
Proof.
  intros H. unfold run_checks. destruct (negb _); [exact H|].
  destruct (if wants_transform (template c) then _ else _) as [[|e es] c']; [|exact H].
  unfold runner_run. rewrite !coll_run_body. cbn [fst]. now apply init_same_coll.
Qed.

Definition same_state (st st' : state) : Prop :=
  st_targs st = st_targs st' /\
  match st_rules st, st_rules st' with Some k, Some k' => same_coll k k' | None, None => True | _, _ => False end.
Definition same_prepared (p p' : res prepared) : Prop :=
  match p, p' with
  | Ok (Errors l), Ok (Errors l') => l = l'
  | Ok (Ready t k), Ok (Ready t' k') => t = t' /\ same_coll k k'
  | Err _, Err _ => True
  | _, _ => False
  end.
Section Lint.
Variable str : val -> string.
Variable sp : spec.
Variable tr : translator.
Variables cli fl : args.
Variables all all' : list rule.
Hypothesis Hall : same_loaded all all'.

Lemma rules_nil k k' : same_coll k k' -> rules k = [] -> rules k' = [].
Proof.
  intros H E. destruct (rules k') as [|r l] eqn:E'; [reflexivity|].
  assert (K : In r (rules k)) by (apply (same_rules_of k k' H); rewrite E'; now left). rewrite E in K. destruct K.
Qed.
Lemma coll_sym k k' : same_coll k k' -> same_coll k' k.
Proof.
  intros [Hs [Hl Hu]]. split; [now symmetry|]. split; [intros r; symmetry; apply Hl|].
  intros r r' Hr Hr'. apply Hu; now apply Hl.
Qed.
Lemma get_same st st' d : same_state st st' ->
  same_state (fst (get_template_rules str all cli fl st d)) (fst (get_template_rules str all' cli fl st' d)) /\
  same_prepared (snd (get_template_rules str all cli fl st d)) (snd (get_template_rules str all' cli fl st' d)).
Proof using Hall.
  intros Hst. destruct Hst as [Ht Hr]. assert (Hst : same_state st st') by (split; assumption).
  unfold get_template_rules, ignore_bad. rewrite <- Ht.
  destruct (if ignore_bad_template _ then _ else _) as [bad|e]; [|split; [exact Hst | exact I]].
  destruct d as [t|errors]; [|split; [exact Hst|]].
  2:{ cbn [snd same_prepared]. reflexivity. }
  destruct (set_template_args (erase t)) as [targs|e]; [|split; [exact Hst | exact I]].
  assert (Hbr : forall k k', agree_coll k k' ->
    same_state (fst (match k with Err e => (mkState (st_rules st) targs, Err e) | Ok x => (mkState (Some x) targs, Ok (Ready t x)) end))
               (fst (match k' with Err e => (mkState (st_rules st') targs, Err e) | Ok x => (mkState (Some x) targs, Ok (Ready t x)) end)) /\
    same_prepared (snd (match k with Err e => (mkState (st_rules st) targs, Err e) | Ok x => (mkState (Some x) targs, Ok (Ready t x)) end))
               (snd (match k' with Err e => (mkState (st_rules st') targs, Err e) | Ok x => (mkState (Some x) targs, Ok (Ready t x)) end))).
  { intros [k|e] [k'|e'] Hk; cbn in Hk; try contradiction; cbn [fst snd]; split; try (split; [reflexivity|]); auto; try exact I. }
  apply Hbr. destruct (ignore_checks _) as [ig|]; cbn [bind]; [|exact I]. destruct (include_checks _) as [inc|]; cbn [bind]; [|exact I].
  destruct (mandatory_checks _) as [man|]; cbn [bind]; [|exact I].
  destruct (st_rules st) as [[l s]|]; destruct (st_rules st') as [[l' s']|]; try contradiction; [|now apply new_same].
  destruct (rules (mkColl l s)) as [|r rs] eqn:E.
  - rewrite (rules_nil _ _ Hr E). now apply new_same.
  - destruct (rules (mkColl l' s')) as [|r' rs'] eqn:E'; [rewrite (rules_nil _ _ (coll_sym _ _ Hr) E') in E; discriminate|].
    now apply configure_same.
Qed.
Lemma alike_refl l : alike l l.
Proof. split; [reflexivity|]. split; intros m Hm; exists m; repeat split; auto. Qed.
Lemma alike_app a a' b b' : alike a a' -> alike b b' -> alike (a ++ b) (a' ++ b').
Proof.
  intros [H [H1 H2]] [K [K1 K2]]. split; [rewrite !about_app; congruence|].
  split; intros m Hm; apply in_app_iff in Hm as [Hm|Hm].
  - destruct (H1 m Hm) as (x & ? & ?). exists x. split; [apply in_app_iff; auto | auto].
  - destruct (K1 m Hm) as (x & ? & ?). exists x. split; [apply in_app_iff; auto | auto].
  - destruct (H2 m Hm) as (x & ? & ?). exists x. split; [apply in_app_iff; auto | auto].
  - destruct (K2 m Hm) as (x & ? & ?). exists x. split; [apply in_app_iff; auto | auto].
Qed.
Lemma lint_one_same st st' name d : same_state st st' ->
  same_state (fst (lint_one str sp tr all cli fl st name d)) (fst (lint_one str sp tr all' cli fl st' name d)) /\
  alike_end (snd (lint_one str sp tr all cli fl st name d)) (snd (lint_one str sp tr all' cli fl st' name d)).
Proof using Hall.
  intros H. unfold lint_one. destruct (get_same st st' d H) as [Hs Hp].
  destruct (get_template_rules str all cli fl st d) as [s p]. destruct (get_template_rules str all' cli fl st' d) as [s' p'].
  cbn [fst snd] in Hs, Hp.
  destruct p as [[l|t k]|e]; destruct p' as [[l'|t' k']|e']; cbn in Hp; try contradiction.
  - subst l'. split; [exact Hs | apply alike_refl].
  - destruct Hp as [<- Hk]. destruct (negb _); [split; [exact Hs | apply alike_refl]|].
    rewrite <- (proj1 Hs). destruct (regions _) as [rg|]; [|split; [exact Hs | exact I]].
    destruct (mandatory_checks _) as [man|]; [|split; [exact Hs | exact I]].
    set (c := mkCfn name _ t).
    assert (K1 := run_checks_coll sp tr k k' rg man c Hk).
    assert (K2 : alike_outcome (snd (run_checks sp tr k rg man c)) (snd (run_checks sp tr k' rg man c))).
    { apply run_checks_alike; try (now rewrite (proj1 Hk)); [now apply same_rules_of | now apply (same_unique k k')]. }
    destruct (run_checks sp tr k rg man c) as [k1 o]. destruct (run_checks sp tr k' rg man c) as [k1' o'].
    cbn [fst snd] in *. split; [split; [reflexivity | exact K1] | exact K2].
  - split; [exact Hs | exact I].
Qed.
Lemma lint_all_same files : forall st st' acc acc', same_state st st' -> alike acc acc' ->
  alike_end (snd (lint_all str sp tr all cli fl st files acc)) (snd (lint_all str sp tr all' cli fl st' files acc')).
Proof using Hall.
  induction files as [|[n d] rest IH]; intros st st' acc acc' Hs Ha; [exact Ha|]. cbn [lint_all].
  destruct (lint_one_same st st' n d Hs) as [H1 H2].
  destruct (lint_one str sp tr all cli fl st n d) as [s [[l|x]|e]]; destruct (lint_one str sp tr all' cli fl st' n d) as [s' [[l'|x']|e']];
    cbn [fst snd] in *; cbn in H2; try contradiction; auto.
  apply IH; auto. now apply alike_app.
Qed.
End Lint.

Lemma c91_loaded str sp tr cli fl all all' files : same_loaded all all' ->
  alike_end (snd (lint_all str sp tr all cli fl initial_state files [])) (snd (lint_all str sp tr all' cli fl initial_state files [])).
Proof. intros H. apply lint_all_same; [exact H | split; [reflexivity | exact I] | apply alike_refl]. Qed.

(** * The exit status *)
Definition has_severity (x : severity) (l : list finding) : bool :=
  existsb (fun m => match severity_of (f_rule m), x with
                    | Informational, Informational | Error, Error | Warning, Warning => true | _, _ => false end) l.
Lemma exit_code_of l : forall c, fold_left exit_step l c =
  Z.lor c (Z.lor (if has_severity Informational l then 8 else 0) (Z.lor (if has_severity Warning l then 4 else 0) (if has_severity Error l then 2 else 0)))%Z.
Proof.
  induction l as [|m l IH]; intros c; [cbn; now rewrite Z.lor_0_r|]. cbn [fold_left has_severity existsb]. rewrite IH.
  unfold exit_step. fold (has_severity Informational l) (has_severity Warning l) (has_severity Error l).
  destruct (severity_of (f_rule m)); cbn [orb]; try reflexivity; rewrite <- Z.lor_assoc; f_equal;
    destruct (has_severity Informational l), (has_severity Warning l), (has_severity Error l); reflexivity.
Qed.
Lemma tells_severity x l l' : tells l l' -> has_severity x l = true -> has_severity x l' = true.
Proof.
  unfold has_severity. rewrite !existsb_exists. intros H (m & Hm & K). destruct (H m Hm) as (m' & Hm' & _ & (_ & _ & E & _)).
  exists m'. split; [exact Hm'|]. now rewrite <- E.
Qed.
Lemma same_exit l l' : same_findings l l' -> get_exit_code l = get_exit_code l'.
Proof.
  intros [H H']. unfold get_exit_code. rewrite !exit_code_of.
  assert (K : forall x, has_severity x l = has_severity x l').
  { intros x. apply eq_true_iff_eq. split; now apply tells_severity. }
  now rewrite !K.
Qed.
Lemma c91_status str sp tr cli fl all all' files o o' : same_loaded all all' ->
  snd (lint_all str sp tr all cli fl initial_state files []) = Ok o -> snd (lint_all str sp tr all' cli fl initial_state files []) = Ok o' ->
  exit_status o = exit_status o'.
Proof.
  intros H E E'. assert (K := c91_loaded str sp tr cli fl all all' files H). rewrite E, E' in K.
  destruct o as [l|x], o' as [l'|x']; cbn in K; try contradiction; cbn [exit_status]; [|exact K]. apply same_exit, K.
Qed.
