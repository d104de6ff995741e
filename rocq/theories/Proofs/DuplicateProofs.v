(** C30: repeated items of lists. *)
From Coq Require Import Permutation Lia.
From Verif.Model Require Import Base Helpers Node Conditions Search Resolve Rules Relationship Parameters JsonDump PropertyRules.
From Verif.Spec Require Import Paths SameJson Branches Required Truth Resolved Groups.
From Verif.Proofs Require Import BaseFacts DumpProofs BranchProofs SearchProofs ConditionProofs ResolveProofs ConditionWitness SetProofs PropertyRuleProofs.
Import ListNotations.
Local Open Scope string_scope.

Section D.
Variable sha1 : string -> string.
Variable float_text : QArith_base.Q -> string.
Hypothesis Hft : float_texts float_text.

Fixpoint dup_from (i : nat) (l : list val) (seen : list string) : list nat :=
  match l with
  | [] => []
  | v :: rest => let h := sha1 (dumps float_text v) in
      ((if smem h seen then [i] else []) ++ dup_from (S i) rest (seen ++ [h]))%list
  end.
Lemma dup_from_map p s l : forall i seen, duplicates_from sha1 float_text p s i l seen = map (duplicate_match p s) (dup_from i l seen).
Proof.
  induction l as [|v l IH]; intros i seen; cbn [duplicates_from dup_from]; [reflexivity|]. rewrite IH, map_app. f_equal.
  now destruct (smem (sha1 (dumps float_text v)) seen).
Qed.
Lemma dup_from_ge l : forall i seen k, In k (dup_from i l seen) -> i <= k.
Proof.
  induction l as [|v l IH]; intros i seen k; cbn [dup_from]; [intros []|]. rewrite in_app_iff. intros [H|H].
  - destruct (smem (sha1 (dumps float_text v)) seen); [|destruct H]. destruct H as [<-|[]]. lia.
  - apply IH in H. lia.
Qed.
Lemma dup_from_NoDup l : forall i seen, NoDup (dup_from i l seen).
Proof.
  induction l as [|v l IH]; intros i seen; cbn [dup_from]; [constructor|]. destruct (smem (sha1 (dumps float_text v)) seen); cbn [app]; [|apply IH].
  constructor; [|apply IH]. intros H. apply dup_from_ge in H. lia.
Qed.
Lemma dup_from_in l : forall i seen k, In k (dup_from i l seen) <->
  exists j y, k = i + j /\ nth_error l j = Some y /\
    (In (sha1 (dumps float_text y)) seen \/ exists j' x, j' < j /\ nth_error l j' = Some x /\ sha1 (dumps float_text x) = sha1 (dumps float_text y)).
Proof.
  induction l as [|v l IH]; intros i seen k; cbn [dup_from].
  - split; [intros [] | intros [j [y [_ [H _]]]]; destruct j; discriminate].
  - rewrite in_app_iff, IH. split.
    + intros [H|[j [y [-> [Hj H]]]]].
      * destruct (smem (sha1 (dumps float_text v)) seen) eqn:E; [|destruct H]. destruct H as [<-|[]]. exists 0, v. split; [lia|]. split; [reflexivity|]. left. now apply smem_iff.
      * exists (S j), y. split; [lia|]. split; [exact Hj|]. destruct H as [H|[j' [x [H1 [H2 H3]]]]].
        -- apply in_app_iff in H as [H|[H|[]]]; [now left|]. right. exists 0, v. split; [lia|]. now split.
        -- right. exists (S j'), x. split; [lia|]. now split.
    + intros [[|j] [y [-> [Hj H]]]].
      * left. injection Hj as <-. destruct H as [H|[j' [x [H _]]]]; [|lia]. apply smem_iff in H. rewrite H. left. lia.
      * right. exists j, y. split; [lia|]. split; [exact Hj|]. destruct H as [H|[[|j'] [x [H1 [H2 H3]]]]].
        -- left. apply in_app_iff. now left.
        -- injection H2 as <-. left. apply in_app_iff. right. now left.
        -- right. exists j', x. split; [lia|]. now split.
Qed.


Lemma duplicates_spec p s l : Forall wf l -> no_collision sha1 (map (dumps float_text) l) ->
  exists idx, duplicates_in sha1 float_text p s (VList l) = map (duplicate_match p s) idx /\ NoDup idx /\ forall i, In i idx <-> repeats l i.
Proof.
  intros Hw Hc. exists (dup_from 0 l []). split; [apply dup_from_map|]. split; [apply dup_from_NoDup|]. intros i. rewrite dup_from_in. rewrite Forall_forall in Hw. unfold repeats. split.
  - intros [j [y [-> [Hj [[]|[j' [x [H1 [H2 H3]]]]]]]]]. exists j', x, y. repeat split; auto. apply (dumps_told _ Hft).
    + apply Hw. eapply nth_error_In; eauto.
    + apply Hw. eapply nth_error_In; eauto.
    + apply Hc; [apply in_map; eapply nth_error_In; eauto .. | exact H3].
  - intros [j [x [y [H1 [H2 [H3 H4]]]]]]. exists i, y. split; [reflexivity|]. split; [exact H3|]. right. exists j, x. repeat split; auto.
    f_equal. apply (same_dumps _ Hft); auto; apply Hw; eapply nth_error_In; eauto.
Qed.

Definition duplicate_at (p : path) (i : nat) : rulematch :=
  mkRM (p ++ [PIdx i])%list ("List has a duplicate value at " ++ path_text (p ++ [PIdx i])%list).
Variable order : list string -> list string.
Variable c : conditions.
Lemma c30_list p l : Forall wf l -> no_collision sha1 (map (dumps float_text) l) ->
  exists idx, check_duplicates order c sha1 float_text (VList l) p =
      Ok (map (fun i => mkRM (p ++ [PIdx i])%list ("List has a duplicate value at " ++ path_text (p ++ [PIdx i])%list)) idx) /\
    NoDup idx /\ forall i, In i idx <-> repeats l i.
Proof. intros Hw Hc. destruct (duplicates_spec p None l Hw Hc) as [idx [E H]]. exists idx. split; [|exact H]. cbn [check_duplicates]. now rewrite E. Qed.
Lemma c30_other v p : is_list v = false -> is_dict v = false -> check_duplicates order c sha1 float_text v p = Ok [].
Proof. destruct v; try reflexivity; discriminate. Qed.
Lemma c30_object d p : plain_object d -> forall ms, check_duplicates order c sha1 float_text (VDict d) p = Ok ms -> ms = [].
Proof.
  intros Hd ms. cbn [check_duplicates]. destruct (get_object_without_conditions order c (VDict d) []) as [sets|] eqn:E; cbn [bind]; [|discriminate]. intros [= <-].
  destruct Hd as [Hk [Hif Hpl]]. assert (H : forall so, In so sets -> duplicates_in sha1 float_text p (fst so) (snd so) = []).
  { intros [s o] Hi. destruct (c18_only order c d [] sets s o Hk Hif Hpl E Hi) as [[-> ->]|[sc [d' [-> [_ ->]]]]]; reflexivity. }
  clear E. induction sets as [|so sets IH]; [reflexivity|]. cbn [flat_map]. rewrite (H so (or_introl eq_refl)), IH; [reflexivity|]. intros so' Hi. apply H. now right.
Qed.
Lemma c30_rule applies props specs p ms : all_objects (VDict props) p -> wf (VDict props) ->
  duplicates_check order c sha1 float_text applies (VDict props) specs p = Ok ms ->
  forall m, In m ms <-> exists d q prop ps x o, branch (VDict props) p (VDict d) q /\ assoc prop d = Some x /\ assoc prop specs = Some ps /\
    applies ps = true /\ check_duplicates order c sha1 float_text x (q ++ [PKey prop])%list = Ok o /\ In m o.
Proof.
  intros Ha Hw H m. rewrite (per_property_in _ _ _ _ _ Ha H). split.
  - intros [d [q [prop [ps [o [Hb [Hk [Hs [Hf Hm]]]]]]]]]. destruct (applies ps) eqn:E; [|injection Hf as <-; destruct Hm].
    cbn [item_of] in Hf. destruct (assoc prop d) as [x|] eqn:Ex; cbn [bind] in Hf; [|discriminate]. exists d, q, prop, ps, x, o. auto 10.
  - intros [d [q [prop [ps [x [o [Hb [Hx [Hs [E [Hf Hm]]]]]]]]]]]. exists d, q, prop, ps, o. rewrite E. cbn [item_of]. rewrite Hx. cbn [bind].
    split; [exact Hb|]. split; [|auto]. apply assoc_In in Hx. apply in_map_iff. exists (prop, x). auto.
Qed.
Lemma c30_real cn t e p ms : conditional_list (if_ cn t e) ->
  (forall sc l, resolved (decides sc) (if_ cn t e) (Some (VList l)) -> Forall wf l /\ no_collision sha1 (map (dumps float_text) l)) ->
  check_duplicates order c sha1 float_text (if_ cn t e) p = Ok ms ->
  forall m, In m ms -> exists sc l i, resolved (decides sc) (if_ cn t e) (Some (VList l)) /\ repeats l i /\
    m = duplicate_match p (Some sc) i.
Proof.
  intros Hcl Hn. change (check_duplicates order c sha1 float_text (if_ cn t e) p) with (do sets <- get_object_without_conditions order c (if_ cn t e) []; Ok (flat_map (fun so => duplicates_in sha1 float_text p (fst so) (snd so)) sets)).
  destruct (get_object_without_conditions order c (if_ cn t e) []) as [sets|] eqn:E; cbn [bind]; [|discriminate]. intros [= <-] m Hm.
  apply in_flat_map in Hm as [[s o] [Hi Hm]]. cbn [fst snd] in Hm.
  unfold get_object_without_conditions in E. cbn [selected bind] in E. destruct (get_conditions_scenarios_from_object order c [if_ cn t e]) as [scs|]; cbn [bind] in E; [|discriminate].
  unfold if_ in E at 1. destruct scs as [|sc0 scs].
  - cbn in E. injection E as <-. destruct Hi as [[= <- <-]|[]]. destruct Hm.
  - destruct (resolve_all_from _ _ _ E _ _ Hi) as [sc [-> [_ [Hv _]]]].
    destruct (plain_ifs_total (decides sc) (if_ cn t e) (conditional_list_plain _ Hcl)) as [r Hr]. rewrite (c18_if sc cn t e r Hr) in Hv. injection Hv as <-.
    destruct r as [x|]; [|destruct Hm]. destruct x as [| | | | |l|]; try destruct Hm. destruct (Hn sc l Hr) as [Hw Hnc].
    destruct (duplicates_spec p (Some sc) l Hw Hnc) as [idx [Ed [_ Hidx]]]. rewrite Ed in Hm. apply in_map_iff in Hm as [i [<- Hm]]. apply Hidx in Hm. exists sc, l, i. auto.
Qed.
End D.
Lemma scenario_of_nonempty names b sc : names <> [] -> Permutation sc (scenario_of names b) -> exists x sc', sc = x :: sc'.
Proof. intros Hn Hp. destruct sc as [|x sc]; [|eauto]. apply Permutation_nil in Hp. destruct names; [congruence | discriminate]. Qed.
Lemma c30_found sha1 float_text hash order template defs parameters fuel w b c t e names l i p ms :
  float_texts float_text ->
  (forall v, digest (hash v)) -> (forall l, Permutation (order l) l) ->
  section_of "Conditions" template defs -> section_of "Parameters" template parameters ->
  conditional_list (if_ c t e) ->
  NoDup names -> (forall n, In n names <-> chosen_by (if_ c t e) n) ->
  (forall n, In n names -> mem_assoc n (cs_conditions (load hash fuel template)) = true) ->
  (List.length names <= 4 \/ some_related defs names) ->
  deployment hash parameters w -> gives defs w names b ->
  resolved (known names b) (if_ c t e) (Some (VList l)) -> Forall wf l -> repeats l i ->
  check_duplicates order (load hash fuel template) sha1 float_text (if_ c t e) p = Ok ms ->
  exists sc, Permutation sc (scenario_of names b) /\
    In (mkRM p ("List has a duplicate value at " ++ path_text p ++ " when " ++ plain_scenario_text sc)) ms.
Proof.
  intros Hft Hh Ho Hc Hp Hcl Hnd Hn Hl Hs Hw Hg Hr Hwf Hrep Hms. change (check_duplicates order (load hash fuel template) sha1 float_text (if_ c t e) p) with (do sets <- get_object_without_conditions order (load hash fuel template) (if_ c t e) []; Ok (flat_map (fun so => duplicates_in sha1 float_text p (fst so) (snd so)) sets)) in Hms.
  destruct (get_object_without_conditions order (load hash fuel template) (if_ c t e) []) as [sets|] eqn:E; cbn [bind] in Hms; [|discriminate]. injection Hms as <-.
  assert (Hlne : l <> []) by (destruct Hrep as [j [x [y [_ [H _]]]]]; intros ->; destruct j; discriminate).
  destruct (list_set_found hash order template defs parameters fuel w b c t e names l Hh Ho Hc Hp Hcl Hnd Hn Hl Hs Hw Hg Hr Hlne sets E) as [sc [Hi Hperm]].
  exists sc. split; [exact Hperm|]. apply in_flat_map. exists (Some sc, VList l). split; [exact Hi|]. cbn [fst snd duplicates_in]. rewrite dup_from_map. apply in_map_iff.
  assert (Hne : names <> []) by (intros ->; destruct (proj2 (Hn c) (cb_here _ _ _))).
  destruct (scenario_of_nonempty names b sc Hne Hperm) as [x [sc' ->]]. exists i. split; [reflexivity|]. apply dup_from_in.
  destruct Hrep as [j [x1 [x2 [H1 [H2 [H3 H4]]]]]]. exists i, x2. split; [reflexivity|]. split; [exact H3|]. right. exists j, x1. split; [exact H1|]. split; [exact H2|].
  rewrite Forall_forall in Hwf. f_equal. apply (same_dumps _ Hft); auto; apply Hwf; eapply nth_error_In; eauto.
Qed.

(** Which properties the two rules look at. *)
Lemma opt_eqb_iff o s : opt_eqb o s = true <-> o = Some s.
Proof. destruct o as [x|]; cbn; [|split; discriminate]. rewrite String.eqb_eq. split; congruence. Qed.
Lemma no_duplicates_iff ps : no_duplicates ps = true <-> ps_type ps = Some "List" /\ ps_duplicates ps = Some false.
Proof.
  unfold no_duplicates. rewrite andb_true_iff, opt_eqb_iff. destruct (ps_duplicates ps) as [[|]|]; cbn; intuition congruence.
Qed.
Lemma duplicates_discouraged_iff ps : duplicates_discouraged ps = true <->
  ps_type ps = Some "List" /\ ps_duplicates ps = Some true /\ (ps_primitive_item ps = Some "String" \/ ps_primitive_item ps = Some "Integer").
Proof.
  unfold duplicates_discouraged. rewrite !andb_true_iff, opt_eqb_iff. destruct (ps_duplicates ps) as [[|]|]; destruct (ps_primitive_item ps) as [k|]; try (intuition congruence; fail).
  rewrite smem_iff. cbn [In]. intuition congruence.
Qed.

