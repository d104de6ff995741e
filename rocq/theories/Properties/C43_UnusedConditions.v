(** C43 Unused conditions are reported. *)
From Verif.Model Require Import Base ConditionRules.
From Verif.Spec Require Import Paths References ConditionUse.
From Verif.Proofs Require Import ConditionUseProofs EqualsProofs.

(** Exactly the defined conditions that nothing uses are reported; a Fn::If that is (wrongly) given a text alone counts
    as a use.  Missing for the full property: templates with an empty Fn::If (refuted below). *)
Theorem unused_conditions_are_reported_partial : forall template globals,
  wf template -> wf globals -> plain_uses template globals ->
  exists ms, used_match template globals = Ok ms /\
  forall m, In m ms <-> exists n, m = mkRM [PKey "Conditions"; PKey n] ("Condition " ++ n ++ " not used")%string /\
    condition_defined template n /\ ~ uses_condition template globals n /\ forall p, ~ occurs "Fn::If" template globals p (VStr n).
Proof. exact c43_all. Qed.
Print Assumptions unused_conditions_are_reported_partial.

(** An empty Fn::If ends the check with an IndexError. *)
Theorem unused_conditions_are_reported_refuted : exists template, wf template /\ used_match template (VDict []) = Err EIndex.
Proof. exact c43_empty_if. Qed.
Print Assumptions unused_conditions_are_reported_refuted.

Example stages_meets_the_hypotheses : wf stages /\ wf (VDict []) /\ plain_uses stages (VDict []).
Proof. exact (conj stages_wf (conj (conj (NoDup_nil _) I) stages_uses)). Qed.
Example stages_report : used_match stages (VDict []) = Ok [mkRM [PKey "Conditions"; PKey "Lone"] "Condition Lone not used"].
Proof. exact stages_used. Qed.
