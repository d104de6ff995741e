(** C22 Undefined conditions are reported. *)
From Verif.Model Require Import Base ConditionRules.
From Verif.Spec Require Import Paths References ConditionUse.
From Verif.Proofs Require Import ConditionUseProofs EqualsProofs ConditionMore.

(** Each undefined condition that is used is reported once, and nothing else is.  Missing for the full property:
    resources without a Type and templates with an empty Fn::If (both refuted below). *)
Theorem undefined_conditions_are_reported_partial : forall template globals str_of,
  wf template -> wf globals -> plain_uses template globals ->
  exists ms, exists_match template globals str_of = Ok ms /\ NoDup (map rm_msg ms) /\
  (forall m, In m ms -> exists n, rm_msg m = ("Condition " ++ n ++ " is not defined.")%string /\
     uses_condition template globals n /\ ~ condition_defined template n) /\
  (forall n, uses_condition template globals n -> ~ condition_defined template n ->
     exists m, In m ms /\ rm_msg m = ("Condition " ++ n ++ " is not defined.")%string).
Proof. exact (fun t g s H1 H2 H3 => c22_all t g s H1 H2 H3). Qed.
Print Assumptions undefined_conditions_are_reported_partial.

(** The undefined condition of a resource without a Type is not reported. *)
Theorem undefined_conditions_untyped_refuted : exists template n r o, wf template /\ plain_uses template (VDict []) /\
  defined_in "Resources" template r o /\ assoc "Condition" o = Some (VStr n) /\ ~ condition_defined template n /\
  exists_match template (VDict []) (fun _ => "") = Ok [].
Proof. exact c22_untyped. Qed.
Print Assumptions undefined_conditions_untyped_refuted.

(** An empty Fn::If ends the check with an IndexError. *)
Theorem undefined_conditions_empty_if_refuted : exists template, wf template /\ exists_match template (VDict []) (fun _ => "") = Err EIndex.
Proof. exact (ex_intro _ empty_if (conj (proj1 empty_if_fails) (proj1 (proj2 empty_if_fails)))). Qed.
Print Assumptions undefined_conditions_empty_if_refuted.

(** An undefined condition of an output is reported at a place that does not exist: under the name of the condition instead of that of the
    output. *)
Theorem output_condition_place_refuted : exists template o attrs n m, wf template /\ defined_in "Outputs" template o attrs /\
  assoc "Condition" attrs = Some (VStr n) /\ ~ condition_defined template n /\
  exists_match template (VDict []) (fun _ => "") = Ok [m] /\ at_path (rm_path m) template = None.
Proof. exact output_place. Qed.
Print Assumptions output_condition_place_refuted.

(** An output whose condition is a list ends the check with a TypeError. *)
Theorem output_condition_list_refuted : exists template, wf template /\ (forall p, ~ occurs "Fn::If" template (VDict []) p (VList [])) /\
  exists_match template (VDict []) (fun _ => "") = Err ETypeErr.
Proof. exact output_list. Qed.
Print Assumptions output_condition_list_refuted.

(** Uses of four kinds, two of them of undefined conditions. *)
Example stages_meets_the_hypotheses : wf stages /\ wf (VDict []) /\ plain_uses stages (VDict []).
Proof. exact (conj stages_wf (conj (conj (NoDup_nil _) I) stages_uses)). Qed.
Example stages_report : exists_match stages (VDict []) (fun _ => "") =
  Ok [mkRM [PKey "Resources"; PKey "A"; PKey "Properties"; PKey "X"; PKey "Fn::If"] "Condition Absent is not defined.";
      mkRM [PKey "Conditions"; PKey "Missing"] "Condition Missing is not defined."].
Proof. exact stages_exists. Qed.
