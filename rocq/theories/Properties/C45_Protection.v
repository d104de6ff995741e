(** C45 Protection from deletion. *)
From Verif.Model Require Import Base Rules Search Conditions Resolve Relationship Policies.
From Verif.Spec Require Import Paths Resolved References Limited ConditionUse ParameterUse Faults Booleans Protect.
From Verif.Proofs Require Import PolicyProofs.
Import Verif.Model.Rules.
Local Open Scope string_scope.

(** A resource kept from deletion in one way only. *)
Theorem half_protected_resources_are_reported : forall template, wf template ->
  exists ms, both_match template = Ok ms /\
  forall m, In m ms <-> exists n o, resource template n o /\ ~ of_type o ["AWS::Lambda::Version"; "AWS::Lambda::LayerVersion"] /\
    (keeps o "DeletionPolicy" /\ ~ given o "UpdateReplacePolicy" \/ keeps o "UpdateReplacePolicy" /\ ~ given o "DeletionPolicy") /\
    m = mkRM [PKey "Resources"; PKey n] ("Both UpdateReplacePolicy and DeletionPolicy are needed to protect Resources/" ++ n ++ " from deletion").
Proof. exact c45_both. Qed.
Print Assumptions half_protected_resources_are_reported.

(** A resource that holds data, without both policies. *)
Theorem stateful_resources_are_reported : forall template, wf template ->
  exists ms, stateful_match template = Ok ms /\
  forall m, In m ms <-> exists n o, resource template n o /\ of_type o stateful_types /\ ~ (given o "DeletionPolicy" /\ given o "UpdateReplacePolicy") /\
    m = mkRM [PKey "Resources"; PKey n] ("The default action when replacing/removing a resource is to delete it. Set explicit values for UpdateReplacePolicy / DeletionPolicy on potentially stateful resource: Resources/" ++ n).
Proof. exact c45_stateful. Qed.
Print Assumptions stateful_resources_are_reported.

Example market_meets_the_hypotheses : wf market.
Proof. exact market_wf. Qed.
Example market_half_protected : both_match market = Ok
  [mkRM [PKey "Resources"; PKey "Bucket"] "Both UpdateReplacePolicy and DeletionPolicy are needed to protect Resources/Bucket from deletion";
   mkRM [PKey "Resources"; PKey "Table"] "Both UpdateReplacePolicy and DeletionPolicy are needed to protect Resources/Table from deletion";
   mkRM [PKey "Resources"; PKey "Queue"] "Both UpdateReplacePolicy and DeletionPolicy are needed to protect Resources/Queue from deletion"].
Proof. exact market_protect. Qed.
Example market_stateful_resources : exists a b, stateful_match market = Ok [a; b].
Proof. exact market_stateful. Qed.
