(** C52 Attributes of resources. *)
From Coq Require Import List Permutation QArith ZArith.
Import ListNotations.
From Verif.Model Require Import Base Helpers Rules Search Refs ConditionRules Relationship Limits Parameters Policies Functions.
From Verif.Spec Require Import Paths References ParameterUse ConditionUse FunctionArguments Attributes.
From Verif.Proofs Require Import PlaceholderProofs FunctionProofs CidrProofs MapProofs AttributeProofs JoinProofs SubProofs FunctionWitness.
Import Verif.Model.Rules.
Local Open Scope string_scope.

(** A Fn::GetAtt is reported, at the call, exactly when it does not name a resource of the template and one of its attributes.  Missing for the full property: texts without a dot, on which the rule fails. *)
Theorem attributes_judged_partial : forall template globals types str_of ms,
  wf template -> wf globals -> plain_sections template -> plain_types types ->
  getatt_match template globals str_of types = Ok ms -> judged "Fn::GetAtt" template globals (unless (getatt_ok types template)) ms.
Proof. exact c52_getatt. Qed.
Print Assumptions attributes_judged_partial.

(** A Fn::GetAtt without an attribute raises an exception; one without a resource is accepted. *)
Theorem attributes_refuted : (exists t, wf t /\ plain_sections t /\ getatt_match t nothing show shop_types = Err EValue) /\
  (exists t p, wf t /\ plain_sections t /\ occurs "Fn::GetAtt" t nothing p (VStr ".Arn") /\ getatt_match t nothing show shop_types = Ok []).
Proof. exact c52_refuted. Qed.
Print Assumptions attributes_refuted.

Example getatts_wf_ : wf getatts_sample.
Proof. exact getatts_wf. Qed.

Example getatts_plain_ : forall ps,
  plain_sections (shop ps).
Proof. exact shop_plain. Qed.

Example types_plain_ : plain_types shop_types.
Proof. exact shop_types_plain. Qed.

Example getatts_found_ : finds (getatt_match getatts_sample nothing show shop_types)
  [at_topic [PKey "F"; PKey "Fn::GetAtt"]; at_topic [PKey "G"; PKey "Fn::GetAtt"]; at_topic [PKey "G"; PKey "Fn::GetAtt"]; at_topic [PKey "H"; PKey "Fn::GetAtt"]; at_topic [PKey "I"; PKey "Fn::GetAtt"]].
Proof. exact getatts_found. Qed.
