(** C54 Needless variables and needless Fn::Sub. *)
From Coq Require Import List Permutation QArith ZArith.
Import ListNotations.
From Verif.Model Require Import Base Helpers Rules Search Refs ConditionRules Relationship Limits Parameters Policies Functions.
From Verif.Spec Require Import Paths References ParameterUse ConditionUse FunctionArguments Attributes.
From Verif.Proofs Require Import PlaceholderProofs FunctionProofs CidrProofs MapProofs AttributeProofs JoinProofs SubProofs FunctionWitness.
Import Verif.Model.Rules.
Local Open Scope string_scope.

(** A variable given to a Fn::Sub is reported exactly when the text does not use it. *)
Theorem unused_variables_reported : forall template globals,
  wf template -> wf globals -> closed_subs template globals ->
  exists ms, sub_used_match template globals = Ok ms /\ judged "Fn::Sub" template globals sub_unused ms.
Proof. exact c54_used. Qed.
Print Assumptions unused_variables_reported.

(** A Fn::Sub is reported exactly when its text uses no variable. *)
Theorem unneeded_substitutions_reported : forall pre ms,
  wf pre -> closed_subs pre (VDict []) -> sub_unneeded_match pre = Ok ms -> judged "Fn::Sub" pre (VDict []) sub_unneeded ms.
Proof. exact c54_unneeded. Qed.
Print Assumptions unneeded_substitutions_reported.

Example sub_uses_wf : wf subs.
Proof. exact subs_wf. Qed.

Example sub_uses_closed : closed_subs subs nothing.
Proof. exact subs_closed. Qed.

Example sub_uses_found_ : finds (sub_used_match subs nothing) [at_topic [PKey "E"; PKey "Fn::Sub"; PIdx 1]] /\ finds (sub_unneeded_match subs) [at_topic [PKey "F"; PKey "Fn::Sub"]].
Proof. exact sub_uses_found. Qed.
