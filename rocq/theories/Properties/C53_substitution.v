(** C53 Variables of Fn::Sub. *)
From Coq Require Import List Permutation QArith ZArith.
Import ListNotations.
From Verif.Model Require Import Base Helpers Rules Search Refs ConditionRules Relationship Limits Parameters Policies Functions.
From Verif.Spec Require Import Paths References ParameterUse ConditionUse FunctionArguments Attributes.
From Verif.Proofs Require Import PlaceholderProofs FunctionProofs CidrProofs MapProofs AttributeProofs JoinProofs SubProofs FunctionWitness.
Import Verif.Model.Rules.
Local Open Scope string_scope.

(** A Fn::Sub is reported exactly when its argument is malformed or a variable in its text is nothing that can stand in a text.  Missing for the full property: arguments on which the rule fails. *)
Theorem substitutions_judged_partial : forall template globals types str_of ms,
  wf template -> wf globals -> plain_sections template -> plain_types types ->
  dotless_parameters template -> closed_subs template globals ->
  sub_match template globals str_of types = Ok ms -> judged "Fn::Sub" template globals (sub_fault types template) ms.
Proof. exact c53_sub. Qed.
Print Assumptions substitutions_judged_partial.

(** A Fn::Sub whose first argument is a number raises an exception. *)
Theorem substitutions_refuted : exists t, wf t /\ plain_sections t /\ sub_match t nothing show shop_types = Err ETypeErr.
Proof. exact c53_refuted. Qed.
Print Assumptions substitutions_refuted.

Example subs_wf_ : wf subs.
Proof. exact subs_wf. Qed.

Example subs_closed_ : closed_subs subs nothing.
Proof. exact subs_closed. Qed.

Example subs_plain_ : forall ps,
  plain_sections (shop ps).
Proof. exact shop_plain. Qed.

Example subs_dotless_ : forall ps,
  dotless_parameters (shop ps).
Proof. exact shop_dotless. Qed.

Example subs_found_ : finds (sub_match subs nothing show shop_types)
  [at_topic [PKey "C"; PKey "Fn::Sub"]; at_topic [PKey "D"; PKey "Fn::Sub"]; at_topic [PKey "E"; PKey "Fn::Sub"; PIdx 0]; at_topic [PKey "E"; PKey "Fn::Sub"; PKey "x"]; at_topic [PKey "E"; PKey "Fn::Sub"]].
Proof. exact subs_found. Qed.
