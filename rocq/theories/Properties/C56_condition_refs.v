(** C56 Resources in conditions. *)
From Coq Require Import List Permutation QArith ZArith.
Import ListNotations.
From Verif.Model Require Import Base Helpers Rules Search Refs ConditionRules Relationship Limits Parameters Policies Functions.
From Verif.Spec Require Import Paths References ParameterUse ConditionUse FunctionArguments Attributes.
From Verif.Proofs Require Import PlaceholderProofs FunctionProofs CidrProofs MapProofs AttributeProofs JoinProofs SubProofs FunctionWitness.
Import Verif.Model.Rules.
Local Open Scope string_scope.

(** A Ref is reported exactly when it is somewhere in the Conditions and names a resource. *)
Theorem condition_refs_judged : forall template globals,
  wf template -> wf globals -> plain_sections template ->
  exists ms, ref_condition_match template globals = Ok ms /\ judged "Ref" template globals (resource_in_conditions template) ms.
Proof. exact c56_conditions. Qed.
Print Assumptions condition_refs_judged.

Example condition_refs_wf : wf shapes.
Proof. exact shapes_wf. Qed.

Example condition_refs_plain : forall ps,
  plain_sections (shop ps).
Proof. exact shop_plain. Qed.

Example conditions_found_ : finds (ref_condition_match shapes nothing) [[PKey "Conditions"; PKey "Odd"; PKey "Fn::Equals"; PIdx 0; PKey "Ref"]].
Proof. exact conditions_found. Qed.
