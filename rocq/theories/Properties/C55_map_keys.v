(** C55 Keys of maps. *)
From Coq Require Import List Permutation QArith ZArith.
Import ListNotations.
From Verif.Model Require Import Base Helpers Rules Search Refs ConditionRules Relationship Limits Parameters Policies Functions.
From Verif.Spec Require Import Paths References ParameterUse ConditionUse FunctionArguments Attributes.
From Verif.Proofs Require Import PlaceholderProofs FunctionProofs CidrProofs MapProofs AttributeProofs JoinProofs SubProofs FunctionWitness.
Import Verif.Model.Rules.
Local Open Scope string_scope.

(** A Fn::FindInMap is reported exactly when its map lacks a key it names, whichever of its keys are known. *)
Theorem map_keys_judged : forall template globals str_of ms,
  wf template -> wf globals -> plain_maps template -> find_keys_match template globals str_of = Ok ms ->
  judged "Fn::FindInMap" template globals (map_keys_fault template) ms.
Proof. exact c55_keys. Qed.
Print Assumptions map_keys_judged.

(** The rule does not fail if all arguments are lists. *)
Theorem map_keys_rule_total : forall template globals str_of,
  wf template -> wf globals -> plain_maps template ->
  (forall p v, occurs "Fn::FindInMap" template globals p v -> list_ok v) -> exists ms, find_keys_match template globals str_of = Ok ms.
Proof. exact c55_total. Qed.
Print Assumptions map_keys_rule_total.

Example map_keys_wf : wf shapes.
Proof. exact shapes_wf. Qed.

Example map_keys_plain : forall ps,
  plain_maps (shop ps) /\ plain_mappings (shop ps) /\ plain_parameters (shop ps).
Proof. exact shop_mappings. Qed.

Example keys_found_ : finds (find_keys_match shapes nothing show) [at_topic [PKey "Q"; PKey "Fn::FindInMap"; PIdx 1]].
Proof. exact keys_found. Qed.
