(** The shipped rules that read an input (C113). *)
From Coq Require Import List String ZArith Bool Permutation.
From Verif.Model Require Import Base Node Locate Helpers Rules Runner Config Core Standard.
From Verif.Spec Require Import Pipeline Inputs.
From Verif.Proofs Require Import BaseFacts PipelineProofs RunProofs ReportProofs RuleSetMain StandardProofs.
Import Verif.Model.Rules.
Import ListNotations.
Local Open Scope string_scope.

(** The same rule, or two that may differ in what they check. *)
Definition counterpart (ids : list string) (r r' : rule) : Prop :=
  r = r' \/ In (r_id r) ids /\ r_id r = r_id r' /\ r_experimental r = r_experimental r' /\ r_definition r = r_definition r' /\ r_config r = r_config r'.
Ltac same_or_read := first [right; split; [solve [repeat first [left; reflexivity | right]] | repeat split] | left; reflexivity].
Lemma input_rules ids w w' : input ids w w' -> Forall2 (counterpart ids) (shipped w) (shipped w').
Proof.
  intros []; unfold shipped; repeat apply Forall2_app; repeat (apply Forall2_cons; [same_or_read|]); apply Forall2_nil.
Qed.
