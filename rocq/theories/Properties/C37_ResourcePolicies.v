(** C37 Resource policies. *)
From Verif.Model Require Import Base Rules Search Conditions Resolve Relationship Policies.
From Verif.Spec Require Import Paths Resolved References Limited ConditionUse ParameterUse Faults Booleans Protect.
From Verif.Proofs Require Import PolicyProofs.
Import Verif.Model.Rules.
Local Open Scope string_scope.

(** The match of DeletionPolicy and of UpdateReplacePolicy, [attr] being either.  Missing for the full property: policies given as an empty value (refuted below). *)
Theorem policies_are_checked_partial : forall show attr template, wf template -> (forall n o v, resource template n o -> assoc attr o = Some v -> ~ empty v) ->
  exists ms, policy_match show attr template = Ok ms /\
  forall m, In m ms <-> exists n o, resource template n o /\ policy_fault (py_str show) attr n o (rm_path m) (rm_msg m).
Proof. exact c37_all. Qed.
Print Assumptions policies_are_checked_partial.

(** An empty policy is no allowed value but goes unreported. *)
Theorem policies_are_checked_refuted : exists template n o v, wf template /\ resource template n o /\ assoc "DeletionPolicy" o = Some v /\
  (forall show, exists p msg, policy_fault show "DeletionPolicy" n o p msg) /\ forall show, policy_match show "DeletionPolicy" template = Ok [].
Proof. exact c37_empty. Qed.
Print Assumptions policies_are_checked_refuted.

Example market_meets_the_hypotheses : wf market /\ forall n o v, resource market n o -> assoc "DeletionPolicy" o = Some v -> ~ empty v.
Proof. exact (conj market_wf (fun n o v => market_given "DeletionPolicy" n o v (or_introl eq_refl))). Qed.
Example market_is_reported : forall show, policy_match show "DeletionPolicy" market = Ok
  [mkRM [PKey "Resources"; PKey "Bucket"; PKey "DeletionPolicy"] "DeletionPolicy cannot be Snapshot for resources of type AWS::S3::Bucket at Resources/Bucket/DeletionPolicy";
   mkRM [PKey "Resources"; PKey "Table"; PKey "DeletionPolicy"] "DeletionPolicy should be only one of Delete, Retain, Snapshot at Resources/Table/DeletionPolicy";
   mkRM [PKey "Resources"; PKey "Queue"; PKey "DeletionPolicy"] "Only one DeletionPolicy allowed per resource at Resources/Queue/DeletionPolicy"].
Proof. exact market_policy_report. Qed.
