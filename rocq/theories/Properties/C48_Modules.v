(** C48 Modules. *)
From Verif.Model Require Import Base Rules Search Conditions Resolve Relationship Policies.
From Verif.Spec Require Import Paths Resolved References Limited ConditionUse ParameterUse Faults Booleans Protect.
From Verif.Proofs Require Import PolicyProofs.
Import Verif.Model.Rules.
Local Open Scope string_scope.

(** Tags, policies and the reserved Metadata key in modules.  Missing for the full property: other attributes that end in ::MODULE and the reserved key at the top of the template (refuted below). *)
Theorem modules_are_checked_partial : forall show template globals, wf template -> wf globals ->
  (forall n o, resource template n o -> exists t, assoc "Type" o = Some (VStr t)) ->
  (forall n o k v s, resource template n o -> k <> "Type" -> assoc k o = Some v -> py_str show v <> s ++ "::MODULE") ->
  (forall n o v, module template n o -> assoc "Properties" o = Some v -> exists ps, v = VDict ps) ->
  (forall v, ~ occurs "AWS::CloudFormation::Module" template globals [] v) ->
  exists ms, modules_match show template globals = Ok ms /\
  forall m, In m ms <-> module_fault template globals (rm_path m) (rm_msg m).
Proof. exact c48_all. Qed.
Print Assumptions modules_are_checked_partial.

(** A resource that is no module is checked as one when any of its attributes ends in ::MODULE. *)
Theorem modules_are_checked_refuted : exists template, wf template /\ (forall n o, ~ module template n o) /\
  forall show, modules_match show template (VDict []) = Ok [mkRM [PKey "Resources"; PKey "R"; PKey "CreationPolicy"] "CreationPolicy is not permitted within Modules"].
Proof. exact c48_other_attribute. Qed.
Print Assumptions modules_are_checked_refuted.

(** The reserved key at the top of the template ends the check with a TypeError. *)
Theorem module_check_crash_refuted : exists template, wf template /\ forall show, modules_match show template (VDict []) = Err ETypeErr.
Proof. exact c48_crash. Qed.
Print Assumptions module_check_crash_refuted.

Example market_meets_the_hypotheses : wf market /\ (forall n o, resource market n o -> exists t, assoc "Type" o = Some (VStr t)) /\
  (forall n o k v s, resource market n o -> k <> "Type" -> assoc k o = Some v -> py_str blank v <> s ++ "::MODULE") /\
  (forall n o v, module market n o -> assoc "Properties" o = Some v -> exists ps, v = VDict ps) /\
  (forall v, ~ occurs "AWS::CloudFormation::Module" market (VDict []) [] v).
Proof. exact (conj market_wf (conj market_types (conj market_modules (conj market_properties market_root)))). Qed.
Example market_is_reported : modules_match blank market (VDict []) = Ok
  [mkRM [PKey "Resources"; PKey "Part"; PKey "Metadata"; PKey "AWS::CloudFormation::Module"] "The Metadata key AWS::CloudFormation::Module is reserved";
   mkRM [PKey "Resources"; PKey "Part"; PKey "Properties"; PKey "Tags"] "Tags is not permitted within Modules";
   mkRM [PKey "Resources"; PKey "Part"; PKey "CreationPolicy"] "CreationPolicy is not permitted within Modules"].
Proof. exact market_modules_report. Qed.
