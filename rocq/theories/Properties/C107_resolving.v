(** C107 What a report without findings guarantees about references. *)
From Coq Require Import List String ZArith Relations.
Import ListNotations.
From Verif.Model Require Import Base Node Locate Helpers Rules Runner Config Core Standard.
From Verif.Spec Require Import Pipeline Paths References Limited ConditionUse Faults Dependencies Protect Shipped Crashes Silence Clean Resolving.
From Verif.Proofs Require Import CrashWitness PropertyWitness StandardPropWitness CleanWitness ResolvingProofs ResolvingWitness.
Import Verif.Model.Rules.
Local Open Scope string_scope.

(** If the report of a run with the shipped rules is empty, the rules about sections and references are selected and no directive in the template disables a rule, then: every Ref is a text that begins with the name of a parameter, resource, module or pseudo parameter (unless Parameters is a text or a list); every condition that is used is defined (unless Outputs or Conditions is a text or a list); Fn::And, Fn::Or, Fn::Not and Fn::If have their form; every DependsOn that is not empty names a resource; and no resource depends on itself through others.  The full claim would have no exceptions and would say that a Ref is such a name; clean_references_refuted and longer_names_refuted show why it does not. *)
Theorem clean_references_partial : forall w sp tr k rg man c,
  plain_run w sp tr k rg man c [] -> get_directives (c_tmpl c) = Ok [] ->
  (forall id, In id reference_rules -> selected id false (s_experimental (k_set k)) (s_ignore (k_set k)) (s_include (k_set k)) (s_mandatory (k_set k))) ->
  known_regions (w_specs w) (w_regions w) -> finds_cycles (w_find_cycle w) ->
  refs_resolve (template c) /\ conditions_resolve (template c) /\ conditions_formed (template c) /\ dependencies_resolve (template c) /\ no_cycles (template c).
Proof. exact c107_resolves. Qed.
Print Assumptions clean_references_partial.

(** A template whose parts refer to each other, and its run. *)
Example clean_references_case : (plain_run ample small_sp keeping all_rules ["us-east-1"] [] (crash_cfn linked_template) [] /\ get_directives (c_tmpl (crash_cfn linked_template)) = Ok [] /\
  (forall id, In id reference_rules -> selected id false (s_experimental (k_set all_rules)) (s_ignore (k_set all_rules)) (s_include (k_set all_rules)) (s_mandatory (k_set all_rules))) /\
  known_regions (w_specs ample) (w_regions ample) /\ finds_cycles (w_find_cycle ample)) /\
  uses_condition linked_template (VDict []) "D" /\ depends linked_template "E" "B".
Proof. exact resolves_case. Qed.

(** The exceptions are real: a template with a Ref to nothing, an undefined condition and an empty DependsOn passes all shipped rules without a finding, because its parameters are a text and its outputs an empty list. *)
Theorem clean_references_refuted : exists w sp tr k regions mandatory c, plain_run w sp tr k regions mandatory c [] /\ get_directives (c_tmpl c) = Ok [] /\
  (forall id, In id reference_rules -> selected id false (s_experimental (k_set k)) (s_ignore (k_set k)) (s_include (k_set k)) (s_mandatory (k_set k))) /\
  known_regions (w_specs w) (w_regions w) /\
  (exists p s, at_path (p ++ [PKey "Ref"])%list (template c) = Some (VStr s) /\ ~ begins_with_name (template c) s) /\
  (exists n, uses_condition (template c) (VDict []) n /\ ~ condition_defined (template c) n) /\
  (exists n p, depends_entry (template c) n p (VStr "")).
Proof. exact c107_refuted. Qed.
Print Assumptions clean_references_refuted.

(** Nor need a Ref be a name: one that only begins with the name of a resource passes all shipped rules. *)
Theorem longer_names_refuted : exists w sp tr k regions mandatory c, plain_run w sp tr k regions mandatory c [] /\ get_directives (c_tmpl c) = Ok [] /\
  (forall id, In id reference_rules -> selected id false (s_experimental (k_set k)) (s_ignore (k_set k)) (s_include (k_set k)) (s_mandatory (k_set k))) /\
  known_regions (w_specs w) (w_regions w) /\
  exists p s, at_path (p ++ [PKey "Ref"])%list (template c) = Some (VStr s) /\ ~ References.names (template c) s /\ forall n, ~ References.module (template c) n.
Proof. exact c107_longer. Qed.
Print Assumptions longer_names_refuted.
