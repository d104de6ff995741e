(** C106 What a report without findings guarantees. *)
From Coq Require Import List String ZArith.
Import ListNotations.
From Verif.Model Require Import Base Node Locate Helpers Rules Runner Config Core Standard.
From Verif.Spec Require Import Pipeline Paths Limited ConditionUse Faults Shipped Crashes Silence Clean.
From Verif.Proofs Require Import CrashWitness PropertyWitness StandardPropWitness CleanProofs CleanWitness.
Import Verif.Model.Rules.
Local Open Scope string_scope.

(** If the report of a run with the shipped rules is empty, the rules about the sections are selected and no directive in the template disables a rule, then the template is well made: only known sections; resources that are objects with a known type and known attributes; and parameters, outputs, mappings and conditions without fault, unless the section is a text or a list, or one parameter or output is.  The full claim would not have these exceptions; clean_report_refuted shows that they are there. *)
Theorem clean_report_partial : forall w sp tr k rg man c,
  plain_run w sp tr k rg man c [] -> get_directives (c_tmpl c) = Ok [] ->
  (forall id, In id section_rules -> selected id false (s_experimental (k_set k)) (s_ignore (k_set k)) (s_include (k_set k)) (s_mandatory (k_set k))) ->
  known_regions (w_specs w) (w_regions w) ->
  well_made (w_specs w) (w_registry_names w) (w_regions w) (template c).
Proof. exact c106_clean. Qed.
Print Assumptions clean_report_partial.

(** A template with all sections in order, and its run. *)
Example clean_report_case : plain_run ample small_sp keeping all_rules ["us-east-1"] [] (crash_cfn tidy_template) [] /\ get_directives (c_tmpl (crash_cfn tidy_template)) = Ok [] /\
  (forall id, In id section_rules -> selected id false (s_experimental (k_set all_rules)) (s_ignore (k_set all_rules)) (s_include (k_set all_rules)) (s_mandatory (k_set all_rules))) /\
  known_regions (w_specs ample) (w_regions ample).
Proof. exact clean_case. Qed.

(** The exceptions are real: a template whose parameters, mappings, conditions and metadata are texts or lists, whose version and rules are numbers and with an output that is a text passes all shipped rules without a finding. *)
Theorem clean_report_refuted : exists w sp tr k regions mandatory c d, plain_run w sp tr k regions mandatory c [] /\ get_directives (c_tmpl c) = Ok [] /\
  (forall id, In id section_rules -> selected id false (s_experimental (k_set k)) (s_ignore (k_set k)) (s_include (k_set k)) (s_mandatory (k_set k))) /\
  known_regions (w_specs w) (w_regions w) /\ template c = VDict d /\
  (forall name, In name ["Parameters"; "Mappings"; "Conditions"; "Metadata"] -> exists v, assoc name d = Some v /\ no_object v) /\
  (exists z, assoc "AWSTemplateFormatVersion" d = Some (VInt z)) /\ (exists z, assoc "Rules" d = Some (VInt z)) /\ malformed (template c) "Outputs".
Proof. exact c106_refuted. Qed.
Print Assumptions clean_report_refuted.

(** Whatever the rules and settings: a template that is an empty object has no findings, because the program does not check it. *)
Theorem empty_template_unchecked : forall str sp tr all cli fl st name d st' o,
  truthy (erase d) = false -> lint_one str sp tr all cli fl st name (DecOk d) = (st', Ok o) -> o = Findings [].
Proof. exact c106_empty. Qed.
Print Assumptions empty_template_unchecked.

(** That it has none does not mean that the rules have nothing to say: the missing section Resources is a finding of a shipped rule. *)
Theorem empty_template_refuted : exists w sp tr all c l, with_shipped w all /\ only_shipped w all /\ template c = VDict [] /\
  snd (lint_one (fun _ => "") sp tr all [] [] initial_state (c_file c) (DecOk (c_tmpl c))) = Ok (Findings []) /\
  snd (run_checks sp tr (mkColl all (k_set all_rules)) ["us-east-1"] [] c) = Findings l /\ reports_of l "E1001".
Proof. exact empty_silent. Qed.
Print Assumptions empty_template_refuted.
