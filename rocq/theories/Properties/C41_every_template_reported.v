(** C41 Every decodable template gets its report. *)
From Verif.Model Require Import Base Locate Helpers Rules Runner Core.
From Verif.Spec Require Import Pipeline Metadata.
From Verif.Proofs Require Import RunProofs Samples ReportProofs.

(** False: a resource whose Metadata is a plain string makes all findings of the template disappear ... *)
Theorem every_template_reported_refuted :
  exists c raw, let k := mkColl [bad_b] default_settings in
    snd (coll_run no_spec k c) = Ok raw /\ raw <> [] /\
    snd (run_checks no_spec no_translator k ["us-east-1"] [] c) = Findings [].
Proof. exact c41_refuted_report. Qed.

(** ... and template Metadata that is a plain string ends the process with an exception, whatever the rules are. *)
Theorem linting_never_raises_refuted :
  exists t e, forall str_other sp tr all,
    snd (lint_one str_other sp tr all [] [] initial_state "t.yaml" (DecOk t)) = Err e.
Proof. exact c41_refuted_crash. Qed.

(** True for templates whose resources have well-formed Metadata (and E0002 enabled, valid regions, no serverless
    transform).  Missing: templates refuted above; the serverless transform, whose outcome is external. *)
Theorem every_template_reported_partial : forall sp tr k regions mandatory c,
  spec_ok sp -> e0002_selected (k_set k) -> resources_ok (c_tmpl c) -> wants_transform (template c) = false ->
  (forall r, In r regions -> In r REGIONS) ->
  exists raw ds k' l,
    snd (coll_run sp k c) = Ok raw /\ get_directives (c_tmpl c) = Ok ds /\
    run_checks sp tr k regions mandatory c = (k', Findings l) /\
    (forall m, In m raw -> ~ suppressed mandatory ds m -> exists u, In u l /\ same_finding m u).
Proof. exact c41_partial. Qed.

Example resources_ok_example : resources_ok multi_line.
Proof. exact multi_line_ok. Qed.

Print Assumptions every_template_reported_refuted.
Print Assumptions linting_never_raises_refuted.
Print Assumptions every_template_reported_partial.
