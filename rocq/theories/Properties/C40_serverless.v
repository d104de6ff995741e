(** C40 Local code locations in serverless templates. *)
From Verif.Model Require Import Base Rules Serverless.
From Verif.Spec Require Import Faults Protect Codelocal.
From Verif.Proofs Require Import CodelocalProofs.
Import Verif.Model.Rules.
Local Open Scope string_scope.

(** Every property, resource and section after the replacement.  Missing for the full property: the location of an application and the body of an API are replaced whatever they are (refuted below). *)
Theorem only_code_locations_change_partial : forall d t' names,
  replace_local_codeuri (VDict d) = Ok (t', names) -> exists d', t' = VDict d' /\ template_after d d'.
Proof. exact c40_after. Qed.
Print Assumptions only_code_locations_change_partial.

(** Doing it twice is doing it once. *)
Theorem replacing_twice_is_replacing_once : forall d t' names,
  replace_local_codeuri (VDict d) = Ok (t', names) -> replace_local_codeuri t' = Ok (t', names).
Proof. exact c40_twice. Qed.
Print Assumptions replacing_twice_is_replacing_once.

(** It does not fail on documented templates. *)
Theorem documented_templates_do_not_fail : forall d,
  documented d -> exists t' names, replace_local_codeuri (VDict d) = Ok (t', names).
Proof. exact c40_total. Qed.
Print Assumptions documented_templates_do_not_fail.

(** Failures of it and of the translator become E0001 findings, and the template is transformed exactly when there are none. *)
Theorem transform_errors_are_reported : forall translate text filename template,
  forall fs t, transform_template translate text filename template = (fs, t) ->
  (t = None <-> ~ exists t1 names t2, replace_local_codeuri template = Ok (t1, names) /\ translate t1 names = Translated t2) /\
  (fs <> [] -> t = None) /\
  forall f, In f fs -> f_rule f = "E0001" /\ f_file f = filename /\ f_line f = 1%Z.
Proof. exact c40_errors. Qed.
Print Assumptions transform_errors_are_reported.

(** An application's location is replaced although it already is an S3 location. *)
Theorem application_location_is_replaced_refuted : exists o ps t' d' rs' o' ps', replace_local_codeuri (VDict [("Resources", VDict [("A", VDict o)])]) = Ok (t', []) /\
  assoc "Type" o = Some (VStr "AWS::Serverless::Application") /\ assoc "Properties" o = Some (VDict ps) /\ assoc "Location" ps = Some (VStr "s3://code/app") /\
  t' = VDict d' /\ assoc "Resources" d' = Some (VDict rs') /\ assoc "A" rs' = Some (VDict o') /\ assoc "Properties" o' = Some (VDict ps') /\
  assoc "Location" ps' = Some (VStr "s3://bucket/value").
Proof. exact c40_application. Qed.
Print Assumptions application_location_is_replaced_refuted.

(** An API with Auth keeps its local location, and an empty body is added to it. *)
Theorem api_location_is_left_refuted : exists o ps t' d' rs' o' ps', replace_local_codeuri (VDict [("Resources", VDict [("A", VDict o)])]) = Ok (t', []) /\
  assoc "Type" o = Some (VStr "AWS::Serverless::Api") /\ assoc "Properties" o = Some (VDict ps) /\ assoc "DefinitionUri" ps = Some (VStr "./api") /\ assoc "DefinitionBody" ps = None /\
  t' = VDict d' /\ assoc "Resources" d' = Some (VDict rs') /\ assoc "A" rs' = Some (VDict o') /\ assoc "Properties" o' = Some (VDict ps') /\
  assoc "DefinitionUri" ps' = Some (VStr "./api") /\ assoc "DefinitionBody" ps' = Some (VStr "").
Proof. exact c40_api. Qed.
Print Assumptions api_location_is_left_refuted.

(** A function without properties raises. *)
Theorem function_without_properties_refuted : replace_local_codeuri (VDict [("Resources", VDict [("A", VDict [("Type", VStr "AWS::Serverless::Function")])])]) = Err EAttribute.
Proof. exact c40_no_properties. Qed.
Print Assumptions function_without_properties_refuted.

(** A publishing alias that is a Ref raises when the template has no parameters. *)
Theorem alias_without_parameters_refuted : exists d, replace_local_codeuri (VDict d) = Err ETypeErr.
Proof. exact c40_no_parameters. Qed.
Print Assumptions alias_without_parameters_refuted.

Example sam_meets_the_hypotheses : documented sam_sections.
Proof. exact sam_documented. Qed.

Example sam_is_replaced : exists d', replace_local_codeuri (VDict sam_sections) = Ok (VDict d', [VStr "Stage"]) /\ d' <> sam_sections.
Proof. exact sam_result. Qed.
