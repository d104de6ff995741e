(** C39 Template and section shape. *)
From Verif.Model Require Import Base Helpers Rules Refs ConditionRules Shape Limits Parameters.
From Verif.Spec Require Import Paths Limited ConditionUse Faults.
From Verif.Proofs Require Import ShapeProofs.
Local Open Scope string_scope.

(** E1001: unknown sections and a missing Resources section are reported, and nothing else is. *)
Theorem template_faults_are_reported : forall d m, In m (base_match d) <-> template_fault d (rm_path m) (rm_msg m).
Proof. exact base_spec. Qed.
Print Assumptions template_faults_are_reported.

(** E1004: a description that is not a text (nor empty). *)
Theorem description_faults_are_reported_partial : forall d, exists ms, description_match (VDict d) = Ok ms /\ forall m, In m ms <->
  (exists v, assoc "Description" d = Some v /\ (forall s, v <> VStr s) /\ ~ empty v) /\ m = mkRM [PKey "Description"] "Description can only be a string".
Proof. exact description_spec. Qed.
Print Assumptions description_faults_are_reported_partial.

(** E2001: attributes of parameters. *)
Theorem parameter_faults_are_reported : forall template ps, section template "Parameters" ps -> (forall n x, In (n, x) ps -> exists def, x = VDict def) ->
  exists ms, parameter_configuration_match template = Ok ms /\
  forall m, In m ms <-> exists n def, In (n, VDict def) ps /\ parameter_fault n def (rm_path m) (rm_msg m).
Proof. exact parameters_spec. Qed.
Print Assumptions parameter_faults_are_reported.

(** E2002: types of parameters. *)
Theorem parameter_types_are_checked : forall str_other template ps, section template "Parameters" ps -> (forall n x, In (n, x) ps -> exists def, x = VDict def) ->
  exists ms, parameter_types_match str_other template = Ok ms /\
  forall m, In m ms <-> exists n def t, In (n, VDict def) ps /\ assoc "Type" def = Some t /\
    ~ (exists s, t = VStr s /\ In s (VALID_PARAMETER_TYPES_SINGLE ++ VALID_PARAMETER_TYPES_LIST)%list) /\
    m = mkRM [PKey "Parameters"; PKey n; PKey "Type"] ("Parameter " ++ n ++ " has invalid type " ++ py_str str_other t).
Proof. exact types_spec. Qed.
Print Assumptions parameter_types_are_checked.

(** E2014: references in the Parameters section. *)
Theorem references_in_parameters_are_reported : forall str_other template globals, wf template -> wf globals ->
  forall m, In m (default_ref_match str_other template globals) <->
  exists p v, occurs "Ref" template globals (PKey "Parameters" :: p) v /\
    m = mkRM (PKey "Parameters" :: p ++ [PKey "Ref"]) ("Invalid value (" ++ py_str str_other v ++ "), Ref cannot be used in Parameters").
Proof. exact default_ref_spec. Qed.
Print Assumptions references_in_parameters_are_reported.

(** E6001: attributes, values and exports of outputs.  Missing for the full property: outputs whose Value, Export,
    Export Name or Description is empty, and outputs that are no objects (refuted below). *)
Theorem output_faults_are_reported_partial : forall text template os, section template "Outputs" os ->
  (forall n x, In (n, x) os -> exists def, x = VDict def /\ filled def /\ forall x, assoc "Export" def = Some (VDict [("Name", x)]) -> ~ empty x) ->
  exists ms, output_configuration_match text template = Ok ms /\
  forall m, In m ms <-> exists n def, In (n, VDict def) os /\ output_fault text n def (rm_path m) (rm_msg m).
Proof. exact outputs_spec. Qed.
Print Assumptions output_faults_are_reported_partial.

(** E6002: outputs without a Value. *)
Theorem outputs_without_value_are_reported : forall template os, section template "Outputs" os -> (forall n x, In (n, x) os -> exists def, x = VDict def) ->
  exists ms, output_required_match template = Ok ms /\ forall m, In m ms <-> exists n def, In (n, VDict def) os /\ ~ In "Value" (map fst def) /\
    m = mkRM [PKey "Outputs"; PKey n; PKey "Value"] ("Output " ++ n ++ " is missing property Value").
Proof. exact required_spec. Qed.
Print Assumptions outputs_without_value_are_reported.

(** E6005: descriptions of outputs that are no texts (nor empty). *)
Theorem output_descriptions_are_checked_partial : forall template os, section template "Outputs" os -> (forall n x, In (n, x) os -> exists def, x = VDict def) ->
  exists ms, output_description_match template = Ok ms /\ forall m, In m ms <-> exists n def, In (n, VDict def) os /\
    (exists v, assoc "Description" def = Some v /\ (forall s, v <> VStr s) /\ ~ empty v) /\
    m = mkRM [PKey "Outputs"; PKey n; PKey "Description"] "Output Description can only be a string".
Proof. exact output_description_spec. Qed.
Print Assumptions output_descriptions_are_checked_partial.

(** E7001: mappings. *)
Theorem mapping_faults_are_reported : forall show template ms, section template "Mappings" ms ->
  exists rs, mapping_configuration_match show template = Ok rs /\
  forall m, In m rs <-> exists n v, In (n, v) ms /\ mapping_fault (py_str show) n v (rm_path m) (rm_msg m).
Proof. exact mappings_spec. Qed.
Print Assumptions mapping_faults_are_reported.

(** E3001: resources. *)
Theorem resource_faults_are_reported : forall specs registry regions template rs, section template "Resources" rs ->
  (forall n def, In (n, VDict def) rs -> In "Properties" (map fst def) \/ known_regions specs regions) ->
  exists ms, resource_configuration_match specs registry regions template = Ok ms /\
    forall m, In m ms <-> exists n v, In (n, v) rs /\ resource_fault specs registry regions n v (rm_path m) (rm_msg m).
Proof. exact resources_spec. Qed.
Print Assumptions resource_faults_are_reported.

(** An empty list as Value, an empty Export and a Description that is an empty list are not reported. *)
Theorem output_faults_are_reported_refuted : exists template n def, section template "Outputs" [(n, VDict def)] /\
  (forall text, value_fault text [PKey "Outputs"; PKey n; PKey "Value"] (VList []) (shown [PKey "Outputs"; PKey n; PKey "Value"] ++ " must be a string or one of the functions " ++ text)) /\
  assoc "Value" def = Some (VList []) /\
  (forall text, output_configuration_match text template = Ok []) /\ output_required_match template = Ok [] /\ output_description_match template = Ok [].
Proof. exact c39_empty. Qed.
Print Assumptions output_faults_are_reported_refuted.

(** An output that is a list ends the check of outputs; the error is one that is not reported at all. *)
Theorem odd_outputs_are_reported_refuted : exists template n, section template "Outputs" [(n, VList [])] /\ forall text, output_configuration_match text template = Err ETemplateAttribute.
Proof. exact c39_crash. Qed.
Print Assumptions odd_outputs_are_reported_refuted.

(** An output that is a text containing the word Value counts as one that has a Value. *)
Theorem text_outputs_are_reported_refuted : exists template n, section template "Outputs" [(n, VStr "No Value here")] /\ output_required_match template = Ok [].
Proof. exact c39_text_output. Qed.
Print Assumptions text_outputs_are_reported_refuted.

Example kiosk_meets_the_hypotheses :
  section kiosk "Parameters" kiosk_parameters /\ (forall n x, In (n, x) kiosk_parameters -> exists def, x = VDict def) /\
  section kiosk "Outputs" kiosk_outputs /\ (forall n x, In (n, x) kiosk_outputs -> exists def, x = VDict def) /\
  (forall n x, In (n, x) kiosk_outputs -> exists def, x = VDict def /\ filled def /\ forall x, assoc "Export" def = Some (VDict [("Name", x)]) -> ~ empty x) /\
  section kiosk "Mappings" kiosk_mappings /\ section kiosk "Resources" kiosk_resources /\ known_regions kiosk_specs ["us-east-1"].
Proof.
  split; [apply kiosk_section; cbn; auto|]. split; [apply kiosk_objects; auto|]. split; [apply kiosk_section; cbn; auto|]. split; [apply kiosk_objects; auto|].
  split; [exact kiosk_filled|]. split; [apply kiosk_section; cbn; auto|]. split; [apply kiosk_section; cbn; auto | exact kiosk_regions].
Qed.
Example kiosk_reports :
  List.length (base_match kiosk_sections) = 1 /\
  (exists l, parameter_configuration_match kiosk = Ok l /\ List.length l = 7) /\
  (exists l, resource_configuration_match kiosk_specs [] ["us-east-1"] kiosk = Ok l /\ List.length l = 7) /\
  (exists l, mapping_configuration_match (fun _ => "") kiosk = Ok l /\ List.length l = 3) /\
  (exists l, output_configuration_match "" kiosk = Ok l /\ List.length l = 3).
Proof.
  split; [reflexivity|]. repeat split; eexists; (split; [first [exact kiosk_parameters_report | exact kiosk_resources_report | apply kiosk_mappings_report | apply kiosk_outputs_report] | reflexivity]).
Qed.
