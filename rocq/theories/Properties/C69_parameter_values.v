(** C69 Parameters behind properties. *)
From Coq Require Import List ZArith.
Import ListNotations.
From Verif.Model Require Import Base Helpers Locate Node Conditions Rules Refs Relationship Parameters JsonDump PropertyRules ValueRules ParameterValues.
From Verif.Spec Require Import Paths Branches Required References ConditionUse Attributes Pipeline Walk Values ParameterValues.
From Verif.Proofs Require Import Samples PropertyRuleProofs PropertyWitness ValueWitness ParameterValueProofs ParameterValueWitness.
Import Verif.Model.Rules.
Local Open Scope string_scope.

(** A parameter that a property with a fixed set of values refers to is judged by that set: W2030 reports exactly the allowed values and the default of the parameter that are not in it, if neither the resource nor the value depends on a condition.  Missing for the full property: see the refutations. *)
Theorem parameter_values_judged_partial : forall str_other template vs props specs res_ ob rest,
  ~ In "" (keys vs) -> plain_sections template -> allowed_lists template ->
  defined_in "Resources" template res_ ob ->
  let p := (PKey "Resources" :: PKey res_ :: rest)%list in
  all_objects (VDict props) p -> no_null_property (VDict props) p -> refs_are_names props p ->
  exists ms, parameter_values_check str_other template vs (VDict props) specs p = Ok ms /\
  forall m, In m ms <-> exists ps vr n o words pa v, refers template props specs p ps n /\ restricts vs "ValueType" ps vr /\ vr_allowed vr <> [] /\
    takes_one template n o /\ unfit (fun v => In (py_str str_other v) (vr_allowed vr)) n o words pa v /\ m = value_finding str_other words pa n v (values_words (vr_allowed vr)).
Proof. exact c69_values. Qed.
Print Assumptions parameter_values_judged_partial.

(** The same for properties whose values have to match a pattern (W2031). *)
Theorem parameter_patterns_judged_partial : forall str_other template vs matches description props specs res_ ob rest,
  ~ In "" (keys vs) -> plain_sections template -> allowed_lists template ->
  defined_in "Resources" template res_ ob ->
  let p := (PKey "Resources" :: PKey res_ :: rest)%list in
  all_objects (VDict props) p -> no_null_property (VDict props) p -> refs_are_names props p ->
  exists ms, parameter_pattern_check str_other template vs matches description (VDict props) specs p = Ok ms /\
  forall m, In m ms <-> exists ps t vr n o words pa v, refers template props specs p ps n /\ assoc "ValueType" (ps_value ps) = Some t /\ assoc t vs = Some vr /\ vr_pattern vr <> "" /\
    takes_one template n o /\ unfit (fun v => matches (vr_pattern vr) (py_str str_other v) = true) n o words pa v /\ m = value_finding str_other words pa n v (description t).
Proof. exact c69_patterns. Qed.
Print Assumptions parameter_patterns_judged_partial.

(** In a run, each such value leads to a finding of W2030 at its place in the parameter. *)
Theorem parameter_value_findings : forall str_other sp k c raw rs vs name rt attrs pd specs m0 d0 ps vr n o words pa v,
  snd (coll_run sp k c) = Ok raw -> In (parameter_values_rule str_other rs vs) (k_all k) -> enabled (k_set k) (parameter_values_rule str_other rs vs) = true ->
  wf (template c) -> c_tmpl c = MDict m0 d0 -> resource_of (template c) name rt attrs -> assoc "Properties" attrs = Some (VDict pd) -> assoc rt (rs_resource_types rs) = Some specs ->
  ~ In "" (keys vs) -> plain_sections (template c) -> allowed_lists (template c) ->
  all_objects (VDict pd) (props_path name) -> no_null_property (VDict pd) (props_path name) -> refs_are_names pd (props_path name) ->
  refers (template c) pd specs (props_path name) ps n -> restricts vs "ValueType" ps vr -> vr_allowed vr <> [] ->
  takes_one (template c) n o -> unfit (fun v => In (py_str str_other v) (vr_allowed vr)) n o words pa v ->
  exists f, locate_match c "W2030" (value_finding str_other words pa n v (values_words (vr_allowed vr))) = Ok f /\ In f raw.
Proof. exact c69_values_run. Qed.
Print Assumptions parameter_value_findings.

(** The same for the nested objects of a resource. *)
Theorem parameter_value_findings_nested : forall str_other sp k c raw rs vs name rt attrs pd nt d q specs m0 d0 ps vr n o words pa v,
  snd (coll_run sp k c) = Ok raw -> In (parameter_values_rule str_other rs vs) (k_all k) -> enabled (k_set k) (parameter_values_rule str_other rs vs) = true ->
  wf (template c) -> c_tmpl c = MDict m0 d0 -> resource_of (template c) name rt attrs -> assoc "Properties" attrs = Some (VDict pd) ->
  resource_nested sp rt (VDict pd) (props_path name) nt (VDict d) q -> ~ is_if (VDict d) -> assoc nt (rs_property_types rs) = Some specs ->
  ~ In "" (keys vs) -> plain_sections (template c) -> allowed_lists (template c) ->
  all_objects (VDict d) q -> no_null_property (VDict d) q -> refs_are_names d q ->
  refers (template c) d specs q ps n -> restricts vs "ValueType" ps vr -> vr_allowed vr <> [] ->
  takes_one (template c) n o -> unfit (fun v => In (py_str str_other v) (vr_allowed vr)) n o words pa v ->
  exists f, locate_match c "W2030" (value_finding str_other words pa n v (values_words (vr_allowed vr))) = Ok f /\ In f raw.
Proof. exact c69_values_nested_run. Qed.
Print Assumptions parameter_value_findings_nested.

(** In a run, each value that does not match the pattern leads to a finding of W2031. *)
Theorem parameter_pattern_findings : forall str_other matches description sp k c raw rs vs name rt attrs pd specs m0 d0 ps t vr n o words pa v,
  snd (coll_run sp k c) = Ok raw -> In (parameter_pattern_rule str_other matches description rs vs) (k_all k) -> enabled (k_set k) (parameter_pattern_rule str_other matches description rs vs) = true ->
  wf (template c) -> c_tmpl c = MDict m0 d0 -> resource_of (template c) name rt attrs -> assoc "Properties" attrs = Some (VDict pd) -> assoc rt (rs_resource_types rs) = Some specs ->
  ~ In "" (keys vs) -> plain_sections (template c) -> allowed_lists (template c) ->
  all_objects (VDict pd) (props_path name) -> no_null_property (VDict pd) (props_path name) -> refs_are_names pd (props_path name) ->
  refers (template c) pd specs (props_path name) ps n -> assoc "ValueType" (ps_value ps) = Some t -> assoc t vs = Some vr -> vr_pattern vr <> "" ->
  takes_one (template c) n o -> unfit (fun v => matches (vr_pattern vr) (py_str str_other v) = true) n o words pa v ->
  exists f, locate_match c "W2031" (value_finding str_other words pa n v (description t)) = Ok f /\ In f raw.
Proof. exact c69_patterns_run. Qed.
Print Assumptions parameter_pattern_findings.

(** W2510 reports exactly the parameters that give the memory size of a function, in any branch of conditions, and are not bounded. *)
Theorem memory_parameters_judged : forall t props x p,
  plain_sections t -> assoc "MemorySize" props = Some x -> (forall q, ~ alternative x (p ++ [PKey "MemorySize"])%list VNull q) ->
  (forall y r, single x (p ++ [PKey "MemorySize"])%list (VDict [("Ref", y)]) r -> exists n, y = VStr n) ->
  exists ms, memory_check t (VDict props) p = Ok ms /\
  forall m, In m ms <-> exists n r, single x (p ++ [PKey "MemorySize"])%list (VDict [("Ref", VStr n)]) r /\ unbounded t n /\ m = memory_finding n.
Proof. exact c69_memory. Qed.
Print Assumptions memory_parameters_judged.

(** In a run, each such parameter leads to a finding of W2510 at the parameter. *)
Theorem memory_parameter_findings : forall sp k c raw name attrs pd m0 d0 x n r,
  snd (coll_run sp k c) = Ok raw -> In memory_rule (k_all k) -> enabled (k_set k) memory_rule = true ->
  c_tmpl c = MDict m0 d0 -> resource_of (template c) name "AWS::Lambda::Function" attrs -> assoc "Properties" attrs = Some (VDict pd) ->
  plain_sections (template c) -> assoc "MemorySize" pd = Some x -> (forall q, ~ alternative x (props_path name ++ [PKey "MemorySize"])%list VNull q) ->
  (forall y r, single x (props_path name ++ [PKey "MemorySize"])%list (VDict [("Ref", y)]) r -> exists n, y = VStr n) ->
  single x (props_path name ++ [PKey "MemorySize"])%list (VDict [("Ref", VStr n)]) r -> unbounded (template c) n ->
  exists f, locate_match c "W2510" (memory_finding n) = Ok f /\ In f raw.
Proof. exact c69_memory_run. Qed.
Print Assumptions memory_parameter_findings.

(** W6001 reports exactly the outputs whose value is imported from another stack. *)
Theorem imported_outputs_reported : forall str_other t globals,
  wf t -> wf globals -> forall m, In m (import_match str_other t globals) <->
  exists p n v, occurs "Fn::ImportValue" t globals p v /\ imported_output (p ++ [PKey "Fn::ImportValue"])%list n /\ m = import_finding str_other (p ++ [PKey "Fn::ImportValue"])%list n v.
Proof. exact c69_imports. Qed.
Print Assumptions imported_outputs_reported.

(** A default that is the empty text is not judged, although the property does not allow it. *)
Theorem empty_default_refuted : exists o, wf (with_mode o) /\ takes_one (with_mode o) "Mode" o /\ assoc "Default" o = Some (VStr "") /\
  parameter_values_check sample_str (with_mode o) value_rules (VDict [("Mode", ref "Mode")]) behind_specs at_server = Ok [].
Proof. exact empty_default_witness. Qed.
Print Assumptions empty_default_refuted.

(** Allowed values given as an object are judged by their names, at places not in the template. *)
Theorem named_values_refuted : exists o m, wf (with_mode o) /\
  parameter_values_check sample_str (with_mode o) value_rules (VDict [("Mode", ref "Mode")]) behind_specs at_server = Ok [m] /\ at_path (rm_path m) (with_mode o) = None.
Proof. exact named_values_witness. Qed.
Print Assumptions named_values_refuted.

(** A Ref to a list ends the check with an exception. *)
Theorem list_ref_refuted : exists props, wf (VDict props) /\ forall o, parameter_values_check sample_str (with_mode o) value_rules (VDict props) behind_specs at_server = Err ETypeErr.
Proof. exact list_ref_witness. Qed.
Print Assumptions list_ref_refuted.

(** A parameter with the bounds 0 and 1024 is reported as not bounded. *)
Theorem zero_bound_refuted : exists t o, wf t /\ plain_sections t /\ defined_in "Parameters" t "Size" o /\ assoc "MinValue" o = Some (VInt 0) /\ assoc "MaxValue" o = Some (VInt 1024) /\
  memory_check t (VDict [("MemorySize", ref "Size")]) [PKey "Resources"; PKey "Fn"; PKey "Properties"] = Ok [memory_finding "Size"].
Proof. exact zero_bound_witness. Qed.
Print Assumptions zero_bound_refuted.

Example behind_run_ : exists raw, snd (coll_run sample_sp (mkColl behind_rules default_settings) behind_cfn) = Ok raw /\
  map (fun f => (f_rule f, f_msg f)) raw =
    [("W6001", "The value of output (O) is imported from another output (other)");
     ("W2030", "You must specify a valid allowed value for Mode (idle). Valid values are [""on"", ""off""]");
     ("W2030", "You must specify a valid Default value for Mode (idle). Valid values are [""on"", ""off""]");
     ("W2031", "You must specify a valid Default value for Name (A1). Valid values must match pattern letters");
     ("W2510", "Lambda Memory Size parameters should use MinValue, MaxValue or AllowedValues at Parameters/Size")].
Proof. exact behind_run. Qed.

Example behind_plain_ : plain_sections behind_template /\ allowed_lists behind_template.
Proof. exact behind_plain. Qed.

Example behind_resource_ : wf behind_template /\ defined_in "Resources" behind_template "Server" behind_attrs /\ resource_of behind_template "Server" "AWS::X::Server" behind_attrs.
Proof. exact behind_resource. Qed.

Example behind_hypotheses_ : ~ In "" (keys value_rules) /\ all_objects (VDict behind_props) at_server /\ no_null_property (VDict behind_props) at_server /\ refs_are_names behind_props at_server.
Proof. exact behind_hypotheses. Qed.

Example behind_unfit_ : exists ps vr, refers behind_template behind_props behind_specs at_server ps "Mode" /\ restricts value_rules "ValueType" ps vr /\ vr_allowed vr <> [] /\
  takes_one behind_template "Mode" mode_parameter /\
  unfit (fun v => In (py_str sample_str v) (vr_allowed vr)) "Mode" mode_parameter "allowed" [PKey "Parameters"; PKey "Mode"; PKey "AllowedValues"; PIdx 1] (VStr "idle") /\
  unfit (fun v => In (py_str sample_str v) (vr_allowed vr)) "Mode" mode_parameter "Default" [PKey "Parameters"; PKey "Mode"; PKey "Default"] (VStr "idle").
Proof. exact behind_unfit. Qed.

Example behind_memory_ : let p := [PKey "Resources"; PKey "Fn"; PKey "Properties"] in
  (forall q, ~ alternative (alt "C" (ref "Size") (VInt 128)) (p ++ [PKey "MemorySize"])%list VNull q) /\
  (forall y r, single (alt "C" (ref "Size") (VInt 128)) (p ++ [PKey "MemorySize"])%list (VDict [("Ref", y)]) r -> exists n, y = VStr n) /\
  (exists r, single (alt "C" (ref "Size") (VInt 128)) (p ++ [PKey "MemorySize"])%list (ref "Size") r) /\ unbounded behind_template "Size".
Proof. exact behind_memory. Qed.

Example behind_import_ : occurs "Fn::ImportValue" behind_template (VDict []) [PKey "Outputs"; PKey "O"; PKey "Value"] (VStr "other") /\
  imported_output ([PKey "Outputs"; PKey "O"; PKey "Value"] ++ [PKey "Fn::ImportValue"])%list (PKey "O").
Proof. exact behind_import. Qed.
