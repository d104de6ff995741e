(** C94 What a run with the shipped rules reports. *)
From Coq Require Import List String ZArith Bool.
Import ListNotations.
From Verif.Model Require Import Base Node Locate Helpers Rules Runner Config Core Conditions Limits Shape Parameters Refs ConditionRules Relationship Policies ValueRules UpdatePolicy Standard.
From Verif.Spec Require Import Pipeline Paths References Limited ConditionUse ParameterUse Faults Booleans Resolved Protect RuleSets Shipped.
From Verif.Proofs Require Import PipelineProofs ReportProofs RuleSetMain Samples RuleSetWitness StandardProofs StandardRules StandardMain StandardWitness.
Import Verif.Model.Rules.
Local Open Scope string_scope.

(** A run reports exactly the parameters that nothing uses, save where that is suppressed.  The full property has no hypotheses on the template. *)
Theorem unused_parameters_partial : forall w sp tr k rg man c ds l ps,
  lints w sp tr k rg man c ds "W2001" l ->
  wf (template c) -> section (template c) "Parameters" ps ->
  (forall n x, In (n, x) ps -> n <> "" /\ alphanumeric n) ->
  (forall p v, occurs "Fn::Sub" (template c) (VDict []) p v -> exists s, sub_text v s /\ closed s) ->
  tells_exactly c man ds l "W2001" (fun q words =>
    exists n x, In (n, x) ps /\ ~ uses_parameter (template c) n /\ q = [PKey "Parameters"; PKey n] /\ words = ("Parameter " ++ n ++ " not used.")).
Proof. exact std_W2001. Qed.
Print Assumptions unused_parameters_partial.

(** A run reports exactly the mappings that nothing uses, save where that is suppressed.  The full property has no hypotheses on the template. *)
Theorem unused_mappings_partial : forall w sp tr k rg man c ds l ms,
  lints w sp tr k rg man c ds "W7001" l ->
  wf (template c) -> section (template c) "Mappings" ms ->
  (forall p, ~ occurs "Fn::FindInMap" (template c) (VDict []) p (VList [])) ->
  tells_exactly c man ds l "W7001" (fun q words =>
    exists n x, In (n, x) ms /\ ~ names_mapping (template c) n /\ ~ computes_mapping (template c) /\ q = [PKey "Mappings"; PKey n] /\ words = ("Mapping '" ++ n ++ "' is defined but not used")).
Proof. exact std_W7001. Qed.
Print Assumptions unused_mappings_partial.

(** A run reports exactly the conditions that nothing uses, save where that is suppressed.  The full property has no hypotheses on the template. *)
Theorem unused_conditions_partial : forall w sp tr k rg man c ds l,
  lints w sp tr k rg man c ds "W8001" l ->
  wf (template c) -> plain_uses (template c) (VDict []) ->
  tells_exactly c man ds l "W8001" (fun q words =>
    exists n, condition_defined (template c) n /\ ~ uses_condition (template c) (VDict []) n /\ (forall p, ~ occurs "Fn::If" (template c) (VDict []) p (VStr n)) /\
      q = [PKey "Conditions"; PKey n] /\ words = "Condition " ++ n ++ " not used").
Proof. exact std_W8001. Qed.
Print Assumptions unused_conditions_partial.

(** A run reports exactly the parameters with a name that is not alphanumeric, save where that is suppressed.  The full property has no hypotheses on the template. *)
Theorem parameter_names_partial : forall w sp tr k rg man c ds l ms,
  lints w sp tr k rg man c ds "E2003" l ->
  section (template c) "Parameters" ms ->
  (forall n x, In (n, x) ms -> forall t, n <> t ++ String "010" "") ->
  tells_exactly c man ds l "E2003" (fun q words =>
    exists n x, In (n, x) ms /\ ~ alphanumeric n /\ q = [PKey "Parameters"; PKey n] /\ words = (singular "Parameters" ++ " " ++ n ++ " has invalid name.  Name has to be alphanumeric.")).
Proof. exact std_E2003. Qed.
Print Assumptions parameter_names_partial.

(** A run reports exactly the resources with such a name, save where that is suppressed.  The full property has no hypotheses on the template. *)
Theorem resource_names_partial : forall w sp tr k rg man c ds l ms,
  lints w sp tr k rg man c ds "E3006" l ->
  section (template c) "Resources" ms ->
  (forall n x, In (n, x) ms -> forall t, n <> t ++ String "010" "") ->
  tells_exactly c man ds l "E3006" (fun q words =>
    exists n x, In (n, x) ms /\ ~ alphanumeric n /\ q = [PKey "Resources"; PKey n] /\ words = (singular "Resources" ++ " " ++ n ++ " has invalid name.  Name has to be alphanumeric.")).
Proof. exact std_E3006. Qed.
Print Assumptions resource_names_partial.

(** A run reports exactly the outputs with such a name, save where that is suppressed.  The full property has no hypotheses on the template. *)
Theorem output_names_partial : forall w sp tr k rg man c ds l ms,
  lints w sp tr k rg man c ds "E6004" l ->
  section (template c) "Outputs" ms ->
  (forall n x, In (n, x) ms -> forall t, n <> t ++ String "010" "") ->
  tells_exactly c man ds l "E6004" (fun q words =>
    exists n x, In (n, x) ms /\ ~ alphanumeric n /\ q = [PKey "Outputs"; PKey n] /\ words = (singular "Outputs" ++ " " ++ n ++ " has invalid name.  Name has to be alphanumeric.")).
Proof. exact std_E6004. Qed.
Print Assumptions output_names_partial.

(** A run reports exactly the mappings with such a name, save where that is suppressed.  The full property has no hypotheses on the template. *)
Theorem mapping_names_partial : forall w sp tr k rg man c ds l ms,
  lints w sp tr k rg man c ds "E7002" l ->
  section (template c) "Mappings" ms ->
  (forall n x, In (n, x) ms -> forall t, n <> t ++ String "010" "") ->
  tells_exactly c man ds l "E7002" (fun q words =>
    exists n x, In (n, x) ms /\ ~ alphanumeric n /\ q = [PKey "Mappings"; PKey n] /\ words = (singular "Mappings" ++ " " ++ n ++ " has invalid name.  Name has to be alphanumeric.")).
Proof. exact std_E7002. Qed.
Print Assumptions mapping_names_partial.

(** A run reports exactly the defaults that violate a constraint of their parameter, save where that is suppressed.  The full property has no hypotheses on the template. *)
Theorem default_values_partial : forall w sp tr k rg man c ds l ps,
  lints w sp tr k rg man c ds "E2015" l ->
  section (template c) "Parameters" ps ->
  (forall n x, In (n, x) ps -> exists def, x = VDict def /\ plain_constraints def /\ assoc "MinValue" def <> Some (VInt 0)) ->
  tells_exactly c man ds l "E2015" (fun q words =>
    exists n def v, In (n, VDict def) ps /\ assoc "Default" def = Some v /\ violates (w_default_matches w) def v words /\
      q = [PKey "Parameters"; PKey n; PKey "Default"]).
Proof. exact std_E2015. Qed.
Print Assumptions default_values_partial.

(** A run reports exactly the faults of DeletionPolicy, save where that is suppressed.  The full property has no hypotheses on the template. *)
Theorem deletion_policies_partial : forall w sp tr k rg man c ds l,
  lints w sp tr k rg man c ds "E3035" l ->
  wf (template c) -> (forall n o v, resource (template c) n o -> assoc "DeletionPolicy" o = Some v -> ~ empty v) ->
  tells_exactly c man ds l "E3035" (fun q words =>
    exists n o, resource (template c) n o /\ policy_fault (py_str (w_str w)) "DeletionPolicy" n o q words).
Proof. exact std_E3035. Qed.
Print Assumptions deletion_policies_partial.

(** A run reports exactly the faults of UpdateReplacePolicy, save where that is suppressed.  The full property has no hypotheses on the template. *)
Theorem replace_policies_partial : forall w sp tr k rg man c ds l,
  lints w sp tr k rg man c ds "E3036" l ->
  wf (template c) -> (forall n o v, resource (template c) n o -> assoc "UpdateReplacePolicy" o = Some v -> ~ empty v) ->
  tells_exactly c man ds l "E3036" (fun q words =>
    exists n o, resource (template c) n o /\ policy_fault (py_str (w_str w)) "UpdateReplacePolicy" n o q words).
Proof. exact std_E3036. Qed.
Print Assumptions replace_policies_partial.

(** A run reports exactly the resources that are kept by one of the two policies only, save where that is suppressed.  The full property has no hypotheses on the template. *)
Theorem one_policy_partial : forall w sp tr k rg man c ds l,
  lints w sp tr k rg man c ds "W3011" l ->
  wf (template c) ->
  tells_exactly c man ds l "W3011" (fun q words =>
    exists n o, resource (template c) n o /\ ~ of_type o ["AWS::Lambda::Version"; "AWS::Lambda::LayerVersion"] /\
      (keeps o "DeletionPolicy" /\ ~ given o "UpdateReplacePolicy" \/ keeps o "UpdateReplacePolicy" /\ ~ given o "DeletionPolicy") /\ q = [PKey "Resources"; PKey n] /\ words = ("Both UpdateReplacePolicy and DeletionPolicy are needed to protect Resources/" ++ n ++ " from deletion")).
Proof. exact std_W3011. Qed.
Print Assumptions one_policy_partial.

(** A run reports exactly the stateful resources without both policies, save where that is suppressed.  The full property has no hypotheses on the template. *)
Theorem stateful_resources_partial : forall w sp tr k rg man c ds l,
  lints w sp tr k rg man c ds "I3011" l ->
  wf (template c) ->
  tells_exactly c man ds l "I3011" (fun q words =>
    exists n o, resource (template c) n o /\ of_type o stateful_types /\ ~ (given o "DeletionPolicy" /\ given o "UpdateReplacePolicy") /\ q = [PKey "Resources"; PKey n] /\ words = ("The default action when replacing/removing a resource is to delete it. Set explicit values for UpdateReplacePolicy / DeletionPolicy on potentially stateful resource: Resources/" ++ n)).
Proof. exact std_I3011. Qed.
Print Assumptions stateful_resources_partial.

(** A run reports exactly the names of both a resource and a parameter, save where that is suppressed.  The full property has no hypotheses on the template. *)
Theorem shared_names_partial : forall w sp tr k rg man c ds l,
  lints w sp tr k rg man c ds "E3007" l ->
  wf (template c) -> (forall d v, template c = VDict d -> assoc "Parameters" d = Some v -> exists ps, v = VDict ps) ->
  tells_exactly c man ds l "E3007" (fun q words =>
    exists n o d ps, resource (template c) n o /\ template c = VDict d /\ assoc "Parameters" d = Some (VDict ps) /\ In n (map fst ps) /\ q = [PKey "Resources"; PKey n] /\ words = ("Resources and Parameters must not share name: " ++ n)).
Proof. exact std_E3007. Qed.
Print Assumptions shared_names_partial.

(** A run reports exactly the parameters of unknown types, save where that is suppressed.  The full property has no hypotheses on the template. *)
Theorem parameter_types_partial : forall w sp tr k rg man c ds l ps,
  lints w sp tr k rg man c ds "E2002" l ->
  section (template c) "Parameters" ps -> (forall n x, In (n, x) ps -> exists def, x = VDict def) ->
  tells_exactly c man ds l "E2002" (fun q words =>
    exists n def t, In (n, VDict def) ps /\ assoc "Type" def = Some t /\
      ~ (exists s, t = VStr s /\ In s (VALID_PARAMETER_TYPES_SINGLE ++ VALID_PARAMETER_TYPES_LIST)%list) /\ q = [PKey "Parameters"; PKey n; PKey "Type"] /\ words = ("Parameter " ++ n ++ " has invalid type " ++ py_str (w_str w) t)).
Proof. exact std_E2002. Qed.
Print Assumptions parameter_types_partial.

(** A run reports exactly the outputs without a Value, save where that is suppressed.  The full property has no hypotheses on the template. *)
Theorem output_values_partial : forall w sp tr k rg man c ds l os,
  lints w sp tr k rg man c ds "E6002" l ->
  section (template c) "Outputs" os -> (forall n x, In (n, x) os -> exists def, x = VDict def) ->
  tells_exactly c man ds l "E6002" (fun q words =>
    exists n def, In (n, VDict def) os /\ ~ In "Value" (map fst def) /\ q = [PKey "Outputs"; PKey n; PKey "Value"] /\ words = ("Output " ++ n ++ " is missing property Value")).
Proof. exact std_E6002. Qed.
Print Assumptions output_values_partial.

(** A run reports exactly the outputs with a description that is no text, save where that is suppressed.  The full property has no hypotheses on the template. *)
Theorem output_descriptions_partial : forall w sp tr k rg man c ds l os,
  lints w sp tr k rg man c ds "E6005" l ->
  section (template c) "Outputs" os -> (forall n x, In (n, x) os -> exists def, x = VDict def) ->
  tells_exactly c man ds l "E6005" (fun q words =>
    exists n def, In (n, VDict def) os /\ (exists v, assoc "Description" def = Some v /\ (forall s, v <> VStr s) /\ ~ empty v) /\ q = [PKey "Outputs"; PKey n; PKey "Description"] /\ words = "Output Description can only be a string").
Proof. exact std_E6005. Qed.
Print Assumptions output_descriptions_partial.

(** A run reports exactly what exceeds a documented limit, save where that is suppressed.  The full property has no hypotheses on the template. *)
Theorem limits_exceeded_partial : forall w sp tr k rg man c ds l id number,
  lints w sp tr k rg man c ds id l -> documented (template c) ->
  In (id, number) [("E7010", "7010"); ("E7011", "7011"); ("E7012", "7012"); ("E6010", "6010"); ("E6011", "6011"); ("E6012", "6012");
    ("E2010", "2010"); ("E2011", "2011"); ("E2012", "2012"); ("E3010", "3010"); ("E3011", "3011"); ("E1002", "1002"); ("E1003", "1003")] ->
  tells_exactly c man ds l id (fun q words => exists n, limited (template c) (w_size w (c_file c)) number n /\ exceeds n /\ q = q_where n /\
    words = q_what n ++ " (" ++ str_of_Z (q_size n) ++ q_unit n ++ ") exceeds the limit (" ++ str_of_Z (q_limit n) ++ q_unit n ++ ")").
Proof. exact std_limits. Qed.
Print Assumptions limits_exceeded_partial.

(** A run reports exactly what approaches one, save where that is suppressed.  The full property has no hypotheses on the template. *)
Theorem limits_near_partial : forall w sp tr k rg man c ds l id number,
  lints w sp tr k rg man c ds id l -> documented (template c) ->
  In (id, number) [("I7010", "7010"); ("I7011", "7011"); ("I7012", "7012"); ("I6010", "6010"); ("I6011", "6011"); ("I6012", "6012");
    ("I2010", "2010"); ("I2011", "2011"); ("I2012", "2012"); ("I3010", "3010"); ("I3012", "3011"); ("I1002", "1002"); ("I1003", "1003")] ->
  tells_exactly c man ds l id (fun q words => exists n, limited (template c) (w_size w (c_file c)) number n /\ approaches n /\ q = q_where n /\
    words = q_what n ++ " (" ++ str_of_Z (q_size n) ++ q_unit n ++ ") is approaching the limit (" ++ str_of_Z (q_limit n) ++ q_unit n ++ ")").
Proof. exact std_near_limits. Qed.
Print Assumptions limits_near_partial.

(** A run reports exactly the references to what does not exist, save where that is suppressed.  The full property has no hypotheses on the template. *)
Theorem undefined_references_partial : forall w sp tr k rg man c ds l ms,
  lints w sp tr k rg man c ds "E1012" l ->
  wf (template c) -> plain_sections (template c) -> at_path [PKey "Ref"] (template c) = None -> ref_exist_match (template c) (VDict []) = Ok ms ->
  tells_exactly c man ds l "E1012" (fun q words => exists s, at_path (q ++ [PKey "Ref"])%list (template c) = Some (VStr s) /\
    words = "Ref " ++ s ++ " not found as a resource or parameter" /\
    forall n rest, References.names (template c) n \/ References.module (template c) n -> s <> n ++ rest).
Proof. exact std_E1012. Qed.
Print Assumptions undefined_references_partial.

(** A run reports exactly the faults in the definition of parameters, save where that is suppressed.  The full property has no hypotheses on the template. *)
Theorem parameter_members_partial : forall w sp tr k rg man c ds l ps,
  lints w sp tr k rg man c ds "E2001" l ->
  wf (template c) -> section (template c) "Parameters" ps -> (forall n x, In (n, x) ps -> exists def, x = VDict def) ->
  tells_exactly c man ds l "E2001" (fun q words =>
    exists n def, In (n, VDict def) ps /\ parameter_fault n def q words).
Proof. exact std_E2001. Qed.
Print Assumptions parameter_members_partial.

(** A run reports exactly the faults in the definition of outputs, save where that is suppressed.  The full property has no hypotheses on the template. *)
Theorem output_members_partial : forall w sp tr k rg man c ds l os,
  lints w sp tr k rg man c ds "E6001" l ->
  section (template c) "Outputs" os ->
  (forall n x, In (n, x) os -> exists def, x = VDict def /\ filled def /\ forall x, assoc "Export" def = Some (VDict [("Name", x)]) -> ~ empty x) ->
  tells_exactly c man ds l "E6001" (fun q words =>
    exists n def, In (n, VDict def) os /\ output_fault (w_funcs_text w) n def q words).
Proof. exact std_E6001. Qed.
Print Assumptions output_members_partial.

(** A run reports exactly the faults in the shape of mappings, save where that is suppressed.  The full property has no hypotheses on the template. *)
Theorem mapping_shape_partial : forall w sp tr k rg man c ds l ms,
  lints w sp tr k rg man c ds "E7001" l ->
  section (template c) "Mappings" ms ->
  tells_exactly c man ds l "E7001" (fun q words =>
    exists n v, In (n, v) ms /\ mapping_fault (py_str (w_str w)) n v q words).
Proof. exact std_E7001. Qed.
Print Assumptions mapping_shape_partial.

(** A run reports exactly the faults in the definition of resources, save where that is suppressed.  The full property has no hypotheses on the template. *)
Theorem resource_members_partial : forall w sp tr k rg man c ds l rs,
  lints w sp tr k rg man c ds "E3001" l ->
  section (template c) "Resources" rs ->
  (forall n def, In (n, VDict def) rs -> In "Properties" (map fst def) \/ known_regions (w_specs w) (w_regions w)) ->
  tells_exactly c man ds l "E3001" (fun q words =>
    exists n v, In (n, v) rs /\ resource_fault (w_specs w) (w_registry_names w) (w_regions w) n v q words).
Proof. exact std_E3001. Qed.
Print Assumptions resource_members_partial.

(** A run reports exactly the faults of DependsOn, save where that is suppressed.  The full property has no hypotheses on the template. *)
Theorem dependencies_partial : forall w sp tr k rg man c ds l,
  lints w sp tr k rg man c ds "E3005" l ->
  wf (template c) -> depends_given (template c) -> plain_conditions (template c) ->
  (forall n o, resource (template c) n o -> n <> "Fn::If" /\ assoc "Condition" o = None) ->
  tells_exactly c man ds l "E3005" (fun q words =>
    exists n v, depends_entry (template c) n q v /\ depends_fault (template c) q v words).
Proof. exact std_E3005. Qed.
Print Assumptions dependencies_partial.

(** A run reports exactly the entries of DependsOn that are enforced already, save where that is suppressed.  The full property has no hypotheses on the template. *)
Theorem obsolete_dependencies_partial : forall w sp tr k rg man c ds l,
  lints w sp tr k rg man c ds "W3005" l ->
  wf (template c) -> depends_given (template c) ->
  (forall n p v, depends_entry (template c) n p v -> exists s, v = VStr s) ->
  (forall p v, occurs "Fn::GetAtt" (template c) (VDict []) p v -> exists s rest, v = VList (VStr s :: rest)) ->
  tells_exactly c man ds l "W3005" (fun q words =>
    exists n s why at_, depends_entry (template c) n q (VStr s) /\ refers (template c) (VDict []) n s why at_ /\
      words = "Obsolete DependsOn on resource (" ++ s ++ "), dependency already enforced by a """ ++ why ++ """ at " ++ shown at_).
Proof. exact std_W3005. Qed.
Print Assumptions obsolete_dependencies_partial.

(** A run reports exactly the parameters with NoEcho in metadata, save where that is suppressed.  The full property has no hypotheses on the template. *)
Theorem secrets_in_metadata_partial : forall w sp tr k rg man c ds l ps,
  lints w sp tr k rg man c ds "W4002" l ->
  wf (template c) -> section (template c) "Parameters" ps ->
  (forall n x, In (n, x) ps -> n <> "" /\ alphanumeric n /\ exists def, x = VDict def) ->
  (forall p s, occurs "Fn::Sub" (template c) (VDict []) p (VStr s) -> closed s) ->
  tells_exactly c man ds l "W4002" (fun q words =>
    exists n, hidden (template c) n /\ words = "As the resource ""metadata"" section contains reference to a ""NoEcho"" parameter " ++ n ++ ", CloudFormation will display the parameter value in plaintext" /\
      exists p, (occurs "Ref" (template c) (VDict []) p (VStr n) /\ in_resource_metadata (p ++ [PKey "Ref"])%list /\ q = (p ++ [PKey "Ref"; PKey n])%list) \/
        (exists s, occurs "Fn::Sub" (template c) (VDict []) p (VStr s) /\ placeholder_in n s /\ in_resource_metadata (p ++ [PKey "Fn::Sub"])%list /\ q = (p ++ [PKey "Fn::Sub"])%list)).
Proof. exact std_W4002. Qed.
Print Assumptions secrets_in_metadata_partial.

(** A run reports exactly the faults of modules, save where that is suppressed.  The full property has no hypotheses on the template. *)
Theorem modules_partial : forall w sp tr k rg man c ds l,
  lints w sp tr k rg man c ds "E5001" l ->
  wf (template c) -> (forall n o, resource (template c) n o -> exists t, assoc "Type" o = Some (VStr t)) ->
  (forall n o key v s, resource (template c) n o -> key <> "Type" -> assoc key o = Some v -> py_str (w_str w) v <> s ++ "::MODULE") ->
  (forall n o v, module (template c) n o -> assoc "Properties" o = Some v -> exists ps, v = VDict ps) ->
  (forall v, ~ occurs "AWS::CloudFormation::Module" (template c) (VDict []) [] v) ->
  tells_exactly c man ds l "E5001" (fun q words =>
    module_fault (template c) (VDict []) q words).
Proof. exact std_E5001. Qed.
Print Assumptions modules_partial.

(** A run reports exactly the output values of a wrong type, save where that is suppressed.  The full property has no hypotheses on the template. *)
Theorem output_types_partial : forall w sp tr k rg man c ds l,
  lints w sp tr k rg man c ds "E6003" l ->
  wf (template c) -> typed_section (template c) "Resources" -> typed_section (template c) "Parameters" ->
  (forall f p v q, In f ["Ref"; "Fn::GetAtt"] -> occurs f (template c) (VDict []) p v -> p = PKey "Outputs" :: q -> exists n x r, q = PKey n :: x :: r) ->
  (forall p v, occurs "Fn::GetAtt" (template c) (VDict []) p v -> exists r a, v = VList [VStr r; VStr a]) ->
  (forall p v, occurs "Ref" (template c) (VDict []) p v -> exists n, v = VStr n) ->
  tells_exactly c man ds l "E6003" (fun q words =>
    exists n p, in_output_value p n /\ ~ consumed p /\
      ((exists r a, occurs "Fn::GetAtt" (template c) (VDict []) p (VList [VStr r; VStr a]) /\ list_attribute (w_attribute w) (template c) r a /\
          q = (p ++ [PKey "Fn::GetAtt"])%list /\ words = "Output " ++ n ++ " value " ++ r ++ "/" ++ a ++ " is of type list") \/
       (exists s, occurs "Ref" (template c) (VDict []) p (VStr s) /\ list_parameter (template c) s /\
          q = (p ++ [PKey "Ref"])%list /\ words = "Output " ++ n ++ " value " ++ s ++ " is of type list"))).
Proof. exact std_E6003. Qed.
Print Assumptions output_types_partial.

Example faulty_lints_ : exists l, map brief l = faults /\ forall id, In id normal ->
  lints bare no_spec no_translator (mkColl (shipped bare) default_settings) ["us-east-1"] [] faulty_cfn [] id l.
Proof. exact faulty_lints. Qed.

Example normal_many_ : List.length normal = 123%nat /\ In "W2001" normal /\ In "E6002" normal.
Proof. exact normal_many. Qed.

Example faulty_meets_ : wf (template faulty_cfn) /\ section (template faulty_cfn) "Parameters" (parts "Parameters") /\
  section (template faulty_cfn) "Outputs" (parts "Outputs") /\
  (forall n x, In (n, x) (parts "Parameters") -> forall t, n <> t ++ String "010" "") /\
  (forall n x, In (n, x) (parts "Outputs") -> exists def, x = VDict def) /\
  plain_uses (template faulty_cfn) (VDict []).
Proof. exact faulty_meets. Qed.
