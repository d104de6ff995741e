(** C95 What a run with the shipped rules reports of the properties of resources. *)
From Coq Require Import List String ZArith Bool Permutation.
Import ListNotations.
From Verif.Model Require Import Base Node Locate Helpers Rules Runner Config Core Conditions Relationship Resolve PropertyRules ValueRules ParameterValues BasedOn JsonDump Lambda Iam StateMachine Domains DynamoDb Standard.
From Verif.Spec Require Import Pipeline Paths Branches Walk References Required Resolved Groups Sizes Values ValueRefs ParameterValues Events Lambda Iam Permissions StateMachine Domains Tables Sensitive RuleSets Based Shipped ShippedChecks.
From Verif.Proofs Require Import StandardProofs StandardObjects StandardProps StandardNested StandardSteady Samples RuleSetWitness StandardWitness StandardPropWitness.
Import Verif.Model.Rules.
Local Open Scope string_scope.

Import Verif.Spec.Based.
(** A run reports exactly the faults of the schedules of event rules, in resources and the objects nested in them, save where that is suppressed.  The full property has no hypotheses on the template. *)
Theorem schedules_reported_partial : forall w sp tr k rg man c ds l,
  lints w sp tr k rg man c ds "E3027" l -> wf (template c) ->
  (forall pd p, properties_of (template c) "AWS::Events::Rule" pd p -> texts_given pd p "ScheduleExpression") ->
  tells_exactly c man ds l "E3027" (fun q words => exists pd p, properties_of (template c) "AWS::Events::Rule" pd p /\
    exists x s, assoc "ScheduleExpression" pd = Some x /\ single x (p ++ [PKey "ScheduleExpression"])%list (VStr s) q /\ schedule_fault s words).
Proof. exact prop_schedule. Qed.
Print Assumptions schedules_reported_partial.

(** A run reports exactly the runtimes of functions that are retired, in resources and the objects nested in them, save where that is suppressed.  The full property has no hypotheses on the template. *)
Theorem retired_runtimes_reported_partial : forall w sp tr k rg man c ds l,
  lints w sp tr k rg man c ds "E2531" l -> wf (template c) -> assoc "" (w_runtimes w) = None ->
  (forall pd p, properties_of (template c) "AWS::Lambda::Function" pd p -> runtimes_shaped (template c) pd p) ->
  tells_exactly c man ds l "E2531" (fun q words => exists pd p, properties_of (template c) "AWS::Lambda::Function" pd p /\
    exists s, runtime_given (template c) pd p s q /\ retired (w_runtimes w) (w_instant w) (w_now w) s words).
Proof. exact prop_retired. Qed.
Print Assumptions retired_runtimes_reported_partial.

(** A run reports exactly the runtimes of functions about to retire, in resources and the objects nested in them, save where that is suppressed.  The full property has no hypotheses on the template. *)
Theorem retiring_runtimes_reported_partial : forall w sp tr k rg man c ds l,
  lints w sp tr k rg man c ds "W2531" l -> wf (template c) -> assoc "" (w_runtimes w) = None ->
  (forall pd p, properties_of (template c) "AWS::Lambda::Function" pd p -> runtimes_shaped (template c) pd p) ->
  tells_exactly c man ds l "W2531" (fun q words => exists pd p, properties_of (template c) "AWS::Lambda::Function" pd p /\
    exists s, runtime_given (template c) pd p s q /\ retiring (w_runtimes w) (w_instant w) (w_now w) s words).
Proof. exact prop_retiring. Qed.
Print Assumptions retiring_runtimes_reported_partial.

(** A run reports exactly the parameters for memory sizes without bounds, in resources and the objects nested in them, save where that is suppressed.  The full property has no hypotheses on the template. *)
Theorem memory_sizes_reported_partial : forall w sp tr k rg man c ds l,
  lints w sp tr k rg man c ds "W2510" l -> wf (template c) -> plain_sections (template c) ->
  (forall pd p, properties_of (template c) "AWS::Lambda::Function" pd p -> exists x, assoc "MemorySize" pd = Some x /\
     (forall q, ~ alternative x (p ++ [PKey "MemorySize"])%list VNull q) /\
     (forall y r, single x (p ++ [PKey "MemorySize"])%list (VDict [("Ref", y)]) r -> exists n, y = VStr n)) ->
  tells_exactly c man ds l "W2510" (fun q words => exists pd p, properties_of (template c) "AWS::Lambda::Function" pd p /\
    exists x n r, assoc "MemorySize" pd = Some x /\ single x (p ++ [PKey "MemorySize"])%list (VDict [("Ref", VStr n)]) r /\ unbounded (template c) n /\ mkRM q words = mkRM [PKey "Parameters"; PKey n] ("Lambda Memory Size parameters should use MinValue, MaxValue or AllowedValues at Parameters/" ++ n)).
Proof. exact prop_memory. Qed.
Print Assumptions memory_sizes_reported_partial.

(** A run reports exactly the policy documents of an old version, in resources and the objects nested in them, save where that is suppressed.  The full property has no hypotheses on the template. *)
Theorem policy_versions_reported_partial : forall w sp tr k rg man c ds l,
  lints w sp tr k rg man c ds "W2511" l -> wf (template c) ->
  (forall rt pd p, properties_of (template c) rt pd p -> version_type rt -> versions_shaped rt pd p) ->
  tells_exactly c man ds l "W2511" (fun q words => exists rt pd p, properties_of (template c) rt pd p /\ version_type rt /\
    exists x q0 w r d s, versioned rt pd p x q0 /\ single x q0 w r /\ ~ is_call w /\ is_dict w = true /\ branch w r (VDict d) s /\ assoc "Version" d = Some (VStr "2008-10-17") /\
      q = (s ++ [PKey "Version"])%list /\ words = "IAM Policy Version should be updated to '2012-10-17'.").
Proof. exact prop_versions. Qed.
Print Assumptions policy_versions_reported_partial.

(** A run reports exactly the faults of policy documents, in resources and the objects nested in them, save where that is suppressed.  The full property has no hypotheses on the template. *)
Theorem policy_documents_reported_partial : forall w sp tr k rg man c ds l,
  lints w sp tr k rg man c ds "E2507" l -> wf (template c) ->
  (forall rt pd p, properties_of (template c) rt pd p -> In rt (resource_policy_types ++ identity_types)%list -> documents_shaped (w_json w) all_document_names pd p /\
     forall x q d r, document_at all_document_names pd p x q -> single x q (VDict d) r -> assoc "Resources" d = None) ->
  tells_exactly c man ds l "E2507" (fun q words => exists rt pd p, properties_of (template c) rt pd p /\ In rt (resource_policy_types ++ identity_types)%list /\
    exists x q0 v r place, document_at all_document_names pd p x q0 /\ single x q0 v r /\ ~ is_call v /\ document_fault (w_json w) (of_identity rt) (of_repository rt) v r place q words).
Proof. exact prop_documents. Qed.
Print Assumptions policy_documents_reported_partial.

(** A run reports exactly the roles with a path that build projects refer to, in resources and the objects nested in them, save where that is suppressed.  The full property has no hypotheses on the template. *)
Theorem build_roles_reported_partial : forall w sp tr k rg man c ds l,
  lints w sp tr k rg man c ds "E3050" l -> wf (template c) ->
  (forall pd p, properties_of (template c) "AWS::CodeBuild::Project" pd p -> role_refs_shaped (template c) pd p) ->
  tells_exactly c man ds l "E3050" (fun q words => exists pd p, properties_of (template c) "AWS::CodeBuild::Project" pd p /\
    exists x n r y, assoc "ServiceRole" pd = Some x /\ single x (p ++ [PKey "ServiceRole"])%list (VDict [("Ref", VStr n)]) r /\ pathed (template c) n y /\
      q = (r ++ [PKey "Ref"])%list /\ words = path_words (w_str w) y).
Proof. exact prop_roles. Qed.
Print Assumptions build_roles_reported_partial.

(** A run reports exactly the faults of the definitions of state machines, in resources and the objects nested in them, save where that is suppressed.  The full property has no hypotheses on the template. *)
Theorem state_machines_reported_partial : forall w sp tr k rg man c ds l,
  lints w sp tr k rg man c ds "E2532" l -> wf (template c) ->
  (forall pd p, properties_of (template c) "AWS::StepFunctions::StateMachine" pd p -> machine_shaped (w_loads w) pd p) ->
  tells_exactly c man ds l "E2532" (fun q words => exists pd p, properties_of (template c) "AWS::StepFunctions::StateMachine" pd p /\
    exists x v r, assoc "DefinitionString" pd = Some x /\ single x (p ++ [PKey "DefinitionString"])%list v r /\ machine_fault (w_loads w) (w_show w) v r q words).
Proof. exact prop_machine. Qed.
Print Assumptions state_machines_reported_partial.

(** A run reports exactly the record sets that are not in their zone, in resources and the objects nested in them, save where that is suppressed.  The full property has no hypotheses on the template. *)
Theorem record_zones_reported_partial : forall w sp tr k rg man c ds l,
  lints w sp tr k rg man c ds "E3041" l -> wf (template c) -> (forall l, Permutation (w_order w l) l) ->
  (forall pd p, properties_of (template c) "AWS::Route53::RecordSet" pd p -> plain_object pd /\ VDict pd <> no_value /\ (forall n, ~ group_looks_at pd ["Name"; "HostedZoneName"] n) /\ zone_shaped pd) ->
  tells_exactly c man ds l "E3041" (fun q words => exists pd p, properties_of (template c) "AWS::Route53::RecordSet" pd p /\
    exists key ws, zone_fault pd key ws /\ q = (p ++ [PKey key])%list /\ words = ws ++ path_text p).
Proof. exact prop_zone. Qed.
Print Assumptions record_zones_reported_partial.

(** A run reports exactly the validation domains that are not above the domain, in resources and the objects nested in them, save where that is suppressed.  The full property has no hypotheses on the template. *)
Theorem validation_domains_reported_partial : forall w sp tr k rg man c ds l,
  lints w sp tr k rg man c ds "E3503" l -> wf (template c) -> (forall l, Permutation (w_order w l) l) ->
  (forall pd p x, properties_of (template c) "AWS::CertificateManager::Certificate" pd p -> assoc "DomainValidationOptions" pd = Some x ->
     (forall q, ~ alternative x (p ++ [PKey "DomainValidationOptions"])%list VNull q) /\
     forall e q, single x (p ++ [PKey "DomainValidationOptions"])%list (VDict e) q -> ~ is_call (VDict e) -> plain_object e /\ forall n, ~ members_look_at e n) ->
  tells_exactly c man ds l "E3503" (fun q words => exists pd p, properties_of (template c) "AWS::CertificateManager::Certificate" pd p /\
    exists x e r key ws, assoc "DomainValidationOptions" pd = Some x /\ single x (p ++ [PKey "DomainValidationOptions"])%list (VDict e) r /\ ~ is_call (VDict e) /\
      option_fault e key ws /\ q = (r ++ [PKey key])%list /\ words = ws ++ path_text r).
Proof. exact prop_option. Qed.
Print Assumptions validation_domains_reported_partial.

(** A run reports exactly the code that must be packaged first, in resources and the objects nested in them, save where that is suppressed.  The full property has no hypotheses on the template. *)
Theorem packaged_code_reported_partial : forall w sp tr k rg man c ds l,
  lints w sp tr k rg man c ds "W3002" l -> wf (template c) ->
  (forall rt pd p key x q, properties_of (template c) rt pd p -> In rt (keys templated) -> assoc key pd = Some x -> ~ alternative x (p ++ [PKey key])%list VNull q) ->
  tells_exactly c man ds l "W3002" (fun q words => exists rt pd p, properties_of (template c) rt pd p /\ In rt (keys templated) /\
    exists key x s, In (rt, key) packaged /\ assoc key pd = Some x /\ single x (p ++ [PKey key])%list (VStr s) q /\
      words = "This code may only work with `package` cli command as the property (" ++ path_text q ++ ") is a string").
Proof. exact prop_packaged. Qed.
Print Assumptions packaged_code_reported_partial.

(** A run reports exactly the tables whose attributes and keys differ, in resources and the objects nested in them, save where that is suppressed.  The full property has no hypotheses on the template. *)
Theorem table_attributes_reported_partial : forall w sp tr k rg man c ds l,
  lints w sp tr k rg man c ds "E3039" l -> wf (template c) -> (forall l, Permutation (w_order w l) l) ->
  (forall pd p, properties_of (template c) "AWS::DynamoDB::Table" pd p -> plain_object pd /\ VDict pd <> no_value /\ (forall n, ~ group_looks_at pd table_part n) /\ table_shaped pd) ->
  tells_exactly c man ds l "E3039" (fun q words => exists pd p, properties_of (template c) "AWS::DynamoDB::Table" pd p /\
    exists defined used, table_fault pd (defined, used) /\ q = p /\
      words = "The set of Attributes in AttributeDefinitions: " ++ w_show_names w defined ++ " and KeySchemas: " ++ w_show_names w used ++ " must match at " ++ path_text p).
Proof. exact prop_table. Qed.
Print Assumptions table_attributes_reported_partial.

(** A run reports exactly the texts of a wrong length, in resources and the objects nested in them, save where that is suppressed.  The full property has no hypotheses on the template. *)
Theorem string_lengths_reported_partial : forall w sp tr k rg man c ds l,
  lints w sp tr k rg man c ds "E3033" l -> wf (template c) ->
  let rs := w_rspec w in ~ In "" (keys (rs_value_types rs)) -> objects_nested sp (rs_property_types rs) (template c) ->
  (forall n d p specs, object_with sp (rs_resource_types rs) (rs_property_types rs) (template c) n d p specs -> ~ is_if (VDict d) /\ VDict d <> NoValue /\ no_null_member d p) ->
  tells_exactly c man ds l "E3033" (fun q words => exists n d p specs, object_with sp (rs_resource_types rs) (rs_property_types rs) (template c) n d p specs /\
    exists prop ps x lo hi s, assoc prop d = Some x /\ assoc prop specs = Some ps /\ string_bounds rs ps lo hi /\ lo <> 0%Z /\ hi <> 0%Z /\
      single x (p ++ [PKey prop])%list (VStr s) q /\ ~ within lo hi (String.length s) /\
      words = "String has to have length between " ++ str_of_Z lo ++ " and " ++ str_of_Z hi ++ " at " ++ path_text q).
Proof. exact prop_string. Qed.
Print Assumptions string_lengths_reported_partial.

(** A run reports exactly the numbers out of range, in resources and the objects nested in them, save where that is suppressed.  The full property has no hypotheses on the template. *)
Theorem number_ranges_reported_partial : forall w sp tr k rg man c ds l,
  lints w sp tr k rg man c ds "E3034" l -> wf (template c) ->
  let rs := w_rspec w in ~ In "" (keys (rs_value_types rs)) -> objects_nested sp (rs_property_types rs) (template c) ->
  (forall n d p specs, object_with sp (rs_resource_types rs) (rs_property_types rs) (template c) n d p specs -> ~ is_if (VDict d) /\ VDict d <> NoValue /\ no_null_member d p) ->
  tells_exactly c man ds l "E3034" (fun q words => exists n d p specs, object_with sp (rs_resource_types rs) (rs_property_types rs) (template c) n d p specs /\
    exists prop ps x lo hi v, assoc prop d = Some x /\ assoc prop specs = Some ps /\ number_bounds rs ps lo hi /\
      single x (p ++ [PKey prop])%list v q /\ out_of_range (w_py_float w) (fst lo) (fst hi) v /\
      words = "Value has to be between " ++ snd lo ++ " and " ++ snd hi ++ " at " ++ path_text q).
Proof. exact prop_number. Qed.
Print Assumptions number_ranges_reported_partial.

(** A run reports exactly the lists of a wrong length, in resources and the objects nested in them, save where that is suppressed.  The full property has no hypotheses on the template. *)
Theorem list_lengths_reported_partial : forall w sp tr k rg man c ds l,
  lints w sp tr k rg man c ds "E3032" l -> wf (template c) -> (forall l, Permutation (w_order w l) l) ->
  let rs := w_rspec w in ~ In "" (keys (rs_value_types rs)) -> objects_nested sp (rs_property_types rs) (template c) ->
  (forall n d p specs, object_with sp (rs_resource_types rs) (rs_property_types rs) (template c) n d p specs -> all_objects (VDict d) p /\
     forall e q, branch (VDict d) p (VDict e) q -> plain_object e /\ VDict e <> no_value /\ forall n, ~ members_look_at e n) ->
  tells_exactly c man ds l "E3032" (fun q words => exists n d p specs, object_with sp (rs_resource_types rs) (rs_property_types rs) (template c) n d p specs /\
    exists e r prop ps lo hi items, branch (VDict d) p (VDict e) r /\ assoc prop specs = Some ps /\ list_bounds rs ps lo hi /\
      assoc prop e = Some (VList items) /\ ~ within lo hi (List.length items) /\
      q = (r ++ [PKey prop])%list /\ words = prop ++ " has to have between " ++ str_of_Z lo ++ " and " ++ str_of_Z hi ++ " items specified").
Proof. exact prop_list. Qed.
Print Assumptions list_lengths_reported_partial.

(** A run reports exactly the values that are not allowed, in resources and the objects nested in them, save where that is suppressed.  The full property has no hypotheses on the template. *)
Theorem allowed_values_reported_partial : forall w sp tr k rg man c ds l,
  lints w sp tr k rg man c ds "E3030" l -> wf (template c) ->
  let rs := w_rspec w in ~ In "" (keys (w_values w)) -> objects_nested sp (rs_property_types rs) (template c) ->
  (forall n d p specs, object_with sp (rs_resource_types rs) (rs_property_types rs) (template c) n d p specs -> all_objects (VDict d) p /\ no_null_property (VDict d) p) ->
  tells_exactly c man ds l "E3030" (fun q words => exists n d p specs, object_with sp (rs_resource_types rs) (rs_property_types rs) (template c) n d p specs /\
    exists prop x r ps vr v, property_of (VDict d) p prop x r /\ assoc prop specs = Some ps /\ restricts (w_values w) "ValueType" ps vr /\
      vr_allowed vr <> [] /\ single x (r ++ [PKey prop])%list v q /\ ~ is_call v /\
      ~ mentions_resolve (py_str (w_str w) v) /\ ~ In (py_str (w_str w) v) (vr_allowed vr) /\
      words = "You must specify a valid value for " ++ prop ++ " (" ++ py_str (w_str w) v ++ "). Valid values are " ++ dumps (fun _ => "") (VList (map VStr (vr_allowed vr)))).
Proof. exact prop_allowed. Qed.
Print Assumptions allowed_values_reported_partial.

(** A run reports exactly the texts that do not match their pattern, in resources and the objects nested in them, save where that is suppressed.  The full property has no hypotheses on the template. *)
Theorem value_patterns_reported_partial : forall w sp tr k rg man c ds l,
  lints w sp tr k rg man c ds "E3031" l -> wf (template c) ->
  let rs := w_rspec w in ~ In "" (keys (w_values w)) -> objects_nested sp (rs_property_types rs) (template c) ->
  (forall n d p specs, object_with sp (rs_resource_types rs) (rs_property_types rs) (template c) n d p specs -> all_objects (VDict d) p /\ no_null_property (VDict d) p) ->
  tells_exactly c man ds l "E3031" (fun q words => exists n d p specs, object_with sp (rs_resource_types rs) (rs_property_types rs) (template c) n d p specs /\
    exists prop x r ps vr v, property_of (VDict d) p prop x r /\ assoc prop specs = Some ps /\ restricts (w_values w) "ValueType" ps vr /\
      vr_pattern vr <> "" /\ single x (r ++ [PKey prop])%list v q /\ has_text v /\
      ~ mentions_resolve (py_str (w_str w) v) /\ w_matches w (vr_pattern vr) (py_str (w_str w) v) = false /\
      words = prop ++ " contains invalid characters (Pattern: " ++ match vr_pattern_text vr with Some t => t | None => vr_pattern vr end ++ ") at " ++ path_text q).
Proof. exact prop_pattern. Qed.
Print Assumptions value_patterns_reported_partial.

(** A run reports exactly the references of a wrong kind, in resources and the objects nested in them, save where that is suppressed.  The full property has no hypotheses on the template. *)
Theorem value_references_reported_partial : forall w sp tr k rg man c ds l,
  lints w sp tr k rg man c ds "E3008" l -> wf (template c) ->
  let rs := w_rspec w in ~ In "" (keys (w_values w)) -> plain_sections (template c) -> kinds_known (w_values w) (w_kinds w) -> objects_nested sp (rs_property_types rs) (template c) ->
  (forall n d p specs, object_with sp (rs_resource_types rs) (rs_property_types rs) (template c) n d p specs -> ~ In "Fn::If" (keys specs) /\ all_objects (VDict d) p /\ no_null_property (VDict d) p /\ judgeable (VDict d) p) ->
  tells_exactly c man ds l "E3008" (fun q words => exists n d p specs, object_with sp (rs_resource_types rs) (rs_property_types rs) (template c) n d p specs /\
    exists prop x q0 ps fn y r, property_of (VDict d) p prop x q0 /\ assoc prop specs = Some ps /\ ps_value ps <> [] /\
      single x (q0 ++ [PKey prop])%list (VDict [(fn, y)]) r /\
      reference_fault (w_values w) (template c) (w_kinds w) (fun names => py_str (w_str w) (VList (map VStr names))) prop ps x (q0 ++ [PKey prop])%list r fn y words /\
      q = (r ++ [PKey fn])%list).
Proof. exact prop_references. Qed.
Print Assumptions value_references_reported_partial.

(** A run reports exactly the secure references where they are not supported, in resources and the objects nested in them, save where that is suppressed.  The full property has no hypotheses on the template. *)
Theorem secure_strings_reported_partial : forall w sp tr k rg man c ds l,
  lints w sp tr k rg man c ds "E1027" l -> wf (template c) ->
  let rs := w_rspec w in objects_nested sp (rs_property_types rs) (template c) ->
  (forall n d p specs, object_with sp (rs_resource_types rs) (rs_property_types rs) (template c) n d p specs -> no_null_member d p /\
     forall prop x r, assoc prop d = Some x -> ~ single x (p ++ [PKey prop])%list (VDict [("Fn::Sub", VList [])]) r) ->
  tells_exactly c man ds l "E1027" (fun q words => exists n d p specs, object_with sp (rs_resource_types rs) (rs_property_types rs) (template c) n d p specs /\
    exists prop x ps t v r s, assoc prop d = Some x /\ assoc prop specs = Some ps /\ has_primitive ps t /\ ~ In (n, prop) secure_places /\
      single x (p ++ [PKey prop])%list v r /\ text_in ps v r s q /\ versioned_reference "ssm-secure" s /\
      words = "Dynamic Reference secure strings are not supported for this property at " ++ path_text q).
Proof. exact prop_secure. Qed.
Print Assumptions secure_strings_reported_partial.

(** A run reports exactly the values of parameters that are not allowed where they are used, in resources and the objects nested in them, save where that is suppressed.  The full property has no hypotheses on the template. *)
Theorem parameter_values_allowed_reported_partial : forall w sp tr k rg man c ds l,
  lints w sp tr k rg man c ds "W2030" l -> wf (template c) ->
  let rs := w_rspec w in ~ In "" (keys (w_values w)) -> plain_sections (template c) -> allowed_lists (template c) -> objects_nested sp (rs_property_types rs) (template c) ->
  (forall n d p specs, object_with sp (rs_resource_types rs) (rs_property_types rs) (template c) n d p specs -> all_objects (VDict d) p /\ no_null_property (VDict d) p /\ refs_are_names d p) ->
  tells_exactly c man ds l "W2030" (fun q words => exists n d p specs, object_with sp (rs_resource_types rs) (rs_property_types rs) (template c) n d p specs /\
    exists ps vr name o ws v, refers (template c) d specs p ps name /\ restricts (w_values w) "ValueType" ps vr /\ vr_allowed vr <> [] /\
      takes_one (template c) name o /\ unfit (fun v => In (py_str (w_str w) v) (vr_allowed vr)) name o ws q v /\
      mkRM q words = mkRM q ("You must specify a valid " ++ ws ++ " value for " ++ name ++ " (" ++ py_str (w_str w) v ++ "). " ++ "Valid values are " ++ dumps (fun _ => "") (VList (map VStr (vr_allowed vr))))).
Proof. exact prop_values. Qed.
Print Assumptions parameter_values_allowed_reported_partial.

(** A run reports exactly the values of parameters that do not match the pattern of where they are used, in resources and the objects nested in them, save where that is suppressed.  The full property has no hypotheses on the template. *)
Theorem parameter_values_matching_reported_partial : forall w sp tr k rg man c ds l,
  lints w sp tr k rg man c ds "W2031" l -> wf (template c) ->
  let rs := w_rspec w in ~ In "" (keys (w_values w)) -> plain_sections (template c) -> allowed_lists (template c) -> objects_nested sp (rs_property_types rs) (template c) ->
  (forall n d p specs, object_with sp (rs_resource_types rs) (rs_property_types rs) (template c) n d p specs -> all_objects (VDict d) p /\ no_null_property (VDict d) p /\ refs_are_names d p) ->
  tells_exactly c man ds l "W2031" (fun q words => exists n d p specs, object_with sp (rs_resource_types rs) (rs_property_types rs) (template c) n d p specs /\
    exists ps t vr name o ws v, refers (template c) d specs p ps name /\ assoc "ValueType" (ps_value ps) = Some t /\ assoc t (w_values w) = Some vr /\ vr_pattern vr <> "" /\
      takes_one (template c) name o /\ unfit (fun v => w_matches w (vr_pattern vr) (py_str (w_str w) v) = true) name o ws q v /\
      mkRM q words = mkRM q ("You must specify a valid " ++ ws ++ " value for " ++ name ++ " (" ++ py_str (w_str w) v ++ "). " ++ w_description w t)).
Proof. exact prop_patterns. Qed.
Print Assumptions parameter_values_matching_reported_partial.

(** A run reports exactly the properties that exclude each other, in resources and the objects nested in them, save where that is suppressed.  The full property has no hypotheses on the template. *)
Theorem exclusive_properties_reported_partial : forall w sp tr k rg man c ds l,
  lints w sp tr k rg man c ds "E2520" l -> wf (template c) -> (forall l, Permutation (w_order w l) l) ->
  let rts := fst (w_exclusive w) in let pts := snd (w_exclusive w) in objects_nested sp pts (template c) ->
  (forall n d p table, object_with sp rts pts (template c) n d p table -> plain_object d /\ VDict d <> no_value /\ forall n, ~ members_look_at d n) ->
  tells_exactly c man ds l "E2520" (fun q words => exists n d p table, object_with sp rts pts (template c) n d p table /\
    exists d' k e, pruned d d' /\ lists table k e /\ both (keys d') k e /\ q = (p ++ [PKey k])%list /\ words = "Property " ++ e ++ " should NOT exist with " ++ k ++ " for " ++ path_text p).
Proof. exact prop_exclusive. Qed.
Print Assumptions exclusive_properties_reported_partial.

(** A run reports exactly the properties whose companion is missing, in resources and the objects nested in them, save where that is suppressed.  The full property has no hypotheses on the template. *)
Theorem inclusive_properties_reported_partial : forall w sp tr k rg man c ds l,
  lints w sp tr k rg man c ds "E2521" l -> wf (template c) -> (forall l, Permutation (w_order w l) l) ->
  let rts := fst (w_inclusive w) in let pts := snd (w_inclusive w) in objects_nested sp pts (template c) ->
  (forall n d p table, object_with sp rts pts (template c) n d p table -> plain_object d /\ VDict d <> no_value /\ forall n, ~ members_look_at d n) ->
  tells_exactly c man ds l "E2521" (fun q words => exists n d p table, object_with sp rts pts (template c) n d p table /\
    exists d' k e, pruned d d' /\ lists table k e /\ only_first (keys d') k e /\ q = p /\ words = "Property " ++ e ++ " should exist with " ++ k ++ " for " ++ path_text p).
Proof. exact prop_inclusive. Qed.
Print Assumptions inclusive_properties_reported_partial.

(** A run reports exactly the groups of which no property is given, in resources and the objects nested in them, save where that is suppressed.  The full property has no hypotheses on the template. *)
Theorem at_least_one_reported_partial : forall w sp tr k rg man c ds l,
  lints w sp tr k rg man c ds "E2522" l -> wf (template c) -> (forall l, Permutation (w_order w l) l) ->
  let rts := fst (w_at_least_one w) in let pts := snd (w_at_least_one w) in objects_nested sp pts (template c) ->
  (forall n d p groups, object_with sp rts pts (template c) n d p groups -> groups_fit d p groups) ->
  tells_exactly c man ds l "E2522" (fun q words => exists n d p groups, object_with sp rts pts (template c) n d p groups /\
    exists e r group, branch (VDict d) p (VDict e) r /\ In group groups /\ none_of group (keys e) /\
      q = p /\ words = "At least one of [" ++ join_str ", " group ++ "] should be specified for " ++ path_text r).
Proof. exact prop_at_least. Qed.
Print Assumptions at_least_one_reported_partial.

(** A run reports exactly the groups of which not exactly one is given, in resources and the objects nested in them, save where that is suppressed.  The full property has no hypotheses on the template. *)
Theorem only_one_reported_partial : forall w sp tr k rg man c ds l,
  lints w sp tr k rg man c ds "E2523" l -> wf (template c) -> (forall l, Permutation (w_order w l) l) ->
  let rts := fst (w_only_one w) in let pts := snd (w_only_one w) in objects_nested sp pts (template c) ->
  (forall n d p groups, object_with sp rts pts (template c) n d p groups -> groups_fit d p groups) ->
  tells_exactly c man ds l "E2523" (fun q words => exists n d p groups, object_with sp rts pts (template c) n d p groups /\
    exists e r group, branch (VDict d) p (VDict e) r /\ In group groups /\ ~ exactly_one group (keys e) /\
      q = p /\ words = "Only one of [" ++ join_str ", " group ++ "] should be specified for " ++ path_text r).
Proof. exact prop_only_one. Qed.
Print Assumptions only_one_reported_partial.

(** A run reports exactly the properties that the value of another demands, in resources and the objects nested in them, save where that is suppressed.  The full property has no hypotheses on the template. *)
Theorem needed_properties_reported_partial : forall w sp tr k rg man c ds l,
  lints w sp tr k rg man c ds "E3017" l -> wf (template c) -> (forall l, Permutation (w_order w l) l) ->
  let rts := fst (w_based_on w) in let pts := snd (w_based_on w) in objects_nested sp pts (template c) ->
  (forall n d p table, object_with sp rts pts (template c) n d p table -> based_fit (template c) bs_required d table) ->
  tells_exactly c man ds l "E3017" (fun q words => exists n d p table, object_with sp rts pts (template c) n d p table /\
    exists k s prop, entry table k s /\ asks (w_matches w) (template c) s (bs_required s) k prop d /\ ~ In prop (keys d) /\
      q = p /\ words = "When property '" ++ k ++ "' has its current value property '" ++ prop ++ "' should be specified at " ++ path_text p).
Proof. exact prop_needed. Qed.
Print Assumptions needed_properties_reported_partial.

(** A run reports exactly the properties that the value of another forbids, in resources and the objects nested in them, save where that is suppressed.  The full property has no hypotheses on the template. *)
Theorem unwanted_properties_reported_partial : forall w sp tr k rg man c ds l,
  lints w sp tr k rg man c ds "E3018" l -> wf (template c) -> (forall l, Permutation (w_order w l) l) ->
  let rts := fst (w_based_on w) in let pts := snd (w_based_on w) in objects_nested sp pts (template c) ->
  (forall n d p table, object_with sp rts pts (template c) n d p table -> based_fit (template c) bs_unwanted d table) ->
  tells_exactly c man ds l "E3018" (fun q words => exists n d p table, object_with sp rts pts (template c) n d p table /\
    exists k s prop, entry table k s /\ asks (w_matches w) (template c) s (bs_unwanted s) k prop d /\ In prop (keys d) /\
      q = p /\ words = "When property '" ++ k ++ "' has its current value property '" ++ prop ++ "' should not be specified at " ++ path_text p).
Proof. exact prop_unwanted. Qed.
Print Assumptions unwanted_properties_reported_partial.

(** A run reports exactly the zones that are hardcoded, in resources and the objects nested in them, save where that is suppressed.  The full property has no hypotheses on the template. *)
Theorem hardcoded_zones_reported_partial : forall w sp tr k rg man c ds l,
  lints w sp tr k rg man c ds "W3010" l -> wf (template c) ->
  (forall n v q, nested_of sp (template c) n v q -> In n zone_property_types -> exists d, v = VDict d) ->
  (forall rt pd p, properties_of (template c) rt pd p -> In rt zone_resource_types -> no_null_member pd p) ->
  (forall n d p, nested_of sp (template c) n (VDict d) p -> In n zone_property_types -> no_null_member d p) ->
  let told d p q words := exists key x v, In key ["AvailabilityZone"; "AvailabilityZones"] /\ assoc key d = Some x /\ single x (p ++ [PKey key])%list v q /\ ~ is_call v /\
      v <> VStr "all" /\ words = "Don't hardcode " ++ py_str (w_str w) v ++ " for AvailabilityZones" in
  tells_exactly c man ds l "W3010" (fun q words => (exists rt pd p, properties_of (template c) rt pd p /\ In rt zone_resource_types /\ told pd p q words) \/
    (exists n d p, nested_of sp (template c) n (VDict d) p /\ In n zone_property_types /\ told d p q words)).
Proof. exact prop_zones. Qed.
Print Assumptions hardcoded_zones_reported_partial.

(** A run reports exactly the required properties that are missing, in resources and the objects nested in them, save where that is suppressed.  The full property has no hypotheses on the template. *)
Theorem required_properties_reported_partial : forall w sp tr k rg man c ds l,
  lints w sp tr k rg man c ds "E3003" l -> wf (template c) ->
  let rs := w_rspec w in types_are_texts (template c) -> objects_nested sp (rs_property_types rs) (template c) ->
  (forall name rt attrs x, resource_of (template c) name rt attrs -> custom_type rs rt -> assoc "Properties" attrs = Some x ->
     exists props, x = VDict props /\ all_members (VDict props) [PKey "Resources"; PKey name; PKey "Properties"]) ->
  (forall n d p specs, object_with sp (rs_resource_types rs) (rs_property_types rs) (template c) n d p specs -> all_members (VDict d) p) ->
  tells_exactly c man ds l "E3003" (fun q words => exists d p v name, branch (VDict d) p v q /\ lacks v name /\ words = "Property " ++ name ++ " missing at " ++ path_text q /\
    ((exists rt, properties_of (template c) rt d p /\ requires (rs_resource_types rs) rt name) \/
     (exists n, nested_of sp (template c) n (VDict d) p /\ requires (rs_property_types rs) n name) \/
     (exists rt, properties_of (template c) rt d p /\ custom_type rs rt /\ requires (rs_resource_types rs) "AWS::CloudFormation::CustomResource" name))).
Proof. exact prop_required. Qed.
Print Assumptions required_properties_reported_partial.

Example busy_lints_ : exists l, Forall (fun id => exists fi, In fi l /\ f_rule fi = id) busy_rules /\ forall id, In id normal ->
  lints stocked small_sp no_translator (mkColl (shipped stocked) default_settings) ["us-east-1"] [] busy_cfn [] id l.
Proof. exact busy_lints. Qed.

Example busy_wf_ : wf (template busy_cfn) /\ steady (template busy_cfn) = true.
Proof. exact busy_wf. Qed.

Example busy_types_ : let t := template busy_cfn in
  (forall pd p, properties_of t "AWS::Events::Rule" pd p -> texts_given pd p "ScheduleExpression") /\
  assoc "" (w_runtimes stocked) = None /\ (forall pd p, properties_of t "AWS::Lambda::Function" pd p -> runtimes_shaped t pd p) /\
  plain_sections t /\
  (forall pd p, properties_of t "AWS::Lambda::Function" pd p -> exists x, assoc "MemorySize" pd = Some x /\
     (forall q, ~ alternative x (p ++ [PKey "MemorySize"])%list VNull q) /\
     (forall y r, single x (p ++ [PKey "MemorySize"])%list (VDict [("Ref", y)]) r -> exists n, y = VStr n)) /\
  (forall rt pd p, properties_of t rt pd p -> version_type rt -> versions_shaped rt pd p) /\
  (forall rt pd p, properties_of t rt pd p -> In rt (resource_policy_types ++ identity_types)%list -> documents_shaped (w_json stocked) all_document_names pd p /\
     forall x q d r, document_at all_document_names pd p x q -> single x q (VDict d) r -> assoc "Resources" d = None) /\
  (forall pd p, properties_of t "AWS::CodeBuild::Project" pd p -> role_refs_shaped t pd p) /\
  (forall pd p, properties_of t "AWS::StepFunctions::StateMachine" pd p -> machine_shaped (w_loads stocked) pd p) /\
  (forall l, Permutation (w_order stocked l) l) /\
  (forall pd p, properties_of t "AWS::Route53::RecordSet" pd p -> plain_object pd /\ VDict pd <> no_value /\ (forall n, ~ group_looks_at pd ["Name"; "HostedZoneName"] n) /\ zone_shaped pd) /\
  (forall pd p x, properties_of t "AWS::CertificateManager::Certificate" pd p -> assoc "DomainValidationOptions" pd = Some x ->
     (forall q, ~ alternative x (p ++ [PKey "DomainValidationOptions"])%list VNull q) /\
     forall e q, single x (p ++ [PKey "DomainValidationOptions"])%list (VDict e) q -> ~ is_call (VDict e) -> plain_object e /\ forall n, ~ members_look_at e n) /\
  (forall rt pd p key x q, properties_of t rt pd p -> In rt (keys templated) -> assoc key pd = Some x -> ~ alternative x (p ++ [PKey key])%list VNull q) /\
  (forall pd p, properties_of t "AWS::DynamoDB::Table" pd p -> plain_object pd /\ VDict pd <> no_value /\ (forall n, ~ group_looks_at pd table_part n) /\ table_shaped pd).
Proof. exact busy_types. Qed.

Example busy_objects_ : let t := template busy_cfn in let rs := w_rspec stocked in
  ~ In "" (keys (rs_value_types rs)) /\ ~ In "" (keys (w_values stocked)) /\ kinds_known (w_values stocked) (w_kinds stocked) /\ types_are_texts t /\ allowed_lists t /\
  (forall A (pts : list (string * A)), objects_nested small_sp pts t) /\
  (forall n v q, nested_of small_sp t n v q -> In n zone_property_types -> exists d, v = VDict d) /\
  (forall name rt attrs x, resource_of t name rt attrs -> custom_type rs rt -> assoc "Properties" attrs = Some x ->
     exists props, x = VDict props /\ all_members (VDict props) [PKey "Resources"; PKey name; PKey "Properties"]) /\
  (forall rt pd p, properties_of t rt pd p -> In rt zone_resource_types -> no_null_member pd p) /\
  (forall n d p, nested_of small_sp t n (VDict d) p -> In n zone_property_types -> no_null_member d p) /\
  (forall n d p specs, object_with small_sp (rs_resource_types rs) (rs_property_types rs) t n d p specs ->
     ~ is_if (VDict d) /\ VDict d <> NoValue /\ no_null_member d p /\ all_members (VDict d) p /\ all_objects (VDict d) p /\ no_null_property (VDict d) p /\
     (forall e q, branch (VDict d) p (VDict e) q -> plain_object e /\ VDict e <> no_value /\ forall n, ~ members_look_at e n) /\
     ~ In "Fn::If" (keys specs) /\ judgeable (VDict d) p /\ refs_are_names d p /\
     (forall prop x r, assoc prop d = Some x -> ~ single x (p ++ [PKey prop])%list (VDict [("Fn::Sub", VList [])]) r)) /\
  (forall n d p table, object_with small_sp (fst (w_exclusive stocked)) (snd (w_exclusive stocked)) t n d p table -> plain_object d /\ VDict d <> no_value /\ forall n, ~ members_look_at d n) /\
  (forall n d p table, object_with small_sp (fst (w_inclusive stocked)) (snd (w_inclusive stocked)) t n d p table -> plain_object d /\ VDict d <> no_value /\ forall n, ~ members_look_at d n) /\
  (forall n d p groups, object_with small_sp (fst (w_at_least_one stocked)) (snd (w_at_least_one stocked)) t n d p groups -> groups_fit d p groups) /\
  (forall n d p groups, object_with small_sp (fst (w_only_one stocked)) (snd (w_only_one stocked)) t n d p groups -> groups_fit d p groups) /\
  (forall n d p table, object_with small_sp (fst (w_based_on stocked)) (snd (w_based_on stocked)) t n d p table -> based_fit t bs_required d table /\ based_fit t bs_unwanted d table).
Proof. exact busy_objects. Qed.
