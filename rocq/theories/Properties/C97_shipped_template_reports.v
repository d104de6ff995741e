(** C97 What a run with the shipped rules reports of the template as a whole. *)
From Coq Require Import List String ZArith QArith Bool Permutation Relations.
Import ListNotations.
From Verif.Model Require Import Base Node Locate Helpers Rules Runner Config Core Limits Shape Parameters Refs Graph ConditionRules Relationship Policies ValueRules UpdatePolicy Interface Registry Functions ParameterValues Standard.
From Verif.Spec Require Import Pipeline Paths References Walk Limited ConditionUse Faults Protect Interface Registry Dependencies Sensitive ParameterValues UpdatePolicy Shipped ShippedPlaces.
From Verif.Proofs Require Import StandardTemplates Samples RuleSetWitness StandardWitness StandardPropWitness StandardFunctionWitness PropertyRuleProofs GroupWitness PropertyWitness IamWitness GraphProofs DuplicateWitness RegistryWitness SubPropsWitness RecordWitness Ec2Witness RdsWitness StageWitness ActionWitness ClusterWitness ElbWitness EventWitness JsonSizeWitness LambdaWitness UpdatePolicyWitness InterfaceProofs ValueWitness ExpectedWitness StandardServiceWitness.
Import Verif.Model.Rules.
Local Open Scope string_scope.

(** Exactly the keys of mappings are reported that are not alphanumeric.  Missing: names ending with a line feed, which pass.  In a run, save where suppressed or told already. *)
Theorem mapping_names_reported_partial : forall w sp tr k rg man c ds l ms,
  lints w sp tr k rg man c ds "E7003" l -> section (template c) "Mappings" ms ->
  (forall n m k x a y, In (n, VDict m) ms -> In (k, VDict x) m -> In (a, y) x -> forall t, a <> (t ++ String "010" "")) ->
  tells_exactly c man ds l "E7003" (fun q words => exists n m k x a y, In (n, VDict m) ms /\ In (k, VDict x) m /\ In (a, y) x /\ ~ alphanumeric a /\
    q = [PKey "Mappings"; PKey n; PKey k; PKey a] /\ words = "Mapping key (" ++ a ++ ") has invalid name. Name has to be alphanumeric.").
Proof. exact tmpl_E7003. Qed.
Print Assumptions mapping_names_reported_partial.

(** Exactly the missing and the unknown sections of the template are reported.  In a run, save where suppressed or told already. *)
Theorem base_reported : forall w sp tr k rg man c ds l d,
  lints w sp tr k rg man c ds "E1001" l -> template c = VDict d ->
  tells_exactly c man ds l "E1001" (template_fault d).
Proof. exact tmpl_E1001. Qed.
Print Assumptions base_reported.

(** Exactly a description that is no text is reported, unless it is empty.  In a run, save where suppressed or told already. *)
Theorem description_reported : forall w sp tr k rg man c ds l d,
  lints w sp tr k rg man c ds "E1004" l -> template c = VDict d ->
  tells_exactly c man ds l "E1004" (fun q words => (exists v, assoc "Description" d = Some v /\ (forall s, v <> VStr s) /\ ~ empty v) /\ q = [PKey "Description"] /\ words = "Description can only be a string").
Proof. exact tmpl_E1004. Qed.
Print Assumptions description_reported.

(** Exactly the uses of Ref in the parameters are reported.  In a run, save where suppressed or told already. *)
Theorem refs_in_parameters_reported : forall w sp tr k rg man c ds l,
  lints w sp tr k rg man c ds "E2014" l -> wf (template c) ->
  tells_exactly c man ds l "E2014" (fun q words => exists p v, occurs "Ref" (template c) (VDict []) (PKey "Parameters" :: p) v /\
    q = (PKey "Parameters" :: p ++ [PKey "Ref"])%list /\ words = "Invalid value (" ++ py_str (w_str w) v ++ "), Ref cannot be used in Parameters").
Proof. exact tmpl_E2014. Qed.
Print Assumptions refs_in_parameters_reported.

(** Exactly the unknown keys of the interface in the metadata are reported.  Missing: interfaces of other shapes.  In a run, save where suppressed or told already. *)
Theorem interface_keys_reported_partial : forall w sp tr k rg man c ds l i,
  lints w sp tr k rg man c ds "E4001" l -> interface_shaped (template c) i ->
  tells_exactly c man ds l "E4001" (fun q words => exists key, stray_key (template c) q key /\ words = "Metadata Interface has invalid property " ++ key).
Proof. exact tmpl_E4001. Qed.
Print Assumptions interface_keys_reported_partial.

(** Exactly the names in the interface are reported that are not those of parameters.  Missing: interfaces of other shapes.  In a run, save where suppressed or told already. *)
Theorem interface_parameters_reported_partial : forall w sp tr k rg man c ds l i,
  lints w sp tr k rg man c ds "W4001" l -> interface_shaped (template c) i ->
  tells_exactly c man ds l "W4001" (fun q words => exists v, stray_name (template c) q v /\ words = "Metadata Interface parameter doesn't exist " ++ py_str (w_str w) v).
Proof. exact tmpl_W4001. Qed.
Print Assumptions interface_parameters_reported_partial.

(** Exactly the faults of update policies are reported.  Missing: policies of other shapes.  In a run, save where suppressed or told already. *)
Theorem update_policies_reported_partial : forall w sp tr k rg man c ds l,
  lints w sp tr k rg man c ds "E3016" l -> wf (template c) ->
  (forall name t u, has_policy (template c) name t u -> policy_shaped u (policy_place name)) ->
  tells_exactly c man ds l "E3016" (fun q words => exists name t u place, has_policy (template c) name t u /\ policy_fault t u (policy_place name) place q words).
Proof. exact tmpl_E3016. Qed.
Print Assumptions update_policies_reported_partial.

(** Exactly the resources are reported that do not meet the schema of their type in the registry.  Missing: properties that are texts or hold references that are not closed, and exceptions of the validation.  In a run, save where suppressed or told already. *)
Theorem registry_reported_partial : forall w sp tr k rg man c ds l d,
  lints w sp tr k rg man c ds "E3000" l -> plain_float (w_float_text w) -> template c = VDict d ->
  (forall schema, In schema (w_registry w) -> exists ty, schema_of schema ty) ->
  (forall schema ty name props, In schema (w_registry w) -> schema_of schema ty -> typed_resource (template c) name ty props ->
     is_str props = false /\ closed_references props /\ (with_dynamic props \/ with_syntax props \/ exists r, w_validate w props schema = Ok r)) ->
  tells_exactly c man ds l "E3000" (fun q words => exists schema ty name props, In schema (w_registry w) /\ schema_of schema ty /\ typed_resource (template c) name ty props /\
    ~ with_syntax props /\ ~ with_dynamic props /\ w_validate w props schema = Ok (Some words) /\ q = [PKey "Resources"; PKey name; PKey "Properties"]).
Proof. exact tmpl_E3000. Qed.
Print Assumptions registry_reported_partial.

(** If resources are serverless and the template has no such transform, exactly that is reported.  In a run, save where suppressed or told already. *)
Theorem transform_needed_reported : forall w sp tr k rg man c ds l d,
  lints w sp tr k rg man c ds "E3038" l -> wf (template c) -> template c = VDict d ->
  tells_each c man ds l "E3038" (fun _ : unit => ~ serverless (template c) /\ exists n t, serverless_resource (template c) n t)
    (fun _ q words => q = [PKey "Transform"] /\ exists n t, serverless_resource (template c) n t /\ words = "Serverless Transform required for Type " ++ t ++ " for resource " ++ n).
Proof. exact tmpl_E3038. Qed.
Print Assumptions transform_needed_reported.

(** Each resource that depends on itself leads to a circle that is reported, and nothing else is.  Missing: references that are not plain.  In a run, save where suppressed or told already. *)
Theorem circles_reported_partial : forall w sp tr k rg man c ds l,
  lints w sp tr k rg man c ds "E3004" l -> finds_cycles (w_find_cycle w) -> wf (template c) -> plain_functions (template c) ->
  tells_each c man ds l "E3004" (fun a => clos_trans _ (depends (template c)) a a)
    (fun a q words => exists x y, clos_refl_trans _ (depends (template c)) a x /\ depends (template c) x y /\ clos_refl_trans _ (depends (template c)) y x /\
       q = [PKey "Resources"; PKey x] /\ words = "Circular Dependencies for resource " ++ x ++ ". Circular dependency with [" ++ y ++ "]").
Proof. exact tmpl_E3004. Qed.
Print Assumptions circles_reported_partial.

(** Exactly the passwords are reported that are not given by a parameter without echo.  Missing: sections of other shapes and stray names.  In a run, save where suppressed or told already. *)
Theorem passwords_reported_partial : forall w sp tr k rg man c ds l,
  lints w sp tr k rg man c ds "W2501" l -> wf (template c) -> plain_sections (template c) -> no_stray (template c) (VDict []) ->
  tells_exactly c man ds l "W2501" (fun q words => exists prop p v, In prop password_names /\ occurs prop (template c) (VDict []) p v /\ into_properties p /\
    password_fault (template c) prop (p ++ [PKey prop])%list v q words).
Proof. exact tmpl_W2501. Qed.
Print Assumptions passwords_reported_partial.

(** Exactly the image parameters of other types are reported.  Missing: references to what is ambiguous, and parameters used elsewhere.  In a run, save where suppressed or told already. *)
Theorem images_reported_partial : forall w sp tr k rg man c ds l,
  lints w sp tr k rg man c ds "W2506" l -> wf (template c) -> plain_sections (template c) -> image_parameters_only (template c) ->
  (forall p y, occurs "ImageId" (template c) (VDict []) p (VDict [("Ref", y)]) -> into_resources p -> exists n, y = VStr n /\ (unambiguous (template c) n \/ unknown (template c) n)) ->
  tells_exactly c man ds l "W2506" (fun q words => exists p v, occurs "ImageId" (template c) (VDict []) p v /\ into_resources p /\ image_fault (template c) (p ++ [PKey "ImageId"])%list v q words).
Proof. exact tmpl_W2506. Qed.
Print Assumptions images_reported_partial.

(** Exactly the outputs are reported that are imported from other outputs.  In a run, save where suppressed or told already. *)
Theorem relayed_outputs_reported : forall w sp tr k rg man c ds l,
  lints w sp tr k rg man c ds "W6001" l -> wf (template c) ->
  tells_exactly c man ds l "W6001" (fun q words => exists p n v, occurs "Fn::ImportValue" (template c) (VDict []) p v /\ q = (p ++ [PKey "Fn::ImportValue"])%list /\ imported_output q n /\
    words = "The value of output (" ++ str_of_pelem n ++ ") is imported from another output (" ++ py_str (w_str w) v ++ ")").
Proof. exact tmpl_W6001. Qed.
Print Assumptions relayed_outputs_reported.

Example outline_example_ : (forall id, In id ["E7003"; "E1001"; "E1004"; "E2014"; "E3038"; "W6001"] -> linted dots small_sp outline_cfn id) /\ wf (template outline_cfn) /\
  (exists d, template outline_cfn = VDict d) /\
  section (template outline_cfn) "Mappings" [("M", VDict [("k", VDict [("a b", VStr "x"); ("ab", VStr "y")])])] /\
  (forall n m k x a y, In (n, VDict m) [("M", VDict [("k", VDict [("a b", VStr "x"); ("ab", VStr "y")])])] -> In (k, VDict x) m -> In (a, y) x -> forall t, a <> (t ++ String "010" "")).
Proof. exact outline_example. Qed.

Example interface_run_ : linted dots small_sp interface_cfn "E4001" /\ linted dots small_sp interface_cfn "W4001" /\ interface_shaped (template interface_cfn) sample_interface.
Proof. exact interface_run. Qed.

Example policy_run_ : linted dots small_sp policy_cfn "E3016" /\ wf (template policy_cfn) /\ (forall name t u, has_policy (template policy_cfn) name t u -> policy_shaped u (policy_place name)).
Proof. exact policy_run. Qed.

Example registry_run_ : let c := mkCfn "t.yaml" "us-east-1" (marked two_disks) in linted half small_sp c "E3000" /\ plain_float (w_float_text half) /\ (exists d, template c = VDict d) /\
  (forall schema, In schema (w_registry half) -> exists ty, schema_of schema ty) /\
  (forall schema ty name props, In schema (w_registry half) -> schema_of schema ty -> typed_resource (template c) name ty props ->
     is_str props = false /\ closed_references props /\ (with_dynamic props \/ with_syntax props \/ exists r, w_validate half props schema = Ok r)).
Proof. exact registry_run. Qed.

Example ring_run_ : let c := cfn_of ring in linted dots small_sp c "E3004" /\ finds_cycles (w_find_cycle dots) /\ wf (template c) /\ plain_functions (template c).
Proof. exact ring_run. Qed.

Example secrets_run_ : let c := cfn_of value_template in linted dots small_sp c "W2501" /\ linted dots small_sp c "W2506" /\ wf (template c) /\ plain_sections (template c) /\ no_stray (template c) (VDict []) /\
  image_parameters_only (template c) /\
  (forall p y, ConditionUse.occurs "ImageId" (template c) (VDict []) p (VDict [("Ref", y)]) -> into_resources p -> exists n, y = VStr n /\ (unambiguous (template c) n \/ unknown (template c) n)).
Proof. exact secrets_run. Qed.
