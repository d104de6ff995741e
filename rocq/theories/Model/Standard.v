(** The rules the linter ships with, src/cfnlint/rules/**/*.py: the list of rule objects that core.get_rules makes from
    DEFAULT_RULESDIR (core.py:87-109), one for each rule file, in the order of a walk through the directories in alphabetical
    order (the actual order is that of os.walk, see C91 and C92). *)
From Coq Require Import QArith.
From Verif.Model Require Import Base Node Locate Helpers Rules Limits Shape Parameters Functions Refs Relationship Graph Policies
  Conditions ConditionRules PropertyRules PropertyTree ValueRules BasedOn ParameterValues SubNeeded Iam Interface Events Lambda
  SubProps Elb Domains Ec2 StateMachine Rds DynamoDb ElastiCache Pipelines JsonSize Registry Route53 UpdatePolicy.
Import Verif.Model.Rules.
Local Open Scope string_scope.

(** What the rules use besides the template: data files of the package, files and options of the run, and library functions the
    model leaves open. *)
Record world := mkWorld {
  (* about the template: what the serverless transform replaced (Template.transform_pre, template.py:37-41 and runner.py:38) *)
  w_before : cfn -> val;                      (* the template before a transform *)
  w_globals : cfn -> val;                     (* its Globals, if transformed *)
  w_size : string -> option Z;                (* os.path.getsize, LimitSize.py:27-29 *)
  w_regions : list string;                    (* the regions of the run *)
  (* the resource specifications and the other data files *)
  w_rspec : rspec;
  w_specs : list (string * list (string * list (string * bool)));
  w_registry_names : list string;
  w_registry : list val;
  w_getatts : list (string * option (list (string * attspec)));
  w_attribute : string -> string -> option string;
  w_resource_objects : list (string * ospec);
  w_property_objects : list (string * ospec);
  w_intrinsic_types : list (string * list string);
  w_values : list (string * vrule);
  w_kinds : list (string * list string);
  w_exclusive : list (string * list (string * list string)) * list (string * list (string * list string));
  w_inclusive : list (string * list (string * list string)) * list (string * list (string * list string));
  w_at_least_one : list (string * list (list string)) * list (string * list (list string));
  w_only_one : list (string * list (list string)) * list (string * list (list string));
  w_based_on : list (string * btable) * list (string * btable);
  w_runtimes : list (string * lifecycle);
  w_services : list (string * list string);
  w_classes : class_table;
  w_json_max : string -> option Z;
  (* the state of the interpreter *)
  w_instant : string -> Z;
  w_now : Z;
  w_order : list string -> list string;       (* the order in which a set of texts is walked *)
  w_order_values : list val -> list val;
  w_fuel : nat;                               (* how deep conditions may be nested *)
  (* library functions *)
  w_str : val -> string;
  w_show : val -> string;
  w_show_names : list string -> string;
  w_hash : val -> string;
  w_sha1 : string -> string;
  w_float_text : Q -> string;
  w_py_float : string -> option (option Q);
  w_is_int : string -> bool;
  w_is_float : string -> bool;
  w_matches : string -> string -> bool;
  w_default_matches : string -> string -> option bool;
  w_description : string -> string;
  w_json : string -> option val;
  w_loads : val -> string + val;
  w_validate : val -> val -> res (option string);
  w_reformat : string -> res string;
  w_ipv6 : string -> bool;
  w_funcs_text : string;
  w_find_cycle : list edge -> string -> option (list edge) }.

(** A rule that only looks at the template as a whole ([match], rules/__init__.py:103). *)
Definition template_rule (id : string) (f : cfn -> res (list rulematch)) : rule :=
  mkRule id false [] [] [] [] (fun _ => ([], [])) (Some (fun _ c => f c)) None None.
(** The rules on limits, see [limit_rule] in Model/Limits.v; the entry is always found. *)
Definition limited_rule (w : world) (k : kind) (id number : string) : rule :=
  template_rule id (fun c => match limit_rule (template c) k (w_size w (c_file c)) number with Some r => r | None => Err EKey end).

Section Standard.
Variable w : world.
Let before := w_before w.
Let globals := w_globals w.
Let known (c : cfn) : conditions := load (w_hash w) (w_fuel w) (template c).

(** rules/conditions. *)
Definition condition_rules : list rule :=
  [template_rule "E8004" (fun c => Ok (check_condition_list (template c) (globals c) "Fn::And"));
   template_rule "E8001" (fun c => configuration_match (template c));
   template_rule "E8003" (fun c => equals_match (template c) (globals c));
   template_rule "E8002" (fun c => exists_match (template c) (globals c) (w_str w));
   template_rule "E8005" (fun c => Ok (check_condition_list (template c) (globals c) "Fn::Not"));
   template_rule "E8006" (fun c => Ok (check_condition_list (template c) (globals c) "Fn::Or"));
   template_rule "W8001" (fun c => used_match (template c) (globals c))].

(** rules/functions. *)
Definition function_rules : list rule :=
  [template_rule "E1021" (fun c => base64_match (template c) (globals c));
   template_rule "E1024" (fun c => cidr_match (template c) (globals c) (w_str w) (w_order_values w));
   secure_rule (w_rspec w);
   template_rule "E1011" (fun c => find_in_map_match (template c) (globals c));
   template_rule "W1011" (fun c => find_keys_match (template c) (globals c) (w_str w));
   template_rule "E1010" (fun c => getatt_match (template c) (globals c) (w_str w) (w_getatts w));
   template_rule "E1015" (fun c => getaz_match (template c) (globals c) (w_regions w));
   template_rule "E1028" (fun c => if_match (template c) (globals c));
   template_rule "E1016" (fun c => Functions.import_match (template c) (globals c));
   template_rule "E1022" (fun c => join_match (template c) (globals c) (w_getatts w));
   template_rule "E1023" (fun c => not_match (template c) (globals c));
   template_rule "E1020" (fun c => ref_text_match (template c) (globals c));
   template_rule "E1012" (fun c => ref_exist_match (template c) (globals c));
   template_rule "E1026" (fun c => ref_condition_match (template c) (globals c));
   template_rule "W1001" (fun c => relationship_match (w_order w) (known c) (template c) (globals c));
   template_rule "E1017" (fun c => select_match (template c) (globals c) (w_is_int w));
   template_rule "E1018" (fun c => split_match (template c) (globals c));
   template_rule "E1019" (fun c => sub_match (template c) (globals c) (w_str w) (w_getatts w));
   sub_needed_rule (w_matches w) [("custom_excludes", VStr "")];
   template_rule "I1022" (fun c => sub_not_join_match (template c) (globals c));
   template_rule "W1019" (fun c => sub_used_match (template c) (globals c));
   template_rule "W1020" (fun c => sub_unneeded_match (before c))].

(** rules/mappings and rules/metadata. *)
Definition mapping_rules : list rule :=
  [limited_rule w Approaches "I7012" "7012"; limited_rule w Approaches "I7011" "7011"; limited_rule w Approaches "I7010" "7010";
   template_rule "E7001" (fun c => mapping_configuration_match (w_str w) (template c));
   template_rule "E7003" (fun c => key_name_match (template c));
   limited_rule w Exceeds "E7012" "7012"; limited_rule w Exceeds "E7011" "7011"; limited_rule w Exceeds "E7010" "7010";
   template_rule "E7002" (fun c => alphanumeric_name (template c) "Mappings");
   template_rule "W7001" (fun c => mappings_used_match (before c) (template c));
   interface_configuration_rule (w_str w); interface_parameters_rule (w_str w)].

(** rules/outputs. *)
Definition output_rules : list rule :=
  [limited_rule w Approaches "I6012" "6012"; limited_rule w Approaches "I6011" "6011"; limited_rule w Approaches "I6010" "6010";
   template_rule "E6001" (fun c => output_configuration_match (w_funcs_text w) (template c));
   template_rule "E6005" (fun c => output_description_match (template c));
   template_rule "W6001" (fun c => Ok (ParameterValues.import_match (w_str w) (template c) (globals c)));
   limited_rule w Exceeds "E6012" "6012"; limited_rule w Exceeds "E6011" "6011"; limited_rule w Exceeds "E6010" "6010";
   template_rule "E6004" (fun c => alphanumeric_name (template c) "Outputs");
   template_rule "E6002" (fun c => output_required_match (template c));
   template_rule "E6003" (fun c => output_value_match (w_str w) (template c) (globals c) (w_attribute w))].

(** rules/parameters. *)
Definition parameter_rules : list rule :=
  [parameter_pattern_rule (w_str w) (w_matches w) (w_description w) (w_rspec w) (w_values w);
   parameter_values_rule (w_str w) (w_rspec w) (w_values w);
   limited_rule w Approaches "I2011" "2011"; limited_rule w Approaches "I2010" "2010"; limited_rule w Approaches "I2012" "2012";
   template_rule "E2001" (fun c => parameter_configuration_match (template c));
   template_rule "E2015" (fun c => default_match (w_str w) (w_default_matches w) (template c));
   template_rule "E2014" (fun c => Ok (default_ref_match (w_str w) (template c) (globals c)));
   memory_rule;
   limited_rule w Exceeds "E2011" "2011"; limited_rule w Exceeds "E2010" "2010"; limited_rule w Exceeds "E2012" "2012";
   template_rule "E2003" (fun c => alphanumeric_name (template c) "Parameters");
   template_rule "E2002" (fun c => parameter_types_match (w_str w) (template c));
   template_rule "W2001" (fun c => parameters_used_match (before c) (template c))].

(** rules/resources, the files of the directory itself. *)
Definition resource_rules : list rule :=
  [limited_rule w Approaches "I3012" "3011"; limited_rule w Approaches "I3010" "3010";
   template_rule "W3011" (fun c => both_match (template c));
   template_rule "E3004" (fun c => circular_match (template c) (globals c) (w_find_cycle w));
   template_rule "E3001" (fun c => resource_configuration_match (w_specs w) (w_registry_names w) (w_regions w) (template c));
   template_rule "E3035" (fun c => Policies.policy_match (w_str w) "DeletionPolicy" (template c));
   template_rule "E3005" (fun c => depends_on_match (w_order w) (known c) (template c));
   template_rule "W3005" (fun c => obsolete_match (w_str w) (template c) (globals c));
   limited_rule w Exceeds "E3011" "3011"; limited_rule w Exceeds "E3010" "3010";
   template_rule "E5001" (fun c => modules_match (w_str w) (template c) (globals c));
   template_rule "E3006" (fun c => alphanumeric_name (template c) "Resources");
   template_rule "W4002" (fun c => no_echo_match (template c) (globals c));
   schema_rule (w_float_text w) (w_validate w) (w_registry w);
   template_rule "E3038" (fun c => serverless_transform_match (template c));
   template_rule "E3007" (fun c => unique_names_match (template c));
   template_rule "E3036" (fun c => Policies.policy_match (w_str w) "UpdateReplacePolicy" (template c));
   template_rule "I3011" (fun c => stateful_match (template c))].

(** rules/resources, the directories of services.  The rules E2503, E2540 and E3020 of the model are told the Globals of one
    template; here they look them up, as Template.search_deep_keys does. *)
Definition service_rules : list rule :=
  [option_rule (w_hash w) (w_order w) (w_fuel w);
   aliases_rule (w_reformat w);
   actions_rule (w_show w);
   template_rule "E2540" (fun c => stages_match (w_order w) (known c) (template c) (globals c));
   DynamoDb.table_rule (w_show_names w) (w_hash w) (w_order w) (w_fuel w);
   containers_rule;
   ebs_rule; association_rule; ingress_rule;
   cluster_rule (w_hash w) (w_order w) (w_fuel w);
   mkRule "E2503" false [] [] ["AWS::ElasticLoadBalancingV2::LoadBalancer"] [] (fun _ => ([], []))
     (Some (fun _ c => listeners_match (template c)))
     (Some (fun _ c props _ p => balancer_check (w_order w) (known c) (template c) (globals c) props p)) None;
   schedule_rule; targets_rule;
   permission_rule (w_json w) (w_services w); policy_rule (w_json w); version_rule; path_rule (w_str w);
   end_rule (w_runtimes w) (w_instant w) (w_now w); eol_rule (w_runtimes w) (w_instant w) (w_now w); filters_rule (w_float_text w);
   db_rule (w_classes w) (w_regions w);
   template_rule "E3020" (fun c => recordsets_match (w_ipv6 w) (w_order w) (known c) (globals c) (template c));
   Domains.zone_rule (w_hash w) (w_order w) (w_fuel w);
   machine_rule (w_loads w) (w_show w);
   update_policy_rule].

(** rules/resources/properties; E3502, W2501 and W2506 look up the Globals. *)
Definition property_rules : list rule :=
  [allowed_pattern_rule (w_hash w) (w_fuel w) (w_str w) (w_matches w) (w_rspec w) (w_values w);
   allowed_value_rule (w_hash w) (w_fuel w) (w_str w) (w_rspec w) (w_values w);
   at_least_one_rule (w_hash w) (w_order w) (w_fuel w) (fst (w_at_least_one w)) (snd (w_at_least_one w));
   ValueRules.zone_rule (w_str w);
   exclusive_rule (w_hash w) (w_order w) (w_fuel w) (fst (w_exclusive w)) (snd (w_exclusive w));
   template_rule "W2506" (fun c => image_match (template c) (globals c));
   inclusive_rule (w_hash w) (w_order w) (w_fuel w) (fst (w_inclusive w)) (snd (w_inclusive w));
   mkRule "E3502" false [] [] [] []
     (fun _ => (keys (rs_resource_types (w_rspec w)), keys (rs_property_types (w_rspec w)))) None
     (Some (fun _ c props rt p => json_check (w_float_text w) (w_order w) (known c) (template c) (globals c) (w_json_max w) props
                                    (specs_of rt (rs_resource_types (w_rspec w))) p))
     (Some (fun _ c props pt p => json_check (w_float_text w) (w_order w) (known c) (template c) (globals c) (w_json_max w) props
                                    (specs_of pt (rs_property_types (w_rspec w))) p));
   duplicates_rule (w_hash w) (w_order w) (w_fuel w) (w_sha1 w) (w_float_text w) (w_rspec w);
   duplicates_allowed_rule (w_hash w) (w_order w) (w_fuel w) (w_sha1 w) (w_float_text w) (w_rspec w);
   list_size_rule (w_hash w) (w_order w) (w_fuel w) (w_rspec w);
   number_size_rule (w_hash w) (w_fuel w) (w_py_float w) (w_rspec w);
   only_one_rule (w_hash w) (w_order w) (w_fuel w) (fst (w_only_one w)) (snd (w_only_one w));
   template_rule "W2501" (fun c => password_match (template c) (globals c));
   template_rule "E3002" (fun c => properties_match (w_resource_objects w) (w_property_objects w) (w_intrinsic_types w) (template c));
   templated_rule;
   required_rule (w_rspec w);
   required_based_rule (w_matches w) (w_hash w) (w_order w) (w_fuel w) (fst (w_based_on w)) (snd (w_based_on w));
   string_size_rule (w_hash w) (w_fuel w) (w_rspec w);
   unwanted_based_rule (w_matches w) (w_hash w) (w_order w) (w_fuel w) (fst (w_based_on w)) (snd (w_based_on w));
   primitive_rule (w_is_int w) (w_is_float w) (w_rspec w);
   ref_getatt_rule (w_str w) (w_rspec w) (w_values w) (w_kinds w)].

(** rules/templates. *)
Definition section_rules : list rule :=
  [limited_rule w Approaches "I1003" "1003"; limited_rule w Approaches "I1002" "1002";
   template_rule "E1001" (fun c => match template c with VDict d => Ok (base_match d) | _ => Err ETemplateAttribute end);
   template_rule "E1004" (fun c => description_match (template c));
   limited_rule w Exceeds "E1003" "1003"; limited_rule w Exceeds "E1002" "1002"].

Definition shipped : list rule :=
  (condition_rules ++ function_rules ++ mapping_rules ++ output_rules ++ parameter_rules ++ resource_rules ++ service_rules ++
   property_rules ++ section_rules)%list.
End Standard.
