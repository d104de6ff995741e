(** Which rules each input of a run can influence (C113). *)
From Coq Require Import List String ZArith QArith.
From Verif.Model Require Import Base Node Locate Helpers Rules Limits Shape Parameters Functions Refs Relationship Graph Policies Conditions ConditionRules PropertyRules PropertyTree ValueRules BasedOn ParameterValues SubNeeded Iam Interface Events Lambda SubProps Elb Domains Ec2 StateMachine Rds DynamoDb ElastiCache Pipelines JsonSize Registry Route53 UpdatePolicy Standard.
From Verif.Spec Require Import Pipeline.
Import Verif.Model.Rules.
Import ListNotations.
Local Open Scope string_scope.

(** The world with one input replaced. *)
Definition with_clock (w : world) (x : Z) : world := mkWorld (w_before w) (w_globals w) (w_size w) (w_regions w) (w_rspec w) (w_specs w) (w_registry_names w) (w_registry w) (w_getatts w) (w_attribute w) (w_resource_objects w) (w_property_objects w) (w_intrinsic_types w) (w_values w) (w_kinds w) (w_exclusive w) (w_inclusive w) (w_at_least_one w) (w_only_one w) (w_based_on w) (w_runtimes w) (w_services w) (w_classes w) (w_json_max w) (w_instant w) x (w_order w) (w_order_values w) (w_fuel w) (w_str w) (w_show w) (w_show_names w) (w_hash w) (w_sha1 w) (w_float_text w) (w_py_float w) (w_is_int w) (w_is_float w) (w_matches w) (w_default_matches w) (w_description w) (w_json w) (w_loads w) (w_validate w) (w_reformat w) (w_ipv6 w) (w_funcs_text w) (w_find_cycle w).
Definition with_runtimes (w : world) (x : list (string * lifecycle)) : world := mkWorld (w_before w) (w_globals w) (w_size w) (w_regions w) (w_rspec w) (w_specs w) (w_registry_names w) (w_registry w) (w_getatts w) (w_attribute w) (w_resource_objects w) (w_property_objects w) (w_intrinsic_types w) (w_values w) (w_kinds w) (w_exclusive w) (w_inclusive w) (w_at_least_one w) (w_only_one w) (w_based_on w) x (w_services w) (w_classes w) (w_json_max w) (w_instant w) (w_now w) (w_order w) (w_order_values w) (w_fuel w) (w_str w) (w_show w) (w_show_names w) (w_hash w) (w_sha1 w) (w_float_text w) (w_py_float w) (w_is_int w) (w_is_float w) (w_matches w) (w_default_matches w) (w_description w) (w_json w) (w_loads w) (w_validate w) (w_reformat w) (w_ipv6 w) (w_funcs_text w) (w_find_cycle w).
Definition with_regions (w : world) (x : list string) : world := mkWorld (w_before w) (w_globals w) (w_size w) x (w_rspec w) (w_specs w) (w_registry_names w) (w_registry w) (w_getatts w) (w_attribute w) (w_resource_objects w) (w_property_objects w) (w_intrinsic_types w) (w_values w) (w_kinds w) (w_exclusive w) (w_inclusive w) (w_at_least_one w) (w_only_one w) (w_based_on w) (w_runtimes w) (w_services w) (w_classes w) (w_json_max w) (w_instant w) (w_now w) (w_order w) (w_order_values w) (w_fuel w) (w_str w) (w_show w) (w_show_names w) (w_hash w) (w_sha1 w) (w_float_text w) (w_py_float w) (w_is_int w) (w_is_float w) (w_matches w) (w_default_matches w) (w_description w) (w_json w) (w_loads w) (w_validate w) (w_reformat w) (w_ipv6 w) (w_funcs_text w) (w_find_cycle w).
Definition with_sizes (w : world) (x : string -> option Z) : world := mkWorld (w_before w) (w_globals w) x (w_regions w) (w_rspec w) (w_specs w) (w_registry_names w) (w_registry w) (w_getatts w) (w_attribute w) (w_resource_objects w) (w_property_objects w) (w_intrinsic_types w) (w_values w) (w_kinds w) (w_exclusive w) (w_inclusive w) (w_at_least_one w) (w_only_one w) (w_based_on w) (w_runtimes w) (w_services w) (w_classes w) (w_json_max w) (w_instant w) (w_now w) (w_order w) (w_order_values w) (w_fuel w) (w_str w) (w_show w) (w_show_names w) (w_hash w) (w_sha1 w) (w_float_text w) (w_py_float w) (w_is_int w) (w_is_float w) (w_matches w) (w_default_matches w) (w_description w) (w_json w) (w_loads w) (w_validate w) (w_reformat w) (w_ipv6 w) (w_funcs_text w) (w_find_cycle w).
Definition with_schemas (w : world) (x : list val) : world := mkWorld (w_before w) (w_globals w) (w_size w) (w_regions w) (w_rspec w) (w_specs w) (w_registry_names w) x (w_getatts w) (w_attribute w) (w_resource_objects w) (w_property_objects w) (w_intrinsic_types w) (w_values w) (w_kinds w) (w_exclusive w) (w_inclusive w) (w_at_least_one w) (w_only_one w) (w_based_on w) (w_runtimes w) (w_services w) (w_classes w) (w_json_max w) (w_instant w) (w_now w) (w_order w) (w_order_values w) (w_fuel w) (w_str w) (w_show w) (w_show_names w) (w_hash w) (w_sha1 w) (w_float_text w) (w_py_float w) (w_is_int w) (w_is_float w) (w_matches w) (w_default_matches w) (w_description w) (w_json w) (w_loads w) (w_validate w) (w_reformat w) (w_ipv6 w) (w_funcs_text w) (w_find_cycle w).
Definition with_private_types (w : world) (x : list string) : world := mkWorld (w_before w) (w_globals w) (w_size w) (w_regions w) (w_rspec w) (w_specs w) x (w_registry w) (w_getatts w) (w_attribute w) (w_resource_objects w) (w_property_objects w) (w_intrinsic_types w) (w_values w) (w_kinds w) (w_exclusive w) (w_inclusive w) (w_at_least_one w) (w_only_one w) (w_based_on w) (w_runtimes w) (w_services w) (w_classes w) (w_json_max w) (w_instant w) (w_now w) (w_order w) (w_order_values w) (w_fuel w) (w_str w) (w_show w) (w_show_names w) (w_hash w) (w_sha1 w) (w_float_text w) (w_py_float w) (w_is_int w) (w_is_float w) (w_matches w) (w_default_matches w) (w_description w) (w_json w) (w_loads w) (w_validate w) (w_reformat w) (w_ipv6 w) (w_funcs_text w) (w_find_cycle w).
Definition with_types (w : world) (x : list (string * list (string * list (string * bool)))) : world := mkWorld (w_before w) (w_globals w) (w_size w) (w_regions w) (w_rspec w) x (w_registry_names w) (w_registry w) (w_getatts w) (w_attribute w) (w_resource_objects w) (w_property_objects w) (w_intrinsic_types w) (w_values w) (w_kinds w) (w_exclusive w) (w_inclusive w) (w_at_least_one w) (w_only_one w) (w_based_on w) (w_runtimes w) (w_services w) (w_classes w) (w_json_max w) (w_instant w) (w_now w) (w_order w) (w_order_values w) (w_fuel w) (w_str w) (w_show w) (w_show_names w) (w_hash w) (w_sha1 w) (w_float_text w) (w_py_float w) (w_is_int w) (w_is_float w) (w_matches w) (w_default_matches w) (w_description w) (w_json w) (w_loads w) (w_validate w) (w_reformat w) (w_ipv6 w) (w_funcs_text w) (w_find_cycle w).
Definition with_services (w : world) (x : list (string * list string)) : world := mkWorld (w_before w) (w_globals w) (w_size w) (w_regions w) (w_rspec w) (w_specs w) (w_registry_names w) (w_registry w) (w_getatts w) (w_attribute w) (w_resource_objects w) (w_property_objects w) (w_intrinsic_types w) (w_values w) (w_kinds w) (w_exclusive w) (w_inclusive w) (w_at_least_one w) (w_only_one w) (w_based_on w) (w_runtimes w) x (w_classes w) (w_json_max w) (w_instant w) (w_now w) (w_order w) (w_order_values w) (w_fuel w) (w_str w) (w_show w) (w_show_names w) (w_hash w) (w_sha1 w) (w_float_text w) (w_py_float w) (w_is_int w) (w_is_float w) (w_matches w) (w_default_matches w) (w_description w) (w_json w) (w_loads w) (w_validate w) (w_reformat w) (w_ipv6 w) (w_funcs_text w) (w_find_cycle w).
Definition with_classes (w : world) (x : class_table) : world := mkWorld (w_before w) (w_globals w) (w_size w) (w_regions w) (w_rspec w) (w_specs w) (w_registry_names w) (w_registry w) (w_getatts w) (w_attribute w) (w_resource_objects w) (w_property_objects w) (w_intrinsic_types w) (w_values w) (w_kinds w) (w_exclusive w) (w_inclusive w) (w_at_least_one w) (w_only_one w) (w_based_on w) (w_runtimes w) (w_services w) x (w_json_max w) (w_instant w) (w_now w) (w_order w) (w_order_values w) (w_fuel w) (w_str w) (w_show w) (w_show_names w) (w_hash w) (w_sha1 w) (w_float_text w) (w_py_float w) (w_is_int w) (w_is_float w) (w_matches w) (w_default_matches w) (w_description w) (w_json w) (w_loads w) (w_validate w) (w_reformat w) (w_ipv6 w) (w_funcs_text w) (w_find_cycle w).
Definition with_maxima (w : world) (x : string -> option Z) : world := mkWorld (w_before w) (w_globals w) (w_size w) (w_regions w) (w_rspec w) (w_specs w) (w_registry_names w) (w_registry w) (w_getatts w) (w_attribute w) (w_resource_objects w) (w_property_objects w) (w_intrinsic_types w) (w_values w) (w_kinds w) (w_exclusive w) (w_inclusive w) (w_at_least_one w) (w_only_one w) (w_based_on w) (w_runtimes w) (w_services w) (w_classes w) x (w_instant w) (w_now w) (w_order w) (w_order_values w) (w_fuel w) (w_str w) (w_show w) (w_show_names w) (w_hash w) (w_sha1 w) (w_float_text w) (w_py_float w) (w_is_int w) (w_is_float w) (w_matches w) (w_default_matches w) (w_description w) (w_json w) (w_loads w) (w_validate w) (w_reformat w) (w_ipv6 w) (w_funcs_text w) (w_find_cycle w).
Definition with_attributes (w : world) (x : list (string * option (list (string * attspec)))) : world := mkWorld (w_before w) (w_globals w) (w_size w) (w_regions w) (w_rspec w) (w_specs w) (w_registry_names w) (w_registry w) x (w_attribute w) (w_resource_objects w) (w_property_objects w) (w_intrinsic_types w) (w_values w) (w_kinds w) (w_exclusive w) (w_inclusive w) (w_at_least_one w) (w_only_one w) (w_based_on w) (w_runtimes w) (w_services w) (w_classes w) (w_json_max w) (w_instant w) (w_now w) (w_order w) (w_order_values w) (w_fuel w) (w_str w) (w_show w) (w_show_names w) (w_hash w) (w_sha1 w) (w_float_text w) (w_py_float w) (w_is_int w) (w_is_float w) (w_matches w) (w_default_matches w) (w_description w) (w_json w) (w_loads w) (w_validate w) (w_reformat w) (w_ipv6 w) (w_funcs_text w) (w_find_cycle w).
Definition with_attribute_types (w : world) (x : string -> string -> option string) : world := mkWorld (w_before w) (w_globals w) (w_size w) (w_regions w) (w_rspec w) (w_specs w) (w_registry_names w) (w_registry w) (w_getatts w) x (w_resource_objects w) (w_property_objects w) (w_intrinsic_types w) (w_values w) (w_kinds w) (w_exclusive w) (w_inclusive w) (w_at_least_one w) (w_only_one w) (w_based_on w) (w_runtimes w) (w_services w) (w_classes w) (w_json_max w) (w_instant w) (w_now w) (w_order w) (w_order_values w) (w_fuel w) (w_str w) (w_show w) (w_show_names w) (w_hash w) (w_sha1 w) (w_float_text w) (w_py_float w) (w_is_int w) (w_is_float w) (w_matches w) (w_default_matches w) (w_description w) (w_json w) (w_loads w) (w_validate w) (w_reformat w) (w_ipv6 w) (w_funcs_text w) (w_find_cycle w).
Definition with_objects (w : world) (x : list (string * ospec)) : world := mkWorld (w_before w) (w_globals w) (w_size w) (w_regions w) (w_rspec w) (w_specs w) (w_registry_names w) (w_registry w) (w_getatts w) (w_attribute w) x (w_property_objects w) (w_intrinsic_types w) (w_values w) (w_kinds w) (w_exclusive w) (w_inclusive w) (w_at_least_one w) (w_only_one w) (w_based_on w) (w_runtimes w) (w_services w) (w_classes w) (w_json_max w) (w_instant w) (w_now w) (w_order w) (w_order_values w) (w_fuel w) (w_str w) (w_show w) (w_show_names w) (w_hash w) (w_sha1 w) (w_float_text w) (w_py_float w) (w_is_int w) (w_is_float w) (w_matches w) (w_default_matches w) (w_description w) (w_json w) (w_loads w) (w_validate w) (w_reformat w) (w_ipv6 w) (w_funcs_text w) (w_find_cycle w).
Definition with_subobjects (w : world) (x : list (string * ospec)) : world := mkWorld (w_before w) (w_globals w) (w_size w) (w_regions w) (w_rspec w) (w_specs w) (w_registry_names w) (w_registry w) (w_getatts w) (w_attribute w) (w_resource_objects w) x (w_intrinsic_types w) (w_values w) (w_kinds w) (w_exclusive w) (w_inclusive w) (w_at_least_one w) (w_only_one w) (w_based_on w) (w_runtimes w) (w_services w) (w_classes w) (w_json_max w) (w_instant w) (w_now w) (w_order w) (w_order_values w) (w_fuel w) (w_str w) (w_show w) (w_show_names w) (w_hash w) (w_sha1 w) (w_float_text w) (w_py_float w) (w_is_int w) (w_is_float w) (w_matches w) (w_default_matches w) (w_description w) (w_json w) (w_loads w) (w_validate w) (w_reformat w) (w_ipv6 w) (w_funcs_text w) (w_find_cycle w).
Definition with_exclusive (w : world) (x : list (string * list (string * list string)) * list (string * list (string * list string))) : world := mkWorld (w_before w) (w_globals w) (w_size w) (w_regions w) (w_rspec w) (w_specs w) (w_registry_names w) (w_registry w) (w_getatts w) (w_attribute w) (w_resource_objects w) (w_property_objects w) (w_intrinsic_types w) (w_values w) (w_kinds w) x (w_inclusive w) (w_at_least_one w) (w_only_one w) (w_based_on w) (w_runtimes w) (w_services w) (w_classes w) (w_json_max w) (w_instant w) (w_now w) (w_order w) (w_order_values w) (w_fuel w) (w_str w) (w_show w) (w_show_names w) (w_hash w) (w_sha1 w) (w_float_text w) (w_py_float w) (w_is_int w) (w_is_float w) (w_matches w) (w_default_matches w) (w_description w) (w_json w) (w_loads w) (w_validate w) (w_reformat w) (w_ipv6 w) (w_funcs_text w) (w_find_cycle w).
Definition with_inclusive (w : world) (x : list (string * list (string * list string)) * list (string * list (string * list string))) : world := mkWorld (w_before w) (w_globals w) (w_size w) (w_regions w) (w_rspec w) (w_specs w) (w_registry_names w) (w_registry w) (w_getatts w) (w_attribute w) (w_resource_objects w) (w_property_objects w) (w_intrinsic_types w) (w_values w) (w_kinds w) (w_exclusive w) x (w_at_least_one w) (w_only_one w) (w_based_on w) (w_runtimes w) (w_services w) (w_classes w) (w_json_max w) (w_instant w) (w_now w) (w_order w) (w_order_values w) (w_fuel w) (w_str w) (w_show w) (w_show_names w) (w_hash w) (w_sha1 w) (w_float_text w) (w_py_float w) (w_is_int w) (w_is_float w) (w_matches w) (w_default_matches w) (w_description w) (w_json w) (w_loads w) (w_validate w) (w_reformat w) (w_ipv6 w) (w_funcs_text w) (w_find_cycle w).
Definition with_at_least_one (w : world) (x : list (string * list (list string)) * list (string * list (list string))) : world := mkWorld (w_before w) (w_globals w) (w_size w) (w_regions w) (w_rspec w) (w_specs w) (w_registry_names w) (w_registry w) (w_getatts w) (w_attribute w) (w_resource_objects w) (w_property_objects w) (w_intrinsic_types w) (w_values w) (w_kinds w) (w_exclusive w) (w_inclusive w) x (w_only_one w) (w_based_on w) (w_runtimes w) (w_services w) (w_classes w) (w_json_max w) (w_instant w) (w_now w) (w_order w) (w_order_values w) (w_fuel w) (w_str w) (w_show w) (w_show_names w) (w_hash w) (w_sha1 w) (w_float_text w) (w_py_float w) (w_is_int w) (w_is_float w) (w_matches w) (w_default_matches w) (w_description w) (w_json w) (w_loads w) (w_validate w) (w_reformat w) (w_ipv6 w) (w_funcs_text w) (w_find_cycle w).
Definition with_only_one (w : world) (x : list (string * list (list string)) * list (string * list (list string))) : world := mkWorld (w_before w) (w_globals w) (w_size w) (w_regions w) (w_rspec w) (w_specs w) (w_registry_names w) (w_registry w) (w_getatts w) (w_attribute w) (w_resource_objects w) (w_property_objects w) (w_intrinsic_types w) (w_values w) (w_kinds w) (w_exclusive w) (w_inclusive w) (w_at_least_one w) x (w_based_on w) (w_runtimes w) (w_services w) (w_classes w) (w_json_max w) (w_instant w) (w_now w) (w_order w) (w_order_values w) (w_fuel w) (w_str w) (w_show w) (w_show_names w) (w_hash w) (w_sha1 w) (w_float_text w) (w_py_float w) (w_is_int w) (w_is_float w) (w_matches w) (w_default_matches w) (w_description w) (w_json w) (w_loads w) (w_validate w) (w_reformat w) (w_ipv6 w) (w_funcs_text w) (w_find_cycle w).
Definition with_based_on (w : world) (x : list (string * btable) * list (string * btable)) : world := mkWorld (w_before w) (w_globals w) (w_size w) (w_regions w) (w_rspec w) (w_specs w) (w_registry_names w) (w_registry w) (w_getatts w) (w_attribute w) (w_resource_objects w) (w_property_objects w) (w_intrinsic_types w) (w_values w) (w_kinds w) (w_exclusive w) (w_inclusive w) (w_at_least_one w) (w_only_one w) x (w_runtimes w) (w_services w) (w_classes w) (w_json_max w) (w_instant w) (w_now w) (w_order w) (w_order_values w) (w_fuel w) (w_str w) (w_show w) (w_show_names w) (w_hash w) (w_sha1 w) (w_float_text w) (w_py_float w) (w_is_int w) (w_is_float w) (w_matches w) (w_default_matches w) (w_description w) (w_json w) (w_loads w) (w_validate w) (w_reformat w) (w_ipv6 w) (w_funcs_text w) (w_find_cycle w).
Definition with_kinds (w : world) (x : list (string * list string)) : world := mkWorld (w_before w) (w_globals w) (w_size w) (w_regions w) (w_rspec w) (w_specs w) (w_registry_names w) (w_registry w) (w_getatts w) (w_attribute w) (w_resource_objects w) (w_property_objects w) (w_intrinsic_types w) (w_values w) x (w_exclusive w) (w_inclusive w) (w_at_least_one w) (w_only_one w) (w_based_on w) (w_runtimes w) (w_services w) (w_classes w) (w_json_max w) (w_instant w) (w_now w) (w_order w) (w_order_values w) (w_fuel w) (w_str w) (w_show w) (w_show_names w) (w_hash w) (w_sha1 w) (w_float_text w) (w_py_float w) (w_is_int w) (w_is_float w) (w_matches w) (w_default_matches w) (w_description w) (w_json w) (w_loads w) (w_validate w) (w_reformat w) (w_ipv6 w) (w_funcs_text w) (w_find_cycle w).
Definition with_values (w : world) (x : list (string * vrule)) : world := mkWorld (w_before w) (w_globals w) (w_size w) (w_regions w) (w_rspec w) (w_specs w) (w_registry_names w) (w_registry w) (w_getatts w) (w_attribute w) (w_resource_objects w) (w_property_objects w) (w_intrinsic_types w) x (w_kinds w) (w_exclusive w) (w_inclusive w) (w_at_least_one w) (w_only_one w) (w_based_on w) (w_runtimes w) (w_services w) (w_classes w) (w_json_max w) (w_instant w) (w_now w) (w_order w) (w_order_values w) (w_fuel w) (w_str w) (w_show w) (w_show_names w) (w_hash w) (w_sha1 w) (w_float_text w) (w_py_float w) (w_is_int w) (w_is_float w) (w_matches w) (w_default_matches w) (w_description w) (w_json w) (w_loads w) (w_validate w) (w_reformat w) (w_ipv6 w) (w_funcs_text w) (w_find_cycle w).
Definition with_cycles (w : world) (x : list edge -> string -> option (list edge)) : world := mkWorld (w_before w) (w_globals w) (w_size w) (w_regions w) (w_rspec w) (w_specs w) (w_registry_names w) (w_registry w) (w_getatts w) (w_attribute w) (w_resource_objects w) (w_property_objects w) (w_intrinsic_types w) (w_values w) (w_kinds w) (w_exclusive w) (w_inclusive w) (w_at_least_one w) (w_only_one w) (w_based_on w) (w_runtimes w) (w_services w) (w_classes w) (w_json_max w) (w_instant w) (w_now w) (w_order w) (w_order_values w) (w_fuel w) (w_str w) (w_show w) (w_show_names w) (w_hash w) (w_sha1 w) (w_float_text w) (w_py_float w) (w_is_int w) (w_is_float w) (w_matches w) (w_default_matches w) (w_description w) (w_json w) (w_loads w) (w_validate w) (w_reformat w) (w_ipv6 w) (w_funcs_text w) x.

(** The rules that read an input: [input ids w w'] says that the worlds differ in one input only, which the rules [ids] read. *)
Inductive input : list string -> world -> world -> Prop :=
| i_clock : forall w x, input ["E2531"; "W2531"] w (with_clock w x) (* the moment of the run *)
| i_runtimes : forall w x, input ["E2531"; "W2531"] w (with_runtimes w x) (* the table of runtimes *)
| i_regions : forall w x, input ["E1015"; "E3001"; "E3025"] w (with_regions w x) (* the regions of the run (the specification of the first one is an input of its own) *)
| i_sizes : forall w x, input ["E1002"; "I1002"] w (with_sizes w x) (* the sizes of files *)
| i_schemas : forall w x, input ["E3000"] w (with_schemas w x) (* the registry schemas *)
| i_private_types : forall w x, input ["E3001"] w (with_private_types w x) (* the names of the types of registry schemas *)
| i_types : forall w x, input ["E3001"] w (with_types w x) (* the types each region has *)
| i_services : forall w x, input ["W3037"] w (with_services w x) (* the actions of services *)
| i_classes : forall w x, input ["E3025"] w (with_classes w x) (* the classes of database instances *)
| i_maxima : forall w x, input ["E3502"] w (with_maxima w x) (* the maximal sizes of JSON documents *)
| i_attributes : forall w x, input ["E1010"; "E1019"; "E1022"] w (with_attributes w x) (* the attributes of resource types *)
| i_attribute_types : forall w x, input ["E6003"] w (with_attribute_types w x) (* the types of attributes *)
| i_objects : forall w x, input ["E3002"] w (with_objects w x) (* the properties of resource types, as E3002 reads them *)
| i_subobjects : forall w x, input ["E3002"] w (with_subobjects w x) (* those of nested types *)
| i_exclusive : forall w x, input ["E2520"] w (with_exclusive w x) (* the tables of the rules on groups of properties *)
| i_inclusive : forall w x, input ["E2521"] w (with_inclusive w x)
| i_at_least_one : forall w x, input ["E2522"] w (with_at_least_one w x)
| i_only_one : forall w x, input ["E2523"] w (with_only_one w x)
| i_based_on : forall w x, input ["E3017"; "E3018"] w (with_based_on w x)
| i_kinds : forall w x, input ["E3008"] w (with_kinds w x) (* the kinds of values parameters may have *)
| i_values : forall w x, input ["W2031"; "W2030"; "E3031"; "E3030"; "E3008"] w (with_values w x) (* the allowed values and patterns *)
| i_cycles : forall w x, input ["E3004"] w (with_cycles w x). (* the search for cycles *)

(** The finding is by one of the rules, or says that one of them failed. *)
Definition concerns (ids : list string) (fi : finding) : Prop :=
  In (f_rule fi) ids \/ exists id e, In id ids /\ f_rule fi = "E0002" /\ f_msg fi = ("Unknown exception while processing rule " ++ id ++ ": " ++ e)%string.
(** All other findings of the first report are in the second. *)
Definition else_in (ids : list string) (l l' : list finding) : Prop := forall fi, In fi l -> ~ concerns ids fi -> exists u, In u l' /\ same_finding fi u.
