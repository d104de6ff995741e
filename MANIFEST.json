{
 "claims": [
  {
   "property": "C01",
   "status": "proved",
   "theorems": [
    "rule_selected_iff",
    "configured_rules_are_the_selected_ones",
    "loaded_rules_are_the_selected_ones",
    "configuring_keeps_all_rules",
    "loading_keeps_all_rules",
    "mandatory_rules_always_run"
   ],
   "note": ""
  },
  {
   "property": "C02",
   "status": "proved",
   "theorems": [
    "exit_code_bit_per_severity",
    "exit_code_zero_iff_clean",
    "exit_code_depends_on_the_set"
   ],
   "note": ""
  },
  {
   "property": "C03",
   "status": "proved",
   "theorems": [
    "report_is_the_deduplicated_unsuppressed_findings"
   ],
   "note": ""
  },
  {
   "property": "C04",
   "status": "partial",
   "theorems": [
    "suppressions_come_from_resources",
    "unnamed_or_mandatory_never_suppressed",
    "suppression_confined_to_resource_refuted",
    "suppression_confined_to_resource_partial",
    "named_inside_is_suppressed"
   ],
   "note": "Confinement to the resource is refuted for resources sharing one line and proved for resources spanning several lines."
  },
  {
   "property": "C05",
   "status": "proved",
   "theorems": [
    "report_is_ordered",
    "report_has_the_same_findings",
    "report_concatenates_files"
   ],
   "note": "Findings are ordered within each template; reports of several files are concatenated in file order."
  },
  {
   "property": "C06",
   "status": "partial",
   "theorems": [
    "other_rules_still_reported_partial",
    "template_check_reported",
    "resource_check_reported",
    "other_rules_still_reported_refuted",
    "failure_is_reported_refuted"
   ],
   "note": "Proved with the E0002 check enabled; refuted when E0002 is switched off."
  },
  {
   "property": "C07",
   "status": "partial",
   "theorems": [
    "same_as_separately_partial",
    "rule_configuration_leaks_refuted",
    "ignore_bad_template_leaks_refuted"
   ],
   "note": "Refuted for templates that configure rules or ignore bad templates in their Metadata (settings leak into the next file); proved for all other file sequences."
  },
  {
   "property": "C08",
   "status": "partial",
   "theorems": [
    "option_value_precedence_partial",
    "option_value_precedence_refuted",
    "metadata_value_taken",
    "metadata_value_ignored",
    "metadata_include_experimental_refuted",
    "regions_value",
    "include_checks_value"
   ],
   "note": "Proved with 'given' read as non-empty; refuted for explicitly given empty values and for include_experimental in Metadata."
  },
  {
   "property": "C09",
   "status": "proved",
   "theorems": [
    "project_value_wins",
    "user_value_survives",
    "merged_value_comes_from_one"
   ],
   "note": ""
  },
  {
   "property": "C10",
   "status": "partial",
   "theorems": [
    "settings_recorded_partial",
    "settings_recorded_refuted"
   ],
   "note": "Proved for names and values without separators; refuted for values containing '=' or ':'."
  },
  {
   "property": "C11",
   "status": "partial",
   "theorems": [
    "json_documents_decode",
    "every_value_has_a_text",
    "decoded_texts_exactly",
    "texts_have_one_value",
    "decoding_does_not_run_out",
    "positions_are_lines_and_columns",
    "only_json_decodes_refuted",
    "deep_documents_refuted",
    "malformed_text_is_decode_error_refuted"
   ],
   "note": "Exact characterisation of what decodes and to what; RFC 8259 documents decode to their value; refutations: NaN and Infinity are accepted, documents nested beyond the recursion limit raise, a member without value raises TypeError."
  },
  {
   "property": "C12",
   "status": "partial",
   "theorems": [
    "json_faults_are_rejected",
    "yaml_accepts_exactly_partial",
    "yaml_rejects_exactly_partial",
    "json_error_position_refuted",
    "repeated_keys_in_short_forms_refuted",
    "null_in_getatt_list_refuted",
    "repeated_number_keys_refuted",
    "function_keys_refuted"
   ],
   "note": "JSON in full. YAML on composed nodes with text keys, without merge keys, aliases, short forms of mappings and !GetAtt lists. Refuted: position of the JSON error, repeated keys in tagged mappings, nulls in !GetAtt lists, repeated non-text keys and function keys raise TypeError."
  },
  {
   "property": "C13",
   "status": "proved",
   "theorems": [
    "search_finds_exactly",
    "search_finds_once"
   ],
   "note": ""
  },
  {
   "property": "C14",
   "status": "partial",
   "theorems": [
    "finding_at_nearest_element_partial",
    "index_out_of_range_refuted"
   ],
   "note": "Proved for paths whose indices are in range; an index beyond the end of a list raises (refuted)."
  },
  {
   "property": "C15",
   "status": "proved",
   "theorems": [
    "condition_value",
    "conditions_are_loaded",
    "truth_is_unique",
    "boolean_literal_refuted",
    "two_calls_refuted",
    "two_literals_refuted"
   ],
   "note": "Proved for the operands the property names (call against text or integer literal). Beyond it: boolean literals, call-against-call and literal-against-literal comparisons are refuted."
  },
  {
   "property": "C16",
   "status": "partial",
   "theorems": [
    "every_deployment_covered_partial",
    "five_unrelated_refuted"
   ],
   "note": "Proved for at most four conditions or conditions sharing a function call; refuted for five unrelated conditions."
  },
  {
   "property": "C17",
   "status": "partial",
   "theorems": [
    "scenarios_possible_partial",
    "constant_condition_refuted"
   ],
   "note": "Proved when two conditions share a function call, or when each condition can take its value; refuted for a constant condition."
  },
  {
   "property": "C18",
   "status": "proved",
   "theorems": [
    "object_resolved",
    "conditional_object_resolved",
    "resolution_exists",
    "resolution_is_unique",
    "deployed_object_is_checked",
    "checked_objects_are_resolved"
   ],
   "note": "Covers get_value_from_scenario and get_object_without_conditions; the deployment theorem inherits C16's bound on unrelated conditions."
  },
  {
   "property": "C19",
   "status": "partial",
   "theorems": [
    "items_safe_exact",
    "items_safe_once",
    "list_items_safe_exact",
    "get_safe_exact",
    "condition_values_exact",
    "get_values_exact_partial",
    "get_values_null_refuted"
   ],
   "note": "items_safe, get_safe and get_condition_values proved in full; get_values proved except for null branches, on which it raises (refuted)."
  },
  {
   "property": "C20",
   "status": "proved",
   "theorems": [
    "reported_pairs_are_on_cycles",
    "cycles_are_reported",
    "circular_check_runs",
    "no_cycle_no_report",
    "the_contract_can_be_met"
   ],
   "note": "For templates that use Fn::GetAtt and Fn::Sub in their documented forms; networkx.find_cycle enters through its contract, which is shown to be satisfiable."
  },
  {
   "property": "C21",
   "status": "partial",
   "theorems": [
    "defined_refs_are_not_reported",
    "undefined_refs_are_reported_partial",
    "ref_check_runs",
    "undefined_refs_are_reported_refuted"
   ],
   "note": "Refs to defined names are never reported; undefined names are reported unless they begin with a defined name (refuted)."
  },
  {
   "property": "C22",
   "status": "partial",
   "theorems": [
    "undefined_conditions_are_reported_partial",
    "undefined_conditions_untyped_refuted",
    "undefined_conditions_empty_if_refuted",
    "output_condition_place_refuted",
    "output_condition_list_refuted"
   ],
   "note": "Proved for typed resources, outputs with text conditions and templates without an empty Fn::If; refuted otherwise, and for the place of undefined conditions of outputs."
  },
  {
   "property": "C23",
   "status": "partial",
   "theorems": [
    "limits_are_reported_exactly_partial",
    "never_both",
    "limits_are_reported_exactly_refuted"
   ],
   "note": "Proved for every template of the documented shape; rules may raise on other shapes (refuted)."
  },
  {
   "property": "C24",
   "status": "partial",
   "theorems": [
    "bad_names_are_reported_partial",
    "absent_sections_are_not_reported",
    "bad_mapping_keys_are_reported_partial",
    "bad_names_are_reported_refuted"
   ],
   "note": "Proved for every name that does not end in a line feed; refuted for a trailing line feed."
  },
  {
   "property": "C25",
   "status": "partial",
   "theorems": [
    "bad_defaults_are_reported_partial",
    "zero_minimum_is_enforced_refuted",
    "text_numbers_are_compared_refuted",
    "list_defaults_are_accepted_refuted"
   ],
   "note": "Proved for text and integer defaults with integer bounds; refuted for MinValue 0, numbers given as texts and list defaults."
  },
  {
   "property": "C26",
   "status": "partial",
   "theorems": [
    "unused_parameters_are_reported_partial",
    "only_placeholders_are_uses",
    "unused_parameters_are_reported_refuted",
    "variables_are_no_parameters_refuted"
   ],
   "note": "Proved for alphanumeric names and documented Fn::Sub forms with closed placeholders; refuted for an empty Fn::Sub."
  },
  {
   "property": "C27",
   "status": "partial",
   "theorems": [
    "missing_properties_reported",
    "missing_nested_properties_reported",
    "missing_custom_properties_reported",
    "missing_properties_reported_once",
    "scalar_branch_refuted",
    "missing_property_is_in_the_findings",
    "missing_nested_property_is_in_the_findings"
   ],
   "note": "Exact for values whose branches can be asked for members; refuted when a branch is a scalar (the check fails)."
  },
  {
   "property": "C28",
   "status": "partial",
   "theorems": [
    "only_one_reported",
    "only_one_found_partial",
    "only_one_real_partial",
    "at_least_one_reported",
    "at_least_one_found_partial",
    "at_least_one_real_partial",
    "exclusive_reported",
    "exclusive_found_partial",
    "exclusive_real_partial",
    "inclusive_reported",
    "inclusive_found_partial",
    "inclusive_real_partial",
    "exclusive_is_in_the_findings",
    "exclusive_nested_is_in_the_findings",
    "inclusive_is_in_the_findings",
    "inclusive_nested_is_in_the_findings",
    "at_least_one_is_in_the_findings",
    "at_least_one_nested_is_in_the_findings",
    "only_one_is_in_the_findings",
    "only_one_nested_is_in_the_findings",
    "emptied_object_refuted"
   ],
   "note": "Exact without conditions; with conditions sound and complete for at most four conditions or related ones and objects that are not an Fn::If themselves; refuted for objects of which nothing is left."
  },
  {
   "property": "C29",
   "status": "partial",
   "theorems": [
    "list_sizes_reported",
    "conditional_list_sizes_found_partial",
    "conditional_list_sizes_are_real",
    "text_sizes_reported_partial",
    "number_sizes_reported_partial",
    "text_size_findings",
    "number_size_findings",
    "nested_text_size_findings",
    "nested_number_size_findings",
    "zero_bound_refuted",
    "conditional_properties_refuted"
   ],
   "note": "Lists: exact without conditions; sound and complete with at most four conditions or related ones. Texts and numbers: exact unless the properties are a condition, and for texts unless a bound is 0; both exceptions are refuted."
  },
  {
   "property": "C30",
   "status": "partial",
   "theorems": [
    "repeated_items_reported",
    "scalars_have_no_duplicates",
    "objects_have_no_duplicates",
    "conditional_duplicates_found_partial",
    "conditional_duplicates_are_real",
    "duplicates_rule_looks_at_each_property",
    "duplicates_forbidden_iff",
    "duplicates_discouraged_iff_",
    "conditional_items_refuted"
   ],
   "note": "Exact for lists, given a digest that tells the items apart; choices between lists sound and complete; refuted for conditions on items."
  },
  {
   "property": "C31",
   "status": "partial",
   "theorems": [
    "condition_lists_are_checked",
    "equals_is_checked_partial",
    "if_is_checked_partial",
    "conditions_section_is_checked",
    "if_is_checked_refuted",
    "equals_is_checked_refuted",
    "equals_runs_refuted"
   ],
   "note": "Fn::And/Or/Not and the Conditions section in full; Fn::Equals for Refs with unambiguous targets and Fn::If other than the empty list, refuted otherwise."
  },
  {
   "property": "C32",
   "status": "partial",
   "theorems": [
    "base64_arguments_judged",
    "not_arguments_judged",
    "ref_arguments_judged",
    "getazs_arguments_judged_partial",
    "import_arguments_judged",
    "split_arguments_judged",
    "select_arguments_judged",
    "select_rule_fails_iff",
    "map_arguments_judged",
    "map_rule_fails_iff",
    "cidr_arguments_judged",
    "join_arguments_judged",
    "empty_joins_reported",
    "two_cidr_arguments_refuted",
    "cidr_arguments_refuted",
    "getazs_arguments_refuted",
    "select_index_refuted",
    "short_map_arguments_refuted",
    "map_text_refuted"
   ],
   "note": "Exact characterisation for each function, with the arguments the rules fail on characterised for Fn::Select and Fn::FindInMap; refuted for Fn::Cidr with two arguments, arguments that are objects without a call, lists given to Fn::GetAZs, list indices of Fn::Select and short Fn::FindInMap."
  },
  {
   "property": "C33",
   "status": "partial",
   "theorems": [
    "missing_resource_found_partial",
    "found_cases_are_real_partial",
    "unconditional_resource",
    "same_condition",
    "never_available_refuted",
    "impossible_place_refuted",
    "ref_is_reported",
    "getatt_is_reported",
    "reports_are_found"
   ],
   "note": "Refuted for places in the branch for the resource's condition being false (not found) and for places in branches that exclude each other (found); otherwise proved within the limits of C16 and C17."
  },
  {
   "property": "C34",
   "status": "proved",
   "theorems": [
    "override_selects_types",
    "patterns_select",
    "override_wins",
    "rest_survives",
    "nothing_invented"
   ],
   "note": ""
  },
  {
   "property": "C35",
   "status": "partial",
   "theorems": [
    "parseable_report_has_one_line_per_finding",
    "parseable_line_shows_the_finding",
    "parseable_message_is_one_line",
    "parseable_report_is_lossless_partial",
    "standard_report_is_lossless_partial",
    "json_report_is_lossless",
    "junit_report_has_every_finding_partial",
    "pretty_report_has_every_finding",
    "pretty_summary_counts_findings",
    "pretty_line_is_lossless",
    "file_name_with_colon_refuted",
    "standard_report_is_ambiguous_refuted",
    "carriage_return_is_kept_refuted",
    "transform_error_is_not_in_junit_refuted",
    "junit_report_is_lost_refuted"
   ],
   "note": "Parseable, standard, JSON and pretty reports proved lossless for names without separators; refuted for colons in file names, line feeds in standard reports, and findings missing from JUnit reports."
  },
  {
   "property": "C36",
   "status": "proved",
   "theorems": [
    "boolean_compares_by_equality",
    "text_compares_by_spelling",
    "other_values_compare_to_neither"
   ],
   "note": ""
  },
  {
   "property": "C37",
   "status": "partial",
   "theorems": [
    "policies_are_checked_partial",
    "policies_are_checked_refuted"
   ],
   "note": "Proved for non-empty policies; an empty policy goes unreported (refuted)."
  },
  {
   "property": "C38",
   "status": "partial",
   "theorems": [
    "depends_on_is_checked_partial",
    "conditional_depends_on_is_checked_partial",
    "obsolete_depends_on_is_checked_partial",
    "depends_on_is_checked_refuted",
    "obsolete_text_form_refuted",
    "obsolete_first_letter_refuted",
    "obsolete_check_crash_refuted"
   ],
   "note": "Proved for non-empty entries and list-form Fn::GetAtt; refuted for empty entries, text-form and empty Fn::GetAtt."
  },
  {
   "property": "C39",
   "status": "partial",
   "theorems": [
    "template_faults_are_reported",
    "description_faults_are_reported_partial",
    "parameter_faults_are_reported",
    "parameter_types_are_checked",
    "references_in_parameters_are_reported",
    "output_faults_are_reported_partial",
    "outputs_without_value_are_reported",
    "output_descriptions_are_checked_partial",
    "mapping_faults_are_reported",
    "resource_faults_are_reported",
    "output_faults_are_reported_refuted",
    "odd_outputs_are_reported_refuted",
    "text_outputs_are_reported_refuted"
   ],
   "note": "Templates, parameters, mappings and resources in full; outputs except empty or non-object ones, which go unreported or raise (refuted)."
  },
  {
   "property": "C40",
   "status": "partial",
   "theorems": [
    "only_code_locations_change_partial",
    "replacing_twice_is_replacing_once",
    "documented_templates_do_not_fail",
    "transform_errors_are_reported",
    "application_location_is_replaced_refuted",
    "api_location_is_left_refuted",
    "function_without_properties_refuted",
    "alias_without_parameters_refuted"
   ],
   "note": "Exact effect, idempotence, totality and error reporting proved; refuted for application locations and for APIs with Auth, Cors or a body."
  },
  {
   "property": "C41",
   "status": "partial",
   "theorems": [
    "every_template_reported_refuted",
    "linting_never_raises_refuted",
    "every_template_reported_partial"
   ],
   "note": "Refuted for templates with non-object Metadata; proved for well-formed Metadata without the serverless transform."
  },
  {
   "property": "C42",
   "status": "proved",
   "theorems": [
    "nested_objects_checked"
   ],
   "note": ""
  },
  {
   "property": "C43",
   "status": "partial",
   "theorems": [
    "unused_conditions_are_reported_partial",
    "unused_conditions_are_reported_refuted"
   ],
   "note": "Proved for templates without an empty Fn::If; refuted with one (IndexError)."
  },
  {
   "property": "C44",
   "status": "partial",
   "theorems": [
    "unused_mappings_are_reported_partial",
    "unused_mappings_are_reported_refuted"
   ],
   "note": "Proved for templates without an empty Fn::FindInMap; refuted with one (IndexError)."
  },
  {
   "property": "C45",
   "status": "proved",
   "theorems": [
    "half_protected_resources_are_reported",
    "stateful_resources_are_reported"
   ],
   "note": ""
  },
  {
   "property": "C46",
   "status": "proved",
   "theorems": [
    "shared_names_are_reported",
    "missing_transform_is_reported"
   ],
   "note": ""
  },
  {
   "property": "C47",
   "status": "partial",
   "theorems": [
    "shown_secrets_are_reported_partial",
    "shown_secrets_are_reported_refuted"
   ],
   "note": "Proved for Ref and text-form Fn::Sub; refuted for list-form Fn::Sub."
  },
  {
   "property": "C48",
   "status": "partial",
   "theorems": [
    "modules_are_checked_partial",
    "modules_are_checked_refuted",
    "module_check_crash_refuted"
   ],
   "note": "Proved when only Type ends in ::MODULE; refuted for other attributes and for the reserved key at the top level."
  },
  {
   "property": "C49",
   "status": "partial",
   "theorems": [
    "list_outputs_are_reported_partial",
    "list_outputs_are_reported_refuted"
   ],
   "note": "Proved with every second list position counted as a use; refuted for the first branch of Fn::If."
  },
  {
   "property": "C50",
   "status": "partial",
   "theorems": [
    "decoded_or_one_finding_partial",
    "yaml_template_is_its_meaning",
    "yaml_faults_are_reported_in_place",
    "json_template_is_its_meaning",
    "json_faults_are_reported",
    "unreadable_files_are_reported",
    "other_read_errors_refuted",
    "empty_file_is_not_reported_refuted",
    "key_is_function_raises_refuted",
    "unreadable_scalar_raises_refuted"
   ],
   "note": "For all file contents on which PyYAML and the scalar constructors raise nothing but YAMLError and whose nodes are ordinary. Refuted: uncaught TypeError and ValueError, the empty file, other errno values."
  },
  {
   "property": "C51",
   "status": "partial",
   "theorems": [
    "linted_files_are_the_named_ones_partial",
    "no_names_no_files",
    "each_file_once_refuted"
   ],
   "note": "Which files, and their order, for all options; that each is linted once is refuted: two names for one file lint it twice. glob is an argument."
  },
  {
   "property": "C52",
   "status": "partial",
   "theorems": [
    "attributes_judged_partial",
    "attributes_refuted"
   ],
   "note": "Exact whenever the rule does not fail; refuted for texts without a dot (exception) and empty resource names (accepted)."
  },
  {
   "property": "C53",
   "status": "partial",
   "theorems": [
    "substitutions_judged_partial",
    "substitutions_refuted"
   ],
   "note": "Exact whenever the rule does not fail, for texts whose placeholders are closed and parameters whose names have no dots; refuted for a first argument that is no text (exception)."
  },
  {
   "property": "C54",
   "status": "proved",
   "theorems": [
    "unused_variables_reported",
    "unneeded_substitutions_reported"
   ],
   "note": "For texts whose placeholders are closed."
  },
  {
   "property": "C55",
   "status": "proved",
   "theorems": [
    "map_keys_judged",
    "map_keys_rule_total"
   ],
   "note": "For mappings that are objects of objects."
  },
  {
   "property": "C56",
   "status": "proved",
   "theorems": [
    "condition_refs_judged"
   ],
   "note": "For templates whose sections are objects of objects."
  },
  {
   "property": "C57",
   "status": "partial",
   "theorems": [
    "allowed_values_judged",
    "transformed_values_refuted"
   ],
   "note": "Exact for properties of which no choice is null; refuted for calls of Fn::Transform, which are reported."
  },
  {
   "property": "C58",
   "status": "proved",
   "theorems": [
    "patterns_judged"
   ],
   "note": "Matching a pattern is an argument of the model; no choice of branches makes a property null."
  },
  {
   "property": "C59",
   "status": "partial",
   "theorems": [
    "primitive_types_judged_partial",
    "conditional_primitives_refuted",
    "true_is_an_integer_refuted"
   ],
   "note": "Exact for properties that are not a condition themselves; refuted for those, and for truth values given as integers."
  },
  {
   "property": "C60",
   "status": "partial",
   "theorems": [
    "secure_references_judged_partial",
    "conditional_references_refuted",
    "empty_sub_refuted"
   ],
   "note": "Exact for properties that are not a condition themselves and no empty Fn::Sub; both exceptions are refuted."
  },
  {
   "property": "C61",
   "status": "partial",
   "theorems": [
    "references_judged_partial",
    "odd_getatt_refuted"
   ],
   "note": "Exact when every Ref has a text and every Fn::GetAtt names a resource and an attribute; refuted for others, on which the rule fails."
  },
  {
   "property": "C62",
   "status": "proved",
   "theorems": [
    "zones_reported",
    "packaged_code_reported"
   ],
   "note": "For properties of which no choice is null."
  },
  {
   "property": "C63",
   "status": "partial",
   "theorems": [
    "passwords_judged",
    "number_passwords_refuted",
    "noecho_text_refuted",
    "conditional_passwords_refuted"
   ],
   "note": "Exact description of what is reported; refuted as a check of passwords for numbers, conditions and NoEcho given as text."
  },
  {
   "property": "C64",
   "status": "partial",
   "theorems": [
    "image_ids_judged_partial",
    "image_place_refuted",
    "image_number_refuted"
   ],
   "note": "Exact for references to known names that do not begin with the name of a module, and to unknown ones; the place of a finding is refuted, and references to numbers raise an exception."
  },
  {
   "property": "C65",
   "status": "partial",
   "theorems": [
    "expected_objects_judged",
    "expected_objects_answered_partial",
    "missing_resource_refuted",
    "branch_texts_refuted",
    "nested_place_refuted",
    "generic_custom_refuted",
    "part_of_ref_refuted",
    "conditional_texts_refuted"
   ],
   "note": "The findings are characterised exactly whenever the rule answers; it answers for templates whose conditions have lists for arguments and whose Fn::GetAtt name resources that are there. Refuted otherwise, with further deviations: ignored branches, wrong places, the generic custom resource, parts of the word Ref."
  },
  {
   "property": "C66",
   "status": "partial",
   "theorems": [
    "needed_properties_reported",
    "needed_properties_found_partial",
    "needed_properties_real_partial",
    "needed_property_findings",
    "nested_needed_property_findings",
    "unwanted_properties_reported",
    "unwanted_properties_found_partial",
    "unwanted_properties_real_partial",
    "unwanted_property_findings",
    "nested_unwanted_property_findings",
    "removed_property_refuted",
    "getatt_of_missing_resource_refuted",
    "getatt_text_refuted",
    "conditional_object_refuted"
   ],
   "note": "Exact for objects without conditions, in whole runs and for nested types; for objects with conditions, found and real under the hypotheses on hashing of C18. Refuted for properties removed with AWS::NoValue, Fn::GetAtt of missing resources or written as text, and objects given whole by a condition."
  },
  {
   "property": "C67",
   "status": "partial",
   "theorems": [
    "unsubstituted_variables_judged",
    "unsubstituted_variables_answered_partial",
    "unsubstituted_variable_findings",
    "definition_place_refuted",
    "globals_place_refuted",
    "conditional_state_machine_refuted"
   ],
   "note": "Exact whenever the rule answers, and in runs for templates without Globals whose state machines have no variables in their definitions. Refuted: places of findings in definitions and in Globals, and a state machine below a condition, which silences the rule."
  },
  {
   "property": "C68",
   "status": "partial",
   "theorems": [
    "interface_keys_judged",
    "interface_parameters_judged",
    "interface_key_findings",
    "interface_parameter_findings",
    "no_interface_no_findings",
    "null_groups_refuted",
    "text_group_refuted",
    "text_group_parameters_refuted"
   ],
   "note": "Exact, and found in runs, for interfaces whose groups are lists of objects with lists of parameters. Refuted outside: null groups and groups given as texts end in exceptions or in findings about letters."
  },
  {
   "property": "C69",
   "status": "partial",
   "theorems": [
    "parameter_values_judged_partial",
    "parameter_patterns_judged_partial",
    "parameter_value_findings",
    "parameter_value_findings_nested",
    "parameter_pattern_findings",
    "memory_parameters_judged",
    "memory_parameter_findings",
    "imported_outputs_reported",
    "empty_default_refuted",
    "named_values_refuted",
    "list_ref_refuted",
    "zero_bound_refuted"
   ],
   "note": "Exact, and found in runs, for templates whose sections and lists of allowed values have their proper shapes and whose Refs are names. Refuted: empty defaults, allowed values given as an object, Refs to lists, bounds of 0."
  },
  {
   "property": "C70",
   "status": "partial",
   "theorems": [
    "update_policies_judged_partial",
    "update_policy_places",
    "update_policy_findings",
    "switch_place_refuted",
    "attribute_place_refuted",
    "wrong_kind_refuted",
    "branch_text_refuted"
   ],
   "note": "Exact, and found in runs, for policies whose choices are objects and that hold no null. Refuted: places of switches and of attributes below conditions, lists and switches accepted as numbers, texts accepted as lists, exceptions for choices that are not objects."
  },
  {
   "property": "C71",
   "status": "partial",
   "theorems": [
    "documents_judged_partial",
    "document_fault_places",
    "document_findings",
    "versions_judged_partial",
    "version_findings",
    "document_key_place_refuted",
    "conditional_policy_refuted",
    "version_given_by_parameter_refuted",
    "statement_choice_refuted",
    "trust_policy_refuted",
    "version_in_text_refuted",
    "null_policies_refuted"
   ],
   "note": "Exact, and found in runs, for documents that cannot be null and whose single statements are objects in every branch. JSON parsing is an argument; dates of YAML are not modelled. Refuted: place of unknown keys, policies below conditions in the list of policies, versions given by parameters, exceptions for choices that are not objects, trust policies and versions in texts, null policies."
  },
  {
   "property": "C72",
   "status": "partial",
   "theorems": [
    "permissions_judged_partial",
    "permission_findings",
    "role_references_judged",
    "role_reference_findings",
    "single_statement_place_refuted",
    "excepted_actions_refuted",
    "action_without_colon_refuted",
    "action_by_reference_refuted",
    "star_at_the_end_refuted",
    "star_in_the_middle_refuted",
    "conditional_statement_refuted",
    "path_of_any_resource_refuted"
   ],
   "note": "W3037 exact, and found in runs, for documents whose actions are texts with a colon; E3050 exact, and found in runs, for references that are names. The list of services is an argument. Refuted: place of single statements, excepted actions, exceptions for actions without a colon or given by references, stars, statements below conditions, paths of resources that are no roles."
  },
  {
   "property": "C73",
   "status": "partial",
   "theorems": [
    "schedules_judged_partial",
    "schedule_findings",
    "targets_counted_partial",
    "target_findings",
    "schedule_number_refuted",
    "schedule_unit_refuted",
    "schedule_rest_refuted",
    "schedule_days_refuted",
    "schedule_spaces_refuted",
    "nested_targets_refuted",
    "item_targets_refuted",
    "called_targets_refuted"
   ],
   "note": "E3027 exact, and found in runs, for schedules that are texts or calls. E3021 exact, with its counts kept across resources, and found in runs, for targets that are lists or one condition between lists. Refuted: exceptions for numbers, units and fields not checked, text after the first parenthesis, neither day, double spaces, nested conditions and conditional items counted together, targets given by calls."
  },
  {
   "property": "C74",
   "status": "partial",
   "theorems": [
    "retired_runtimes_judged_partial",
    "retiring_runtimes_judged_partial",
    "never_both",
    "retired_runtime_findings",
    "retiring_runtime_findings",
    "filters_counted_partial",
    "filter_findings",
    "at_the_instant_refuted",
    "runtime_object_refuted",
    "runtime_call_refuted",
    "excluding_filters_refuted",
    "bare_filter_refuted",
    "reordered_names_refuted"
   ],
   "note": "E2531 and W2531 exact, and found in runs, for runtimes that are texts, Refs or other calls; the table, the instants of dates and the moment of the run are arguments. E2529 exact, and found in runs, for filters with properties whose log groups are texts or calls. Refuted: the instant of the date, runtimes that are objects or given by other calls, conditions of filters, filters without properties, order of members."
  },
  {
   "property": "C75",
   "status": "partial",
   "theorems": [
    "properties_found_partial",
    "devices_judged_partial",
    "device_findings",
    "aliases_judged_partial",
    "alias_findings",
    "containers_judged_partial",
    "container_findings",
    "one_member_refuted",
    "through_member_refuted",
    "conditional_props_refuted",
    "virtual_ref_refuted",
    "conditional_device_refuted",
    "io2_refuted",
    "iops_branch_refuted",
    "alias_braces_refuted",
    "alias_text_refuted",
    "config_null_refuted",
    "config_condition_refuted",
    "essential_text_refuted",
    "essential_condition_refuted",
    "containers_null_refuted"
   ],
   "note": "get_resource_properties exact for values without lists of objects with a single member. E2504, E3013 and E3042 exact, and found in runs, for devices, aliases and containers of the usual shapes; a second formatting of messages is an argument. Refuted: single members, conditions of properties, devices, configurations and containers, exceptions for references, nulls and braces, io2, rates in one branch, aliases that are texts, switches that are texts."
  },
  {
   "property": "C76",
   "status": "partial",
   "theorems": [
    "always_something_left",
    "unconditional_objects",
    "conditional_objects_partial",
    "listeners_judged_partial",
    "listener_findings",
    "balancers_judged",
    "conditional_balancers_judged_partial",
    "balancer_findings",
    "certificate_gone_refuted",
    "conditional_listener_refuted",
    "listener_text_refuted",
    "misplaced_refuted",
    "type_gone_refuted",
    "gateway_refuted",
    "attribute_text_refuted",
    "properties_gone_refuted"
   ],
   "note": "get_object_without_nested_conditions exact for objects and lists at places below no function whose Fn::Ifs have a name and two branches; with conditions, complete and sound up to the possibility of unrelated outcomes, for at most four unrelated conditions. E2503 exact for listeners that are objects and for load balancers, with and without conditions; found in runs. Refuted: certificates and types given AWS::NoValue, listeners in conditions, misplaced attributes, other types, exceptions for texts and for properties that are gone."
  },
  {
   "property": "C77",
   "status": "partial",
   "theorems": [
    "records_judged_partial",
    "conditional_names_counted_partial",
    "record_findings",
    "mx_name_refuted",
    "number_record_refuted",
    "caa_refuted",
    "host_refuted",
    "group_item_refuted",
    "names_gone_refuted",
    "conditional_type_refuted"
   ],
   "note": "Exact for record sets of the usual shapes without conditions on the records of CNAMEs; counting of conditional CNAMEs proved separately. The IPv6 pattern is an argument. MX names, numbers, empty CAA tags and conditional record sets are refuted."
  },
  {
   "property": "C78",
   "status": "partial",
   "theorems": [
    "zone_judged_partial",
    "zone_conditional_partial",
    "zone_findings",
    "validation_judged",
    "validation_conditional_partial",
    "validation_findings",
    "zone_boundary_refuted",
    "root_zone_refuted",
    "empty_name_refuted"
   ],
   "note": "E3041 and E3503 exactly for objects without conditions, both ways for conditional ones (up to four unrelated conditions), and in a run. The dotted boundary, the root zone and empty texts are refuted for E3041."
  },
  {
   "property": "C79",
   "status": "partial",
   "theorems": [
    "routes_judged_partial",
    "route_findings",
    "ingress_judged",
    "ingress_findings",
    "branches_refuted",
    "conditions_refuted",
    "no_subnet_refuted",
    "attribute_text_refuted",
    "removed_vpc_refuted",
    "conditional_rule_refuted",
    "text_rule_refuted"
   ],
   "note": "Exact for both rules on templates of the usual shapes, and in a run. Different conditions that hold together, branches of one Fn::If, missing subnets, attributes as texts, removed VpcIds and conditional rules are refuted."
  },
  {
   "property": "C80",
   "status": "partial",
   "theorems": [
    "machine_judged_partial",
    "machine_findings",
    "dangling_refuted",
    "nested_states_refuted",
    "map_refuted",
    "parallel_refuted",
    "no_object_refuted"
   ],
   "note": "Exact for definitions of the usual shape, and in a run; json.loads is an argument. States that do not exist, states inside of states and Map without Iterator are accepted, Parameters of Parallel are reported, and definitions that are no objects raise (refuted)."
  },
  {
   "property": "C81",
   "status": "partial",
   "theorems": [
    "classes_judged_partial",
    "class_findings",
    "inner_if_refuted",
    "capitals_refuted",
    "no_properties_refuted"
   ],
   "note": "Exact for templates whose database instances have properties that are objects, and in a run. Classes inside of Fn::If and engines in other letters are not looked at and an instance without properties raises (refuted)."
  },
  {
   "property": "C82",
   "status": "partial",
   "theorems": [
    "table_judged_partial",
    "tables_in_deployments_partial",
    "table_findings",
    "index_key_refuted",
    "name_if_refuted",
    "name_ref_refuted"
   ],
   "note": "Exact without conditions and for deployments. Conditional keys of indexes and names that are chosen by Fn::If or are references are treated differently (refuted). How Python prints the sets is an argument."
  },
  {
   "property": "C83",
   "status": "partial",
   "theorems": [
    "clusters_judged_partial",
    "clusters_in_deployments_partial",
    "cluster_findings",
    "impossible_group_refuted",
    "number_ref_refuted",
    "number_text_refuted"
   ],
   "note": "Exact without conditions. With conditions, references in branches that contradict one another are judged although no deployment uses them (refuted), and numbers given by references or as texts raise an exception (refuted)."
  },
  {
   "property": "C84",
   "status": "partial",
   "theorems": [
    "stages_judged_partial",
    "stages_in_deployments_partial",
    "stage_findings_partial",
    "missing_actions_refuted",
    "category_reference_refuted",
    "removed_stage_refuted",
    "missing_type_refuted",
    "shifted_stage_refuted"
   ],
   "note": "Exact for stages that have the expected shape. Stages without the expected members raise an exception or silently end the checks (refuted), AWS::NoValue is kept where there are no conditions (refuted), and places are shifted where stages are left out, which can crash the rule (refuted); so the theorem about runs is for stages without conditions."
  },
  {
   "property": "C85",
   "status": "partial",
   "theorems": [
    "actions_judged_partial",
    "action_findings_partial",
    "exclusive_outputs_refuted",
    "exclusive_inputs_refuted",
    "counted_if_refuted",
    "stages_text_refuted",
    "missing_members_refuted",
    "missing_name_refuted",
    "missing_action_type_refuted",
    "version_line_refuted"
   ],
   "note": "Exact for stages and actions that are objects of the expected shape and no Fn::If. With Fn::If the branches are treated as if all were deployed (refuted both ways), objects without the expected members raise exceptions or lose artifacts (refuted), and a line feed after a version is accepted (refuted and stated in the specification)."
  },
  {
   "property": "C86",
   "status": "partial",
   "theorems": [
    "json_sizes_partial",
    "json_sizes_in_deployments_partial",
    "json_size_findings_partial",
    "between_placeholders_refuted",
    "reference_counted_refuted",
    "text_document_refuted",
    "null_counted_refuted",
    "repeated_size_refuted",
    "empty_sub_refuted"
   ],
   "note": "Exact for properties that are no Fn::If themselves, whose Fn::Sub have a text, and below which conditions are at most four or related, outside of Globals. Counting references by name, quotes of text twice, AWS::NoValue as null, dropping text between placeholders, repeating the report for unrelated conditions and the exception on an empty Fn::Sub list are refuted."
  },
  {
   "property": "C87",
   "status": "partial",
   "theorems": [
    "schemas_applied_partial",
    "schema_findings_partial",
    "schemas_read_again",
    "syntax_found",
    "name_hides_refuted",
    "open_reference_refuted",
    "nameless_schema_refuted",
    "home_folder_refuted"
   ],
   "note": "Exact for properties that are no text and whose dynamic references are closed in the text that opens them, for schemas with names and a validator that does not raise other exceptions; the validator (jsonschema) and the files are arguments. Independence of earlier templates is proved for the rule with the other rules unchanged. Names that contain one of the words, open references, schemas without names and folders written with a tilde are refuted."
  },
  {
   "property": "C88",
   "status": "partial",
   "theorems": [
    "update_contents",
    "update_others",
    "update_ends",
    "update_latest",
    "update_fresh",
    "updates_independent_partial",
    "updates_any_schedule_partial",
    "cut_memory_stops",
    "crash_refuted",
    "truncated_refuted",
    "lost_refuted",
    "cut_memory_refuted",
    "race_refuted"
   ],
   "note": "All is proved at the level of single steps except repair, which is refuted: the tag is saved before the body is read, so that a stop or a broken download leaves an old or cut specification that counts as the latest forever, or a cut memory that stops all updates. Independence of schedules needs the folder for the memory to exist, regions and names of memories to be distinct; without the folder a race is shown. Botocore downloads of one update are one step; the fallback loop and Python 2 are not modelled."
  },
  {
   "property": "C89",
   "status": "partial",
   "theorems": [
    "patches_in_order",
    "patches_any_listing",
    "references_replaced",
    "references_when",
    "references_gone",
    "references_none",
    "specification_made",
    "own_values_refuted",
    "word_refuted",
    "no_enum_refuted"
   ],
   "note": "Proved in full for the two passes; the order of folders is that of os.walk, and jsonpatch is an argument. Objects with a reference and values of their own keep the values written later, which is refuted as a witness; members that have the name of the word and types without enumerations stop the update."
  },
  {
   "property": "C90",
   "status": "partial",
   "theorems": [
    "page_written",
    "page_ends",
    "page_static",
    "page_again_partial",
    "page_order",
    "policies_written",
    "policies_repaired",
    "page_grows_refuted",
    "page_cut_refuted",
    "row_lines_refuted",
    "policies_cut_refuted",
    "policies_twice_refuted"
   ],
   "note": "Proved, with idempotence for pages that have the line that opens the part on rules; without it the page grows, which is refuted. Also refuted: a rule missing from the sources leaves the page cut, descriptions of several lines break rows, a process stopped while writing leaves cut policies, known actions are listed twice. git grep, json and the texts of configuration values are arguments; line ends are taken as translated."
  },
  {
   "property": "C91",
   "status": "partial",
   "theorems": [
    "loading_order",
    "loading_status",
    "same_set",
    "same_set_any_ids",
    "part_of_rules",
    "ignored_rules",
    "same_id_order_refuted",
    "crash_order_refuted",
    "crash_hides_refuted"
   ],
   "note": "Proved, with the order of findings on crashed rules (E0002) left out, for rules with different ids, and, for the independence of rules from each other, with E0002 selected. Without these the statement is refuted: the order of two crashes, or of two rules with one id, follows the order of loading, and with E0002 ignored one crash takes away the findings of all rules. Rules are functions of their configuration and the template: state that rules share outside of their objects is not modelled."
  },
  {
   "property": "C92",
   "status": "partial",
   "theorems": [
    "loaded_rules_partial",
    "loading_ends_partial",
    "loaded_from_files",
    "listing_order_partial",
    "listing_report_partial",
    "appended_rules",
    "failing_path",
    "listed_rules_partial",
    "dotted_name_refuted",
    "dotted_other_refuted",
    "python_name_refuted",
    "first_letter_refuted",
    "package_refuted",
    "syntax_error_refuted",
    "empty_path_refuted",
    "namespace_refuted",
    "listed_mandatory_refuted"
   ],
   "note": "Proved for files whose names have one dot and no package of the same name beside them; others are passed over or replaced, which is refuted with witnesses. Errors other than OSError and ImportError (a syntax error, an empty path) raise, which is refuted. The list of rules is right without mandatory and experimental rules; with mandatory ones it is refuted. Executing a module is an argument, so are importlib.import_module on names and what is a directory; links, case-insensitive file systems and Python 2 are not modelled."
  },
  {
   "property": "C93",
   "status": "proved",
   "theorems": [
    "documented_rules",
    "rules_told_apart",
    "documented_settings_hold",
    "severity_known",
    "only_documented_reported",
    "silent_unless_asked",
    "every_run_uses_them",
    "order_of_files",
    "order_of_files_status"
   ],
   "note": "The 139 rules of the model are put together in Model/Standard.v; what they need from data files, the interpreter and libraries is one record, world. Findings of the decoder and of the serverless translator are assumed to have documented ids (E0000, E0001 in the code)."
  },
  {
   "property": "C94",
   "status": "partial",
   "theorems": [
    "unused_parameters_partial",
    "unused_mappings_partial",
    "unused_conditions_partial",
    "parameter_names_partial",
    "resource_names_partial",
    "output_names_partial",
    "mapping_names_partial",
    "default_values_partial",
    "deletion_policies_partial",
    "replace_policies_partial",
    "one_policy_partial",
    "stateful_resources_partial",
    "shared_names_partial",
    "parameter_types_partial",
    "output_values_partial",
    "output_descriptions_partial",
    "limits_exceeded_partial",
    "limits_near_partial",
    "undefined_references_partial",
    "parameter_members_partial",
    "output_members_partial",
    "mapping_shape_partial",
    "resource_members_partial",
    "dependencies_partial",
    "obsolete_dependencies_partial",
    "secrets_in_metadata_partial",
    "modules_partial",
    "output_types_partial"
   ],
   "note": "Proved for 52 rules that look at the template as a whole, under the hypotheses the theorems on the single rules have. Missing: the rules that look at the properties of resources (their checks are characterised one by one elsewhere), templates with a transform, and the hypotheses."
  },
  {
   "property": "C95",
   "status": "partial",
   "theorems": [
    "schedules_reported_partial",
    "retired_runtimes_reported_partial",
    "retiring_runtimes_reported_partial",
    "memory_sizes_reported_partial",
    "policy_versions_reported_partial",
    "policy_documents_reported_partial",
    "build_roles_reported_partial",
    "state_machines_reported_partial",
    "record_zones_reported_partial",
    "validation_domains_reported_partial",
    "packaged_code_reported_partial",
    "table_attributes_reported_partial",
    "string_lengths_reported_partial",
    "number_ranges_reported_partial",
    "list_lengths_reported_partial",
    "allowed_values_reported_partial",
    "value_patterns_reported_partial",
    "value_references_reported_partial",
    "secure_strings_reported_partial",
    "parameter_values_allowed_reported_partial",
    "parameter_values_matching_reported_partial",
    "exclusive_properties_reported_partial",
    "inclusive_properties_reported_partial",
    "at_least_one_reported_partial",
    "only_one_reported_partial",
    "needed_properties_reported_partial",
    "unwanted_properties_reported_partial",
    "hardcoded_zones_reported_partial",
    "required_properties_reported_partial"
   ],
   "note": "Proved for 29 rules that look at properties of resources and nested objects, under the hypotheses the theorems on the single rules have; templates without conditions and nulls meet most of them. Missing: the other rules of this kind, templates with a transform, and the hypotheses."
  },
  {
   "property": "C96",
   "status": "partial",
   "theorems": [
    "base64_arguments_reported",
    "not_arguments_reported",
    "ref_arguments_reported",
    "zone_arguments_reported",
    "import_arguments_reported",
    "split_arguments_reported",
    "and_arguments_reported",
    "not_lists_reported",
    "or_arguments_reported",
    "resources_in_conditions_reported_partial",
    "sub_variables_used_reported_partial",
    "select_arguments_reported_partial",
    "needless_joins_reported_partial",
    "needless_subs_reported_partial",
    "map_arguments_reported_partial",
    "map_keys_reported_partial",
    "cidr_arguments_reported_partial",
    "if_arguments_reported_partial",
    "condition_definitions_reported_partial",
    "equals_arguments_reported_partial",
    "undefined_conditions_reported_partial",
    "getatt_arguments_reported_partial",
    "join_arguments_reported_partial",
    "sub_arguments_reported_partial",
    "select_null_crashes",
    "empty_join_crashes",
    "sub_of_no_text_crashes",
    "empty_if_crashes",
    "empty_if_hides_conditions",
    "short_map_crashes",
    "map_text_crashes",
    "two_argument_cidr_crashes"
   ],
   "note": "Proved for 24 rules; nine of them without hypotheses on the template. Refuted: two arguments of Fn::Cidr, short lists of Fn::FindInMap, empty lists of Fn::Join and Fn::If, a null index of Fn::Select and a Fn::Sub of no text end rules in exceptions. Missing: when the rules on Fn::GetAtt, Fn::Join, Fn::Sub and Fn::Cidr end in exceptions, templates with a transform (in part C98; W1001 and E1029 are in C99), and the hypotheses."
  },
  {
   "property": "C97",
   "status": "partial",
   "theorems": [
    "targets_reported_partial",
    "documents_reported_partial",
    "properties_reported_partial",
    "third_filters_reported_partial",
    "devices_reported_partial",
    "aliases_reported_partial",
    "containers_reported_partial",
    "records_reported_partial",
    "ingress_reported_partial",
    "subnets_reported_partial",
    "instance_classes_reported_partial",
    "stages_reported_partial",
    "actions_reported_partial",
    "clusters_reported_partial",
    "balancers_reported_partial",
    "mapping_names_reported_partial",
    "base_reported",
    "description_reported",
    "refs_in_parameters_reported",
    "interface_keys_reported_partial",
    "interface_parameters_reported_partial",
    "update_policies_reported_partial",
    "registry_reported_partial",
    "transform_needed_reported",
    "circles_reported_partial",
    "passwords_reported_partial",
    "images_reported_partial",
    "relayed_outputs_reported"
   ],
   "note": "Proved for 28 rules; five of them without hypotheses on the template. Missing: shapes the rules do not expect (named by each theorem), templates with a transform (in part C98). W1001, E1029, E3012, E3037 and I3037 are in C99."
  },
  {
   "property": "C98",
   "status": "partial",
   "theorems": [
    "translation_contents_kept",
    "translated_findings_placed",
    "translated_report",
    "failed_translation_report",
    "translated_rules_partial",
    "translated_suppression_refuted"
   ],
   "note": "The report, the contents and the places are proved for every translation. The claim on directives is refuted: if the translator makes a new object of a resource, its directive covers only the line of its name. Missing: templates with Globals for the theorems of C94 to C97, and the three rules that look at the template as written."
  },
  {
   "property": "C99",
   "status": "partial",
   "theorems": [
    "variables_reported_partial",
    "types_reported_partial",
    "permissions_reported_partial",
    "repeated_items_reported_partial",
    "allowed_repetitions_reported_partial",
    "conditional_references_reported_partial",
    "missing_resources_reported_partial"
   ],
   "note": "Proved for E1029 and E3012 with any settings, W3037, E3037, I3037 and W1001. Missing: shapes the rules do not expect (named by each theorem) and templates with a transform."
  },
  {
   "property": "C100",
   "status": "proved",
   "theorems": [
    "firm_rules_never_crash",
    "other_rules_crash",
    "firm_rules_are_shipped",
    "without_data_refuted"
   ],
   "note": "Exact for templates without a transform and Globals: 26 rules never crash, for each of the other 113 a template is given on which it does. without_data_refuted shows the proviso is needed."
  },
  {
   "property": "C101",
   "status": "partial",
   "theorems": [
    "command_line_meaning",
    "documented_options",
    "order_of_options",
    "command_line_stops",
    "documented_stops",
    "ambiguous_name_stops",
    "unreadable_settings_refuted",
    "template_after_values_refuted",
    "templates_at_two_places_refuted",
    "unknown_option_refuted",
    "command_line_crash_refuted"
   ],
   "note": "The meaning of well-formed command lines and the ways they end are exact. Partial because the code violates the wider expectation that every argument is obeyed or refused: unreadable settings end with status 0, templates after an option with several values or at a second place are not checked, unknown options are passed over, two kinds of arguments crash the parser. argparse of Python 3.8 is modelled, as far as this parser uses it."
  },
  {
   "property": "C102",
   "status": "partial",
   "theorems": [
    "configuration_file_accepted",
    "configuration_files_used",
    "custom_file_used",
    "refused_configuration_ends",
    "maintenance_ends",
    "program_lints",
    "standard_input_linted",
    "unloadable_rules_end",
    "documented_settings_refuted",
    "missing_file_refuted",
    "module_status_refuted"
   ],
   "note": "Exact for the configuration, the tasks and the composition with the run over the templates. Partial because the code violates what users are told: three documented settings are refused in configuration files, a missing --config-file is passed over, and python -m cfnlint ends with status 0 after some exceptions. The effects of override_spec, build_graph and registry_schemas on later templates are not part of this model."
  },
  {
   "property": "C103",
   "status": "partial",
   "theorems": [
    "specifications_overridden",
    "overridden_again",
    "overridden_run",
    "overridden_lint",
    "not_overridden_lint",
    "unreadable_override_ends",
    "unreadable_override_refuted",
    "text_pattern_refuted",
    "list_document_refuted"
   ],
   "note": "Exact for documents whose pattern lists are lists of texts and whose objects meet objects. Partial because the code violates the rest: errors of the operating system other than three are passed over in silence, a pattern that is not in a list is taken for its characters, and other documents end in exceptions. Patterns with characters special to regular expressions are not modelled."
  },
  {
   "property": "C104",
   "status": "partial",
   "theorems": [
    "malformed_member_silences_partial",
    "hidden_faults_refuted"
   ],
   "note": "The code violates it. Proved: the extent of the violation for sixteen rules, as a statement about all runs, and one template on which all sixteen are silenced. Partial because the other rules are not covered."
  },
  {
   "property": "C105",
   "status": "proved",
   "theorems": [
    "ignored_not_reported",
    "unasked_not_reported",
    "experimental_not_reported",
    "selected_rules_report",
    "undefined_references_end_to_end"
   ],
   "note": "Composes the command line (C101), the configuration files (C102), the options (C08-C11) and the selection of rules (C01). selected_rules_report reduces the completeness of a run of the program to the runs of C94 to C99."
  },
  {
   "property": "C106",
   "status": "partial",
   "theorems": [
    "clean_report_partial",
    "clean_report_refuted",
    "empty_template_unchecked",
    "empty_template_refuted"
   ],
   "note": "The guarantee holds for sections and resources. For parameters, outputs, mappings and conditions it has exceptions, which are real: a section (or one member of Parameters or Outputs) that is a text or a list silences the rules about it, and clean_report_refuted gives a template where nearly every section is malformed and nothing is reported. An empty template is not checked at all (empty_template_unchecked, empty_template_refuted)."
  },
  {
   "property": "C107",
   "status": "partial",
   "theorems": [
    "clean_references_partial",
    "clean_references_refuted",
    "longer_names_refuted"
   ],
   "note": "Holds for dependencies, cycles and the form of condition functions. For Refs and conditions it has exceptions, which are real: a Parameters section that is a text or list, or an Outputs section that is an empty list or text, silences the rule (clean_references_refuted), and a Ref that only begins with a defined name passes (longer_names_refuted)."
  },
  {
   "property": "C108",
   "status": "partial",
   "theorems": [
    "clean_properties_partial",
    "clean_known_properties_partial"
   ],
   "note": "Missing properties: without conditions on the objects (a custom resource whose Properties is a text is the exception). Values, sizes and groups: for each object that meets the conditions of Spec/Filled.v by itself. E3002: for templates on which that rule does not end in an exception. Other rules about properties (E3008, E3012, E3037, E3016 and the like) are not covered here."
  },
  {
   "property": "C109",
   "status": "partial",
   "theorems": [
    "order_of_functions",
    "order_of_sections",
    "order_of_names_partial",
    "order_of_definitions_partial",
    "order_of_shared_names_partial",
    "order_of_if_partial",
    "order_of_conditions_partial",
    "order_of_parameters_partial",
    "order_of_mappings_partial",
    "order_of_references_partial",
    "order_of_undefined_conditions_refuted"
   ],
   "note": "Proved for the listed rules (places only for E1015, E1016, E1018, E1020, E1021, E1023). Refuted for E8002: of several uses of an undefined condition only the last one is told. The other rules are not covered."
  },
  {
   "property": "C110",
   "status": "partial",
   "theorems": [
    "functions_stay_local",
    "condition_lists_stay_local",
    "protection_stays_local",
    "if_stays_local_partial",
    "names_stay_local_partial",
    "mappings_stay_local_partial",
    "resources_stay_local_partial",
    "definitions_stay_local_partial",
    "policies_stay_local_partial",
    "string_sizes_stay_local_partial",
    "number_sizes_stay_local_partial",
    "list_sizes_stay_local_partial",
    "allowed_values_stay_local_partial",
    "patterns_stay_local_partial",
    "secure_texts_stay_local_partial",
    "exclusive_stays_local_partial",
    "inclusive_stays_local_partial",
    "at_least_one_stays_local_partial",
    "only_one_stays_local_partial",
    "required_stays_local_partial"
   ],
   "note": "Proved for the listed rules (places only for E1015, E1016, E1018, E1020, E1021, E1023), most of them for templates in which the sections or the described objects have the shape the rule expects. Rules about relations between parts (references, conditions, unused definitions) are outside it by nature."
  },
  {
   "property": "C111",
   "status": "partial",
   "theorems": [
    "calm_templates_never_stop_partial",
    "metadata_stops_refuted",
    "ignored_number_stops_refuted",
    "unknown_region_stops_refuted"
   ],
   "note": "calm_templates_never_stop_partial covers all templates with sound settings; the refuted theorems show the templates that do stop the program (metadata that is no object, an ignore_checks entry that is no text, an unknown region)."
  },
  {
   "property": "C112",
   "status": "proved",
   "theorems": [
    "layout_does_not_matter",
    "blind_rules_layout",
    "same_document_same_contents"
   ],
   "note": "layout_does_not_matter for the shipped rules, blind_rules_layout for any rules that do not look at the layout. Templates that are not transformed; the decoding of the text is not part of this property."
  },
  {
   "property": "C113",
   "status": "partial",
   "theorems": [
    "inputs_influence_their_readers",
    "known_region_refuted"
   ],
   "note": "inputs_influence_their_readers for 22 inputs, with the report of failed rules (E0002) selected. The last sentence is refuted: E1015 takes the regions of the run for all there are (known_region_refuted). Missing: the resource specification itself and the library functions, which many rules read."
  }
 ]
}