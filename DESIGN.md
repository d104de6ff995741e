# Formal model of cfn-lint in Rocq (Coq 8.16.1)

Subject: `aws-cloudformation/cfn-python-lint`, sources in `/repo/src/cfnlint` (read as text; never run, never changed).

## Layout

    rocq/theories/Model/*.v        executable Gallina models, one definition per Python function, no proofs;
                                   every definition cites the file and lines it models
    rocq/theories/Spec/*.v         small specifications, independent of the models' helpers
    rocq/theories/Proofs/*.v       lemmas and proofs
    rocq/theories/Properties/*.v   the property theorems only: each closed by `exact`, with `Print Assumptions`
                                   and an `Example` showing that its hypotheses are met by a concrete case
    properties.jsonl               the properties in English
    MANIFEST.json                  property -> theorems
    seeded/LOG.jsonl               seeded-bug experiments: which wrong programs the theorems reject

## Modelling conventions

* A decoded template is a value of `Base.val`: null, bool, int (`Z`, unbounded as in Python), float (opaque literal),
  string, list, dict.  A dict is an association list in insertion order; look-up takes the first binding.  Keys are
  strings (YAML allows others; the decoder's other key types are out of the model).  Where a proof needs keys to be
  distinct it assumes `wf_val`, which the decoders guarantee (C12).
* Strings are Coq `string`s (sequences of 8-bit characters); code points above 255 are outside the model.
* Python exceptions are values: `res A = Ok a | Err e`.  Every place the Python code can raise on a decoded template
  is an explicit `Err`.
* Recursion that is not structural runs on fuel and returns `Err OutOfFuel` (or a dedicated constructor) when it is
  exhausted; theorems either exclude that result or prove it cannot happen.
* Behaviour that comes from outside the repo (networkx `find_cycle`, the SAM translator, resource specification data,
  `re` on user-supplied patterns, hashing) is either modelled from its contract or is an explicit argument of the
  model, so that theorems quantify over it.  `hashlib.sha1(json.dumps(..., sort_keys=True))` is modelled by an explicit
  injective-on-canonical-forms argument, stated where used.
* Properties the code violates are proved as `..._refuted` (a concrete witness computed by the model) together with
  the strongest true statement we found, named `..._partial`.

## Plan per property

| id | modelled | how proved |
|----|----------|-----------|
| C01 | `is_enabled`, `register`, `configure` | boolean reflection against a declarative spec |
| C02 | `get_exit_code`, `severity` | characterise each bit by induction on the list; permutation invariance as corollary |
| C03, C04 | `Runner.run` filter, `get_directives` | fold invariant; refute confinement for several resources on one line |
| C05 | `run_checks` sorting | stable insertion sort; sorted + permutation + stability |
| C06 | `run_check`, `run`, `run_checks` | induction over rules; refuted when E0002 is switched off |
| C07 | rule objects as state threaded through a history of templates | step function over histories; refuted by two witnesses, proved for histories without rule configuration |
| C08-C10 | `config.py` option look-up, merging, parsing | case analysis, induction on documents/arguments |
| C11, C12 | `cfn_json.py` scanner, `check_duplicates`, YAML map constructor | round trip by induction on values; exact characterisation of rejection |
| C13, C14 | `search_deep_keys`, `get_location_yaml` | nested induction on values against a path semantics |
| C15-C17 | `conditions.py` | denotational semantics of conditions as the spec; soundness, completeness on the fragment where they hold, refutations elsewhere |
| C18, C19 | `get_value_from_scenario`, `items_safe`, `get_condition_values`, `clean` | nested induction against a relational branch semantics |
| C20 | `Graph`, a depth-first `find_cycle` | reachability |
| C21 | `rules/functions/RefExist.py`, `template.py: Template.get_valid_refs`, `helpers.py: RegexDict` | membership in the regex dictionary of names characterised; every Ref found by the search theorem of C13 |
| C22 | `rules/conditions/Exists.py` | uses of conditions specified by paths; search theorem of C13 |
| C23 | `rules/common.py`, `helpers.py: LIMITS`, `rules/*/LimitName.py, LimitNumber.py, LimitAttributes.py, LimitValue.py, LimitDescription.py` | each limit rule characterised as `length > limit`, by case analysis on the section |
| C24 | `rules/common.py: alphanumeric_name`, `helpers.py: REGEX_ALPHANUMERIC` | the regular expression replaced by its meaning on character lists; induction on the text |
| C25 | `rules/parameters/Default.py` | exact characterisation of the reported matches against a separate specification, lifted to whole runs; refutations where the code deviates |
| C26 | `rules/parameters/Used.py`, `template.py: get_sub_parameters` | uses of parameters as a relation on templates; the scanner of Fn::Sub texts proved against it |
| C27 | `rules/resources/properties/Required.py`, `rules/__init__.py: RulesCollection.run_resource, resource_property` | exact characterisation of the reported matches against a separate specification, lifted to whole runs; refutations where the code deviates |
| C28 | `rules/resources/properties/{Exclusive,Inclusive,OnlyOne,AtLeastOne}.py` | tables of groups against the properties left in each scenario, through C18 |
| C29 | `rules/resources/properties/{ListSize,StringSize,NumberSize}.py` | bounds against every choice of branches, through C18 and C19 |
| C30 | `rules/resources/properties/{ListDuplicates,ListDuplicatesAllowed}.py` | digest of canonical JSON, told apart by the items of the list |
| C31 | `rules/conditions/{And,Or,Not,Condition,Equals}.py`, `rules/functions/If.py` | exact characterisation of the reported matches against a separate specification, lifted to whole runs; refutations where the code deviates |
| C32 | `rules/functions/*.py` | exact characterisation of the reported matches against a separate specification, lifted to whole runs; refutations where the code deviates |
| C33 | `template.py: is_resource_available, get_conditions_from_path`, `rules/functions/RelationshipConditions.py`, `rules/resources/DependsOn.py` | satisfying assignments of conditions (C16, C17) against the path semantics of Fn::If |
| C34 | `helpers.py: override_specs, set_specs, merge_spec` | pattern matching against a declarative semantics of `*`; set algebra on the specification |
| C35 | `formatters/__init__.py` | each formatter has a left inverse on findings without separators |
| C36 | `helpers.py: bool_compare` | case analysis |
| C37 | `rules/resources/{DeletionPolicy,UpdateReplacePolicy}.py` | exact characterisation of the reported matches against a separate specification, lifted to whole runs; refutations where the code deviates |
| C38 | `rules/resources/{DependsOn,DependsOnObsolete}.py` | exact characterisation of the reported matches against a separate specification, lifted to whole runs; refutations where the code deviates |
| C39 | `rules/templates/Base.py`, `rules/{outputs,parameters,mappings,resources}/Configuration.py`, `rules/outputs/Required.py` | exact characterisation of the reported matches against a separate specification, lifted to whole runs; refutations where the code deviates |
| C40 | `transform.py: Transform._replace_local_codeuri, _update_to_s3_uri, is_s3_uri` | structural induction on the template |
| C41 | `core.py:run_checks`, `core.py:get_template_rules`, `runner.py:Runner.run`, `template.py:Template.get_directives`, `config.py:TemplateArgs.set_template_args` | totality of the pipeline as a function, error values excluded |
| C42 | `rules/__init__.py:RulesCollection.resource_property`, `rules/__init__.py:RulesCollection.run_resource` | induction on nesting depth of property types |
| C43 | `rules/conditions/Used.py` | exact characterisation of the reported matches against a separate specification, lifted to whole runs; refutations where the code deviates |
| C44 | `rules/mappings/Used.py` | exact characterisation of the reported matches against a separate specification, lifted to whole runs; refutations where the code deviates |
| C45 | `rules/resources/{BothUpdateReplacePolicyDeletionPolicyNeeded,UpdateReplacePolicyDeletionPolicyOnStatefulResourceTypes}.py` | exact characterisation of the reported matches against a separate specification, lifted to whole runs; refutations where the code deviates |
| C46 | `rules/resources/{UniqueNames,ServerlessTransform}.py` | exact characterisation of the reported matches against a separate specification, lifted to whole runs; refutations where the code deviates |
| C47 | `rules/resources/NoEcho.py` | exact characterisation of the reported matches against a separate specification, lifted to whole runs; refutations where the code deviates |
| C48 | `rules/resources/Modules.py` | exact characterisation of the reported matches against a separate specification, lifted to whole runs; refutations where the code deviates |
| C49 | `rules/outputs/Value.py` | exact characterisation of the reported matches against a separate specification, lifted to whole runs; refutations where the code deviates |
| C50 | `decode/__init__.py: decode`, `decode/cfn_yaml.py: NodeConstructor, multi_constructor`, `decode/cfn_json.py: CfnJSONDecoder` | totality over all file contents, external decoders as arguments with contracts |
| C51 | `config.py: ConfigMixIn.templates, ignore_templates, _glob_filenames` | set and order of file names, `glob` as an argument |
| C52 | `rules/functions/GetAtt.py: GetAtt`, `template.py: get_valid_getatts` | exact characterisation of the reported matches against a separate specification, lifted to whole runs; refutations where the code deviates |
| C53 | `rules/functions/Sub.py: Sub`, `template.py: get_valid_getatts` | exact characterisation of the reported matches against a separate specification, lifted to whole runs; refutations where the code deviates |
| C54 | `rules/functions/SubParametersUsed.py`, `rules/functions/SubUnneeded.py` | exact characterisation of the reported matches against a separate specification, lifted to whole runs; refutations where the code deviates |
| C55 | `rules/functions/FindInMapKeys.py` | exact characterisation of the reported matches against a separate specification, lifted to whole runs; refutations where the code deviates |
| C56 | `rules/functions/RefInCondition.py` | exact characterisation of the reported matches against a separate specification, lifted to whole runs; refutations where the code deviates |
| C57 | `rules/resources/properties/AllowedValue.py`, `template.py:check_value` | choices of a value through branches as a relation; `check_value` characterised by nested induction |
| C58 | `rules/resources/properties/AllowedPattern.py` | as C57 |
| C59 | `rules/resources/properties/ValuePrimitiveType.py` | as C57 |
| C60 | `rules/functions/DynamicReferenceSecureString.py`, `helpers.py:REGEX_DYN_REF_SSM_SECURE` | as C57 |
| C61 | `rules/resources/properties/ValueRefGetAtt.py` | as C57 |
| C62 | `rules/resources/properties/AvailabilityZone.py`, `rules/resources/properties/PropertiesTemplated.py` | as C57 |
| C63 | `rules/resources/properties/Password.py` | as C57 |
| C64 | `rules/resources/properties/ImageId.py`, `template.py:get_valid_refs` | as C57 |
| C65 | `rules/resources/properties/Properties.py: Properties` | mutual induction over template and specification on fuel, against an inductive relation of faults |
| C66 | `rules/resources/properties/BasedOnValue.py: BasedOnValue`, `rules/resources/properties/RequiredBasedOnValue.py: RequiredBasedOnValue`, `rules/resources/properties/UnwantedBasedOnValue.py: UnwantedBasedOnValue`, `template.py: get_object_without_conditions` | as C28 |
| C67 | `rules/functions/SubNeeded.py: SubNeeded.match, _match_values, match_values` | exact characterisation of the reported matches against a separate specification, lifted to whole runs; refutations where the code deviates |
| C68 | `rules/metadata/InterfaceConfiguration.py: InterfaceConfiguration.match`, `rules/metadata/InterfaceParameterExists.py: InterfaceParameterExists.match` | exact characterisation of the reported matches against a separate specification, lifted to whole runs; refutations where the code deviates |
| C69 | `rules/parameters/AllowedValue.py: AllowedValue.check_value_ref`, `rules/parameters/AllowedPattern.py: AllowedPattern.check_value_ref`, `rules/parameters/LambdaMemorySize.py: LambdaMemorySize.check_lambda_memory_size_ref`, `rules/outputs/ImportValue.py: ImportValue.match` | exact characterisation of the reported matches against a separate specification, lifted to whole runs; refutations where the code deviates |
| C70 | `rules/resources/updatepolicy/Configuration.py: Configuration.match, Configuration.check_update_policy, Configuration.check_attributes, Configuration.check_value` | exact characterisation of the reported matches against a separate specification, lifted to whole runs; refutations where the code deviates |
| C71 | `rules/resources/iam/Policy.py: Policy.check_policy_document, Policy._check_policy_statement, Policy.match_resource_properties`, `rules/resources/iam/PolicyVersion.py: PolicyVersion.check_policy_document, PolicyVersion.match_resource_properties` | exact characterisation of the reported matches against a separate specification, lifted to whole runs; refutations where the code deviates |
| C72 | `rules/resources/iam/Permissions.py: Permissions.load_service_map, Permissions.check_policy_document, Permissions.check_permissions, Permissions.get_actions`, `rules/resources/iam/RefWithPath.py: RefWithPath.check_ref, RefWithPath.match_resource_properties` | exact characterisation of the reported matches against a separate specification, lifted to whole runs; refutations where the code deviates |
| C73 | `rules/resources/events/RuleScheduleExpression.py: RuleScheduleExpression.check_rate, RuleScheduleExpression.check_cron, RuleScheduleExpression.check_value`, `rules/resources/events/RuleTargetsLimit.py: RuleTargetsLimit.initialize, RuleTargetsLimit.check_value, RuleTargetsLimit.match_resource_properties` | exact characterisation of the reported matches against a separate specification, lifted to whole runs; refutations where the code deviates |
| C74 | `rules/resources/lmbd/DeprecatedRuntime.py: DeprecatedRuntime.check_value, DeprecatedRuntime.check_ref`, `rules/resources/lmbd/DeprecatedRuntimeEnd.py: DeprecatedRuntimeEnd.check_runtime`, `rules/resources/lmbd/DeprecatedRuntimeEol.py: DeprecatedRuntimeEol.check_runtime`, `rules/resources/lmbd/EventsLogGroupName.py: EventsLogGroupName.check_events_subscription_duplicated` | exact characterisation of the reported matches against a separate specification, lifted to whole runs; refutations where the code deviates |
| C75 | `template.py: Template.get_resource_properties, Template._get_sub_resource_properties`, `rules/resources/ectwo/Ebs.py: Ebs.match, Ebs._checkEbs`, `rules/resources/cloudfront/Aliases.py: Aliases.match`, `rules/resources/ecs/TaskDefinitionEssentialContainer.py: TaskDefinitionEssentialContainer.match` | exact characterisation of the reported matches against a separate specification, lifted to whole runs; refutations where the code deviates |
| C76 | `template.py: Template.get_object_without_nested_conditions, Template._get_object_without_nested_conditions, Template.get_condition_scenarios_below_path`, `rules/resources/elb/Elb.py: Elb.match, Elb.match_resource_properties, Elb.check_protocol_value, Elb.check_alb_subnets, Elb.check_loadbalancer_allowed_attributes` | exact characterisation of the reported matches against a separate specification, lifted to whole runs; refutations where the code deviates |
| C77 | `rules/resources/route53/RecordSet.py: RecordSet.match, check_recordset, count_c_names, check_caa_record, check_mx_record, check_txt_record, check_cname_record`, `helpers.py: REGEX_IPV4, REGEX_ALPHANUMERIC` | exact characterisation of the reported matches against a separate specification, lifted to whole runs; refutations where the code deviates |
| C78 | `rules/resources/route53/RecordSetName.py: RecordSetName.match_resource_properties`, `rules/resources/certificatemanager/DomainValidationOptions.py: DomainValidationOptions.check_value`, `template.py: Template.get_object_without_conditions` | exact characterisation of the reported matches against a separate specification, lifted to whole runs; refutations where the code deviates |
| C79 | `rules/resources/ectwo/RouteTableAssociation.py: RouteTableAssociation.match, get_values`, `rules/resources/ectwo/SecurityGroupIngress.py: SecurityGroupIngress.match, check_ingress_rule` | exact characterisation of the reported matches against a separate specification, lifted to whole runs; refutations where the code deviates |
| C80 | `rules/resources/stepfunctions/StateMachine.py: StateMachine.check_value, check_sub, _check_definition_json, _check_state_json` | exact characterisation of the reported matches against a separate specification, lifted to whole runs; refutations where the code deviates |
| C81 | `rules/resources/rds/InstanceSize.py: InstanceSize.match, get_resources, check_db_config, _get_license_model`, `decode/node.py: items_safe` | exact characterisation of the reported matches against a separate specification, lifted to whole runs; refutations where the code deviates |
| C82 | `rules/resources/dynamodb/AttributeMismatch.py: AttributeMismatch.check, match_resource_properties`, `template.py: get_object_without_conditions` | exact characterisation of the reported matches against a separate specification, lifted to whole runs; refutations where the code deviates |
| C83 | `rules/resources/elasticache/CacheClusterFailover.py: CacheClusterFailover.match_resource_properties, test_cluster_settings, _test_cluster_settings, is_cluster_enabled`, `template.py: get_conditions_from_path, get_conditions_scenarios_from_object, get_value_from_scenario` | exact characterisation of the reported matches against a separate specification, lifted to whole runs; refutations where the code deviates |
| C84 | `rules/resources/codepipeline/CodepipelineStages.py: CodepipelineStages.match, check_stage_count, check_first_stage, check_source_actions, check_names_unique`, `template.py: get_object_without_nested_conditions, get_resource_properties` | exact characterisation of the reported matches against a separate specification, lifted to whole runs; refutations where the code deviates |
| C85 | `rules/resources/codepipeline/CodepipelineStageActions.py: CodepipelineStageActions.match, check_names_unique, check_version, check_artifact_counts, check_artifact_names`, `decode/node.py: dict_node.get_safe, list_node.items_safe`, `template.py: get_resource_properties` | exact characterisation of the reported matches against a separate specification, lifted to whole runs; refutations where the code deviates |
| C86 | `rules/resources/properties/JsonSize.py: JsonSize.check, check_value, remove_functions, match_resource_properties, match_resource_sub_properties`, `template.py: get_object_without_nested_conditions`, `rules/resources/properties/JsonSize.py: _serialize_date` | exact characterisation of the reported matches against a separate specification, lifted to whole runs; refutations where the code deviates |
| C87 | `rules/resources/ResourceSchema.py: ResourceSchema.match`, `core.py: run_cli`, `helpers.py: REGISTRY_SCHEMAS, REGEX_DYN_REF, PSEUDOPARAMS, UNCONVERTED_SUFFIXES, FN_PREFIX`, `template.py: get_resources`, `runner.py: Runner.run` | exact characterisation of the reported matches against a separate specification, lifted to whole runs; refutations where the code deviates |
| C88 | `maintenance.py: update_resource_specs, update_resource_spec`, `helpers.py: url_has_newer_version, get_url_content, get_metadata_filename, load_metadata, save_metadata`, `core.py: get_args_filenames` | exact characterisation of the reported matches against a separate specification, lifted to whole runs; refutations where the code deviates |
| C89 | `maintenance.py: patch_spec, update_resource_spec.search_and_replace_botocore_types`, `helpers.py: load_resource` | exact characterisation of the reported matches against a separate specification, lifted to whole runs; refutations where the code deviates |
| C90 | `maintenance.py: update_documentation, update_iam_policies`, `rules/__init__.py: ParseError, TransformError, RuleError`, `core.py: get_args_filenames` | exact characterisation of the reported matches against a separate specification, lifted to whole runs; refutations where the code deviates |
| C91 | `rules/__init__.py: RulesCollection.run, run_check, register, configure`, `runner.py: Runner.run`, `core.py: run_checks, get_template_rules, get_exit_code`, `__main__.py: main` | exact characterisation of the reported matches against a separate specification, lifted to whole runs; refutations where the code deviates |
| C92 | `helpers.py: create_rules, import_filename, load_plugins`, `rules/__init__.py: RulesCollection.create_from_directory, create_from_module, extend`, `core.py: get_rules, get_args_filenames` | exact characterisation of the reported matches against a separate specification, lifted to whole runs; refutations where the code deviates |
| C93 | `docs/rules.md`, `rules: all rule classes`, `core.py: get_template_rules, run_checks`, `__main__.py: main` | exact characterisation of the reported matches against a separate specification, lifted to whole runs; refutations where the code deviates |
| C94 | `runner.py: Runner.run`, `rules/__init__.py: RulesCollection.run`, `core.py: run_checks`, `rules: the rules named in the theorems` | exact characterisation of the reported matches against a separate specification, lifted to whole runs; refutations where the code deviates |
| C95 | `runner.py: Runner.run`, `rules/__init__.py: RulesCollection.run, RulesCollection.resource_property`, `core.py: run_checks`, `rules/resources: the rules named in the theorems` | exact characterisation of the reported matches against a separate specification, lifted to whole runs; refutations where the code deviates |
| C96 | `runner.py: Runner.run`, `rules/__init__.py: RulesCollection.run`, `core.py: run_checks`, `rules/functions: the rules named in the theorems`, `rules/conditions: the rules named in the theorems` | exact characterisation of the reported matches against a separate specification, lifted to whole runs; refutations where the code deviates |
| C97 | `runner.py: Runner.run`, `rules/__init__.py: RulesCollection.run`, `core.py: run_checks`, `rules/templates, metadata, mappings, outputs, parameters and resources: the rules named in the theorems` | exact characterisation of the reported matches against a separate specification, lifted to whole runs; refutations where the code deviates |
| C98 | `helpers.py: convert_dict`, `transform.py: Transform.transform_template`, `runner.py: Runner.transform`, `core.py: run_checks`, `template.py: get_directives` | exact characterisation of the reported matches against a separate specification, lifted to whole runs; refutations where the code deviates |
| C99 | `rules/functions/SubNeeded.py: SubNeeded.match`, `rules/resources/properties/ValuePrimitiveType.py: ValuePrimitiveType.check`, `rules/resources/iam/Permissions.py: Permissions.match_resource_properties`, `rules/resources/properties/ListDuplicates.py: ListDuplicates.check`, `rules/resources/properties/ListDuplicatesAllowed.py: ListDuplicatesAllowed.check`, `rules/functions/RelationshipConditions.py: RelationshipConditions.match`, `core.py: run_checks` | exact characterisation of the reported matches against a separate specification, lifted to whole runs; refutations where the code deviates |
| C100 | `rules/__init__.py: RulesCollection.run_check`, `core.py: run_checks`, `rules/templates/Base.py: Base.match`, `rules/resources/Configuration.py: Configuration.match`, `rules/functions/Cidr.py: Cidr.match`, `decode/node.py: TemplateAttributeError` | exact characterisation of the reported matches against a separate specification, lifted to whole runs; refutations where the code deviates |
| C101 | `config.py: CliArgs.create_parser`, `config.py: CliArgs.__init__`, `config.py: comma_separated_arg`, `config.py: RuleConfigurationAction`, `config.py: _ensure_value` | exact characterisation of the reported matches against a separate specification, lifted to whole runs; refutations where the code deviates |
| C102 | `__main__.py: main`, `core.py: get_args_filenames`, `core.py: run_cli`, `config.py: ConfigFileArgs`, `config.py: ConfigMixIn.__init__`, `data/CfnLintCli/config/schema.json` | exact characterisation of the reported matches against a separate specification, lifted to whole runs; refutations where the code deviates |
| C103 | `helpers.py: override_specs`, `helpers.py: set_specs`, `helpers.py: merge_spec`, `core.py: run_cli`, `__main__.py: main` | exact characterisation of the reported matches against a separate specification, lifted to whole runs; refutations where the code deviates |
| C104 | `__init__.py: RulesCollection.run_check`, `decode/node.py: TemplateAttributeError`, `rules/parameters/Configuration.py: match`, `template.py: get_valid_refs`, `graph.py: Graph.__init__` | exact characterisation of the reported matches against a separate specification, lifted to whole runs; refutations where the code deviates |
| C105 | `__main__.py: main`, `core.py: get_args_filenames, get_template_rules, run_checks`, `config.py: ConfigMixIn`, `rules/__init__.py: RulesCollection.is_rule_enabled` | exact characterisation of the reported matches against a separate specification, lifted to whole runs; refutations where the code deviates |
| C106 | `core.py: run_checks, run_cli`, `rules/__init__.py: RulesCollection.run_check`, `rules/templates/Base.py: Base.match`, `rules/resources/Configuration.py: Configuration.match`, `rules/parameters/Configuration.py: Configuration.match`, `rules/outputs/Configuration.py: Configuration.match` | exact characterisation of the reported matches against a separate specification, lifted to whole runs; refutations where the code deviates |
| C107 | `core.py: run_checks`, `rules/__init__.py: RulesCollection.run_check`, `rules/functions/RefExist.py: RefExist.match`, `rules/conditions/Exists.py: Exists.match`, `rules/conditions/common.py: check_condition_list`, `rules/resources/DependsOn.py: DependsOn.match`, `rules/resources/CircularDependency.py: CircularDependency.match`, `graph.py: Graph` | exact characterisation of the reported matches against a separate specification, lifted to whole runs; refutations where the code deviates |
| C108 | `core.py: run_checks`, `rules/__init__.py: RulesCollection.resource_property`, `rules/resources/properties/Required.py: Required`, `rules/resources/properties/Properties.py: Properties`, `rules/resources/properties/AllowedValue.py: AllowedValue`, `rules/resources/properties/AllowedPattern.py: AllowedPattern`, `rules/resources/properties/StringSize.py: StringSize`, `rules/resources/properties/NumberSize.py: NumberSize`, `rules/resources/properties/ListSize.py: ListSize`, `rules/resources/properties/Exclusive.py: Exclusive`, `rules/resources/properties/Inclusive.py: Inclusive`, `rules/resources/properties/AtLeastOne.py: AtLeastOne`, `rules/resources/properties/OnlyOne.py: OnlyOne` | exact characterisation of the reported matches against a separate specification, lifted to whole runs; refutations where the code deviates |
| C109 | `core.py: run_checks`, `template.py: Template.search_deep_keys, Template.get_resources`, `rules/conditions/Exists.py: Exists.match`, `rules/functions: match`, `rules/templates: match`, `rules/parameters: match`, `rules/outputs: match` | exact characterisation of the reported matches against a separate specification, lifted to whole runs; refutations where the code deviates |
| C110 | `core.py: run_checks`, `template.py: Template.search_deep_keys, Template.get_resources`, `rules/__init__.py: RulesCollection.run, RulesCollection.resource_property`, `rules/resources/properties: match_resource_properties, match_resource_sub_properties`, `rules/functions: match`, `rules/resources/DeletionPolicy.py: DeletionPolicy.match` | exact characterisation of the reported matches against a separate specification, lifted to whole runs; refutations where the code deviates |
| C111 | `__main__.py: main`, `core.py: get_template_rules, run_checks`, `config.py: TemplateArgs.set_template_args, ConfigMixIn`, `rules/__init__.py: CloudFormationLintRule.is_enabled, CloudFormationLintRule.configure, RulesCollection.configure` | exact characterisation of the reported matches against a separate specification, lifted to whole runs; refutations where the code deviates |
| C112 | `rules/__init__.py: RulesCollection.run, CloudFormationLintRule.matching, create_match_from_template_result`, `template.py: get_location_yaml, _loc`, `runner.py: Runner.run`, `decode/node.py` | exact characterisation of the reported matches against a separate specification, lifted to whole runs; refutations where the code deviates |
| C113 | `rules/__init__.py: RulesCollection.run`, `rules/resources/lmbd/DeprecatedRuntime.py`, `rules/functions/GetAz.py: GetAz.match`, `rules/resources/Configuration.py`, `rules/resources/rds/InstanceSize.py`, `rules/templates/LimitSize.py` | exact characterisation of the reported matches against a separate specification, lifted to whole runs; refutations where the code deviates |

## What each property rests on, and what is missing

`proved` means that the theorems cover the English statement as it stands; `partial` that they cover it on the stated
domain, and that outside it the code was shown to deviate (`_refuted`) or the statement is open.

| id | status | model files | remark |
|----|--------|-------------|--------|
| C01 | proved |  |  |
| C02 | proved |  |  |
| C03 | proved |  |  |
| C04 | partial |  | Confinement to the resource is refuted for resources sharing one line and proved for resources spanning several lines. |
| C05 | proved |  | Findings are ordered within each template; reports of several files are concatenated in file order. |
| C06 | partial |  | Proved with the E0002 check enabled; refuted when E0002 is switched off. |
| C07 | partial |  | Refuted for templates that configure rules or ignore bad templates in their Metadata (settings leak into the next file); proved for all other file sequences. |
| C08 | partial |  | Proved with 'given' read as non-empty; refuted for explicitly given empty values and for include_experimental in Metadata. |
| C09 | proved |  |  |
| C10 | partial |  | Proved for names and values without separators; refuted for values containing '=' or ':'. |
| C11 | partial |  | Exact characterisation of what decodes and to what; RFC 8259 documents decode to their value; refutations: NaN and Infinity are accepted, documents nested beyond the recursion limit raise, a member without value raises TypeError. |
| C12 | partial |  | JSON in full. YAML on composed nodes with text keys, without merge keys, aliases, short forms of mappings and !GetAtt lists. Refuted: position of the JSON error, repeated keys in tagged mappings, nulls in !GetAtt lists, repeated non-text keys and function keys raise TypeError. |
| C13 | proved |  |  |
| C14 | partial |  | Proved for paths whose indices are in range; an index beyond the end of a list raises (refuted). |
| C15 | proved |  | Proved for the operands the property names (call against text or integer literal). Beyond it: boolean literals, call-against-call and literal-against-literal comparisons are refuted. |
| C16 | partial |  | Proved for at most four conditions or conditions sharing a function call; refuted for five unrelated conditions. |
| C17 | partial |  | Proved when two conditions share a function call, or when each condition can take its value; refuted for a constant condition. |
| C18 | proved |  | Covers get_value_from_scenario and get_object_without_conditions; the deployment theorem inherits C16's bound on unrelated conditions. |
| C19 | partial |  | items_safe, get_safe and get_condition_values proved in full; get_values proved except for null branches, on which it raises (refuted). |
| C20 | proved |  | For templates that use Fn::GetAtt and Fn::Sub in their documented forms; networkx.find_cycle enters through its contract, which is shown to be satisfiable. |
| C21 | partial |  | Refs to defined names are never reported; undefined names are reported unless they begin with a defined name (refuted). |
| C22 | partial |  | Proved for typed resources, outputs with text conditions and templates without an empty Fn::If; refuted otherwise, and for the place of undefined conditions of outputs. |
| C23 | partial |  | Proved for every template of the documented shape; rules may raise on other shapes (refuted). |
| C24 | partial |  | Proved for every name that does not end in a line feed; refuted for a trailing line feed. |
| C25 | partial |  | Proved for text and integer defaults with integer bounds; refuted for MinValue 0, numbers given as texts and list defaults. |
| C26 | partial |  | Proved for alphanumeric names and documented Fn::Sub forms with closed placeholders; refuted for an empty Fn::Sub. |
| C27 | partial | Rules | Exact for values whose branches can be asked for members; refuted when a branch is a scalar (the check fails). |
| C28 | partial | Rules | Exact without conditions; with conditions sound and complete for at most four conditions or related ones and objects that are not an Fn::If themselves; refuted for objects of which nothing is left. |
| C29 | partial | Rules | Lists: exact without conditions; sound and complete with at most four conditions or related ones. Texts and numbers: exact unless the properties are a condition, and for texts unless a bound is 0; both exceptions are refuted. |
| C30 | partial | Rules | Exact for lists, given a digest that tells the items apart; choices between lists sound and complete; refuted for conditions on items. |
| C31 | partial |  | Fn::And/Or/Not and the Conditions section in full; Fn::Equals for Refs with unambiguous targets and Fn::If other than the empty list, refuted otherwise. |
| C32 | partial | Rules | Exact characterisation for each function, with the arguments the rules fail on characterised for Fn::Select and Fn::FindInMap; refuted for Fn::Cidr with two arguments, arguments that are objects without a call, lists given to Fn::GetAZs, list indices of Fn::Select and short Fn::FindInMap. |
| C33 | partial |  | Refuted for places in the branch for the resource's condition being false (not found) and for places in branches that exclude each other (found); otherwise proved within the limits of C16 and C17. |
| C34 | proved |  |  |
| C35 | partial | Rules | Parseable, standard, JSON and pretty reports proved lossless for names without separators; refuted for colons in file names, line feeds in standard reports, and findings missing from JUnit reports. |
| C36 | proved |  |  |
| C37 | partial | Rules | Proved for non-empty policies; an empty policy goes unreported (refuted). |
| C38 | partial | Rules | Proved for non-empty entries and list-form Fn::GetAtt; refuted for empty entries, text-form and empty Fn::GetAtt. |
| C39 | partial |  | Templates, parameters, mappings and resources in full; outputs except empty or non-object ones, which go unreported or raise (refuted). |
| C40 | partial | Rules | Exact effect, idempotence, totality and error reporting proved; refuted for application locations and for APIs with Auth, Cors or a body. |
| C41 | partial |  | Refuted for templates with non-object Metadata; proved for well-formed Metadata without the serverless transform. |
| C42 | proved |  |  |
| C43 | partial |  | Proved for templates without an empty Fn::If; refuted with one (IndexError). |
| C44 | partial |  | Proved for templates without an empty Fn::FindInMap; refuted with one (IndexError). |
| C45 | proved | Rules |  |
| C46 | proved | Rules |  |
| C47 | partial | Rules | Proved for Ref and text-form Fn::Sub; refuted for list-form Fn::Sub. |
| C48 | partial | Rules | Proved when only Type ends in ::MODULE; refuted for other attributes and for the reserved key at the top level. |
| C49 | partial | Rules | Proved with every second list position counted as a use; refuted for the first branch of Fn::If. |
| C50 | partial |  | For all file contents on which PyYAML and the scalar constructors raise nothing but YAMLError and whose nodes are ordinary. Refuted: uncaught TypeError and ValueError, the empty file, other errno values. |
| C51 | partial |  | Which files, and their order, for all options; that each is linted once is refuted: two names for one file lint it twice. glob is an argument. |
| C52 | partial | Rules | Exact whenever the rule does not fail; refuted for texts without a dot (exception) and empty resource names (accepted). |
| C53 | partial | Rules | Exact whenever the rule does not fail, for texts whose placeholders are closed and parameters whose names have no dots; refuted for a first argument that is no text (exception). |
| C54 | proved | Rules | For texts whose placeholders are closed. |
| C55 | proved | Rules | For mappings that are objects of objects. |
| C56 | proved | Rules | For templates whose sections are objects of objects. |
| C57 | partial | Rules | Exact for properties of which no choice is null; refuted for calls of Fn::Transform, which are reported. |
| C58 | proved | Rules | Matching a pattern is an argument of the model; no choice of branches makes a property null. |
| C59 | partial | Rules | Exact for properties that are not a condition themselves; refuted for those, and for truth values given as integers. |
| C60 | partial | Rules | Exact for properties that are not a condition themselves and no empty Fn::Sub; both exceptions are refuted. |
| C61 | partial | Rules | Exact when every Ref has a text and every Fn::GetAtt names a resource and an attribute; refuted for others, on which the rule fails. |
| C62 | proved | Rules | For properties of which no choice is null. |
| C63 | partial | Rules | Exact description of what is reported; refuted as a check of passwords for numbers, conditions and NoEcho given as text. |
| C64 | partial | Rules | Exact for references to known names that do not begin with the name of a module, and to unknown ones; the place of a finding is refuted, and references to numbers raise an exception. |
| C65 | partial | Rules | The findings are characterised exactly whenever the rule answers; it answers for templates whose conditions have lists for arguments and whose Fn::GetAtt name resources that are there. Refuted otherwise, with further deviations: ignored branches, wrong places, the generic custom resource, parts of the word Ref. |
| C66 | partial | Rules | Exact for objects without conditions, in whole runs and for nested types; for objects with conditions, found and real under the hypotheses on hashing of C18. Refuted for properties removed with AWS::NoValue, Fn::GetAtt of missing resources or written as text, and objects given whole by a condition. |
| C67 | partial | Rules | Exact whenever the rule answers, and in runs for templates without Globals whose state machines have no variables in their definitions. Refuted: places of findings in definitions and in Globals, and a state machine below a condition, which silences the rule. |
| C68 | partial | Rules | Exact, and found in runs, for interfaces whose groups are lists of objects with lists of parameters. Refuted outside: null groups and groups given as texts end in exceptions or in findings about letters. |
| C69 | partial | Rules | Exact, and found in runs, for templates whose sections and lists of allowed values have their proper shapes and whose Refs are names. Refuted: empty defaults, allowed values given as an object, Refs to lists, bounds of 0. |
| C70 | partial | Rules | Exact, and found in runs, for policies whose choices are objects and that hold no null. Refuted: places of switches and of attributes below conditions, lists and switches accepted as numbers, texts accepted as lists, exceptions for choices that are not objects. |
| C71 | partial | Rules | Exact, and found in runs, for documents that cannot be null and whose single statements are objects in every branch. JSON parsing is an argument; dates of YAML are not modelled. Refuted: place of unknown keys, policies below conditions in the list of policies, versions given by parameters, exceptions for choices that are not objects, trust policies and versions in texts, null policies. |
| C72 | partial | Rules | W3037 exact, and found in runs, for documents whose actions are texts with a colon; E3050 exact, and found in runs, for references that are names. The list of services is an argument. Refuted: place of single statements, excepted actions, exceptions for actions without a colon or given by references, stars, statements below conditions, paths of resources that are no roles. |
| C73 | partial | Rules | E3027 exact, and found in runs, for schedules that are texts or calls. E3021 exact, with its counts kept across resources, and found in runs, for targets that are lists or one condition between lists. Refuted: exceptions for numbers, units and fields not checked, text after the first parenthesis, neither day, double spaces, nested conditions and conditional items counted together, targets given by calls. |
| C74 | partial | Rules | E2531 and W2531 exact, and found in runs, for runtimes that are texts, Refs or other calls; the table, the instants of dates and the moment of the run are arguments. E2529 exact, and found in runs, for filters with properties whose log groups are texts or calls. Refuted: the instant of the date, runtimes that are objects or given by other calls, conditions of filters, filters without properties, order of members. |
| C75 | partial | Rules | get_resource_properties exact for values without lists of objects with a single member. E2504, E3013 and E3042 exact, and found in runs, for devices, aliases and containers of the usual shapes; a second formatting of messages is an argument. Refuted: single members, conditions of properties, devices, configurations and containers, exceptions for references, nulls and braces, io2, rates in one branch, aliases that are texts, switches that are texts. |
| C76 | partial | Rules | get_object_without_nested_conditions exact for objects and lists at places below no function whose Fn::Ifs have a name and two branches; with conditions, complete and sound up to the possibility of unrelated outcomes, for at most four unrelated conditions. E2503 exact for listeners that are objects and for load balancers, with and without conditions; found in runs. Refuted: certificates and types given AWS::NoValue, listeners in conditions, misplaced attributes, other types, exceptions for texts and for properties that are gone. |
| C77 | partial | Rules | Exact for record sets of the usual shapes without conditions on the records of CNAMEs; counting of conditional CNAMEs proved separately. The IPv6 pattern is an argument. MX names, numbers, empty CAA tags and conditional record sets are refuted. |
| C78 | partial | Rules | E3041 and E3503 exactly for objects without conditions, both ways for conditional ones (up to four unrelated conditions), and in a run. The dotted boundary, the root zone and empty texts are refuted for E3041. |
| C79 | partial | Rules | Exact for both rules on templates of the usual shapes, and in a run. Different conditions that hold together, branches of one Fn::If, missing subnets, attributes as texts, removed VpcIds and conditional rules are refuted. |
| C80 | partial | Rules | Exact for definitions of the usual shape, and in a run; json.loads is an argument. States that do not exist, states inside of states and Map without Iterator are accepted, Parameters of Parallel are reported, and definitions that are no objects raise (refuted). |
| C81 | partial | Rules | Exact for templates whose database instances have properties that are objects, and in a run. Classes inside of Fn::If and engines in other letters are not looked at and an instance without properties raises (refuted). |
| C82 | partial | Rules | Exact without conditions and for deployments. Conditional keys of indexes and names that are chosen by Fn::If or are references are treated differently (refuted). How Python prints the sets is an argument. |
| C83 | partial | Rules | Exact without conditions. With conditions, references in branches that contradict one another are judged although no deployment uses them (refuted), and numbers given by references or as texts raise an exception (refuted). |
| C84 | partial | Rules | Exact for stages that have the expected shape. Stages without the expected members raise an exception or silently end the checks (refuted), AWS::NoValue is kept where there are no conditions (refuted), and places are shifted where stages are left out, which can crash the rule (refuted); so the theorem about runs is for stages without conditions. |
| C85 | partial | Rules | Exact for stages and actions that are objects of the expected shape and no Fn::If. With Fn::If the branches are treated as if all were deployed (refuted both ways), objects without the expected members raise exceptions or lose artifacts (refuted), and a line feed after a version is accepted (refuted and stated in the specification). |
| C86 | partial | Rules | Exact for properties that are no Fn::If themselves, whose Fn::Sub have a text, and below which conditions are at most four or related, outside of Globals. Counting references by name, quotes of text twice, AWS::NoValue as null, dropping text between placeholders, repeating the report for unrelated conditions and the exception on an empty Fn::Sub list are refuted. |
| C87 | partial | Rules | Exact for properties that are no text and whose dynamic references are closed in the text that opens them, for schemas with names and a validator that does not raise other exceptions; the validator (jsonschema) and the files are arguments. Independence of earlier templates is proved for the rule with the other rules unchanged. Names that contain one of the words, open references, schemas without names and folders written with a tilde are refuted. |
| C88 | partial | Rules | All is proved at the level of single steps except repair, which is refuted: the tag is saved before the body is read, so that a stop or a broken download leaves an old or cut specification that counts as the latest forever, or a cut memory that stops all updates. Independence of schedules needs the folder for the memory to exist, regions and names of memories to be distinct; without the folder a race is shown. Botocore downloads of one update are one step; the fallback loop and Python 2 are not modelled. |
| C89 | partial | Rules | Proved in full for the two passes; the order of folders is that of os.walk, and jsonpatch is an argument. Objects with a reference and values of their own keep the values written later, which is refuted as a witness; members that have the name of the word and types without enumerations stop the update. |
| C90 | partial | Rules | Proved, with idempotence for pages that have the line that opens the part on rules; without it the page grows, which is refuted. Also refuted: a rule missing from the sources leaves the page cut, descriptions of several lines break rows, a process stopped while writing leaves cut policies, known actions are listed twice. git grep, json and the texts of configuration values are arguments; line ends are taken as translated. |
| C91 | partial | Rules | Proved, with the order of findings on crashed rules (E0002) left out, for rules with different ids, and, for the independence of rules from each other, with E0002 selected. Without these the statement is refuted: the order of two crashes, or of two rules with one id, follows the order of loading, and with E0002 ignored one crash takes away the findings of all rules. Rules are functions of their configuration and the template: state that rules share outside of their objects is not modelled. |
| C92 | partial | Rules | Proved for files whose names have one dot and no package of the same name beside them; others are passed over or replaced, which is refuted with witnesses. Errors other than OSError and ImportError (a syntax error, an empty path) raise, which is refuted. The list of rules is right without mandatory and experimental rules; with mandatory ones it is refuted. Executing a module is an argument, so are importlib.import_module on names and what is a directory; links, case-insensitive file systems and Python 2 are not modelled. |
| C93 | proved | Rules | The 139 rules of the model are put together in Model/Standard.v; what they need from data files, the interpreter and libraries is one record, world. Findings of the decoder and of the serverless translator are assumed to have documented ids (E0000, E0001 in the code). |
| C94 | partial | Rules | Proved for 52 rules that look at the template as a whole, under the hypotheses the theorems on the single rules have. Missing: the rules that look at the properties of resources (their checks are characterised one by one elsewhere), templates with a transform, and the hypotheses. |
| C95 | partial | Rules | Proved for 29 rules that look at properties of resources and nested objects, under the hypotheses the theorems on the single rules have; templates without conditions and nulls meet most of them. Missing: the other rules of this kind, templates with a transform, and the hypotheses. |
| C96 | partial | Rules | Proved for 24 rules; nine of them without hypotheses on the template. Refuted: two arguments of Fn::Cidr, short lists of Fn::FindInMap, empty lists of Fn::Join and Fn::If, a null index of Fn::Select and a Fn::Sub of no text end rules in exceptions. Missing: when the rules on Fn::GetAtt, Fn::Join, Fn::Sub and Fn::Cidr end in exceptions, templates with a transform (in part C98; W1001 and E1029 are in C99), and the hypotheses. |
| C97 | partial | Rules | Proved for 28 rules; five of them without hypotheses on the template. Missing: shapes the rules do not expect (named by each theorem), templates with a transform (in part C98). W1001, E1029, E3012, E3037 and I3037 are in C99. |
| C98 | partial | Rules | The report, the contents and the places are proved for every translation. The claim on directives is refuted: if the translator makes a new object of a resource, its directive covers only the line of its name. Missing: templates with Globals for the theorems of C94 to C97, and the three rules that look at the template as written. |
| C99 | partial | Rules | Proved for E1029 and E3012 with any settings, W3037, E3037, I3037 and W1001. Missing: shapes the rules do not expect (named by each theorem) and templates with a transform. |
| C100 | proved | Rules | Exact for templates without a transform and Globals: 26 rules never crash, for each of the other 113 a template is given on which it does. without_data_refuted shows the proviso is needed. |
| C101 | partial |  | The meaning of well-formed command lines and the ways they end are exact. Partial because the code violates the wider expectation that every argument is obeyed or refused: unreadable settings end with status 0, templates after an option with several values or at a second place are not checked, unknown options are passed over, two kinds of arguments crash the parser. argparse of Python 3.8 is modelled, as far as this parser uses it. |
| C102 | partial | Rules | Exact for the configuration, the tasks and the composition with the run over the templates. Partial because the code violates what users are told: three documented settings are refused in configuration files, a missing --config-file is passed over, and python -m cfnlint ends with status 0 after some exceptions. The effects of override_spec, build_graph and registry_schemas on later templates are not part of this model. |
| C103 | partial | Rules | Exact for documents whose pattern lists are lists of texts and whose objects meet objects. Partial because the code violates the rest: errors of the operating system other than three are passed over in silence, a pattern that is not in a list is taken for its characters, and other documents end in exceptions. Patterns with characters special to regular expressions are not modelled. |
| C104 | partial | Rules | The code violates it. Proved: the extent of the violation for sixteen rules, as a statement about all runs, and one template on which all sixteen are silenced. Partial because the other rules are not covered. |
| C105 | proved | Rules | Composes the command line (C101), the configuration files (C102), the options (C08-C11) and the selection of rules (C01). selected_rules_report reduces the completeness of a run of the program to the runs of C94 to C99. |
| C106 | partial | Rules | The guarantee holds for sections and resources. For parameters, outputs, mappings and conditions it has exceptions, which are real: a section (or one member of Parameters or Outputs) that is a text or a list silences the rules about it, and clean_report_refuted gives a template where nearly every section is malformed and nothing is reported. An empty template is not checked at all (empty_template_unchecked, empty_template_refuted). |
| C107 | partial | Rules | Holds for dependencies, cycles and the form of condition functions. For Refs and conditions it has exceptions, which are real: a Parameters section that is a text or list, or an Outputs section that is an empty list or text, silences the rule (clean_references_refuted), and a Ref that only begins with a defined name passes (longer_names_refuted). |
| C108 | partial | Rules | Missing properties: without conditions on the objects (a custom resource whose Properties is a text is the exception). Values, sizes and groups: for each object that meets the conditions of Spec/Filled.v by itself. E3002: for templates on which that rule does not end in an exception. Other rules about properties (E3008, E3012, E3037, E3016 and the like) are not covered here. |
| C109 | partial | Rules | Proved for the listed rules (places only for E1015, E1016, E1018, E1020, E1021, E1023). Refuted for E8002: of several uses of an undefined condition only the last one is told. The other rules are not covered. |
| C110 | partial | Rules | Proved for the listed rules (places only for E1015, E1016, E1018, E1020, E1021, E1023), most of them for templates in which the sections or the described objects have the shape the rule expects. Rules about relations between parts (references, conditions, unused definitions) are outside it by nature. |
| C111 | partial | Rules | calm_templates_never_stop_partial covers all templates with sound settings; the refuted theorems show the templates that do stop the program (metadata that is no object, an ignore_checks entry that is no text, an unknown region). |
| C112 | proved | Rules | layout_does_not_matter for the shipped rules, blind_rules_layout for any rules that do not look at the layout. Templates that are not transformed; the decoding of the text is not part of this property. |
| C113 | partial | Rules | inputs_influence_their_readers for 22 inputs, with the report of failed rules (E0002) selected. The last sentence is refuted: E1015 takes the regions of the run for all there are (known_region_refuted). Missing: the resource specification itself and the library functions, which many rules read. |

## What is modelled

Python files under `src/cfnlint` with definitions in the model (within a file, only what the comments in the model
cite; simplifications are stated in those comments):

* `__init__.py`: Loading.v
* `__main__.py`: Core.v, Formatters.v, Overriding.v, Registry.v, Startup.v
* `conditions.py`: Conditions.v
* `config.py`: CommandLine.v, Config.v, Core.v, Startup.v
* `core.py`: Core.v, Formatters.v, Loading.v, Overriding.v, Registry.v, Rules.v, Standard.v, Startup.v
* `decode/__init__.py`: Core.v, Decode.v
* `decode/cfn_json.py`: Base.v, Json.v
* `decode/cfn_yaml.py`: Base.v, Yaml.v
* `decode/node.py`: Base.v, Locate.v, Node.v
* `formatters/__init__.py`: Formatters.v
* `graph.py`: Graph.v
* `helpers.py`: Functions.v, Helpers.v, Limits.v, Loading.v, Locate.v, Maintenance.v, Overriding.v, Policies.v, Registry.v, Route53.v, Rules.v, Shape.v, Startup.v, Translated.v, ValueRules.v
* `maintenance.py`: Documentation.v, Maintenance.v
* `rules/__init__.py`: Base.v, Documentation.v, Formatters.v, Loading.v, Rules.v, Standard.v
* `rules/common.py`: Limits.v
* `rules/conditions/And.py`: ConditionRules.v
* `rules/conditions/Configuration.py`: ConditionRules.v
* `rules/conditions/Equals.py`: ConditionRules.v
* `rules/conditions/Exists.py`: ConditionRules.v
* `rules/conditions/Not.py`: ConditionRules.v
* `rules/conditions/Or.py`: ConditionRules.v
* `rules/conditions/Used.py`: ConditionRules.v
* `rules/conditions/common.py`: ConditionRules.v
* `rules/functions/Base64.py`: Functions.v
* `rules/functions/Cidr.py`: Functions.v
* `rules/functions/DynamicReferenceSecureString.py`: ValueRules.v
* `rules/functions/FindInMap.py`: Functions.v
* `rules/functions/FindInMapKeys.py`: Functions.v
* `rules/functions/GetAtt.py`: Functions.v
* `rules/functions/GetAz.py`: Functions.v
* `rules/functions/If.py`: ConditionRules.v
* `rules/functions/ImportValue.py`: Functions.v
* `rules/functions/Join.py`: Functions.v
* `rules/functions/Not.py`: Functions.v
* `rules/functions/Ref.py`: Functions.v
* `rules/functions/RefExist.py`: Refs.v
* `rules/functions/RefInCondition.py`: Functions.v
* `rules/functions/RelationshipConditions.py`: Relationship.v
* `rules/functions/Select.py`: Functions.v
* `rules/functions/Split.py`: Functions.v
* `rules/functions/Sub.py`: Functions.v
* `rules/functions/SubNeeded.py`: SubNeeded.v
* `rules/functions/SubNotJoin.py`: Functions.v
* `rules/functions/SubParametersUsed.py`: Functions.v
* `rules/functions/SubUnneeded.py`: Functions.v
* `rules/mappings/ApproachingLimitAttributes.py`: Limits.v
* `rules/mappings/ApproachingLimitName.py`: Limits.v
* `rules/mappings/ApproachingLimitNumber.py`: Limits.v
* `rules/mappings/Configuration.py`: Shape.v
* `rules/mappings/KeyName.py`: Limits.v
* `rules/mappings/LimitAttributes.py`: Limits.v
* `rules/mappings/LimitName.py`: Limits.v
* `rules/mappings/LimitNumber.py`: Limits.v
* `rules/mappings/Name.py`: Limits.v
* `rules/mappings/Used.py`: Shape.v
* `rules/metadata/InterfaceConfiguration.py`: Interface.v
* `rules/metadata/InterfaceParameterExists.py`: Interface.v
* `rules/outputs/ApproachingLimitDescription.py`: Limits.v
* `rules/outputs/ApproachingLimitName.py`: Limits.v
* `rules/outputs/ApproachingLimitNumber.py`: Limits.v
* `rules/outputs/Configuration.py`: Shape.v
* `rules/outputs/Description.py`: Shape.v
* `rules/outputs/ImportValue.py`: ParameterValues.v
* `rules/outputs/LimitDescription.py`: Limits.v
* `rules/outputs/LimitName.py`: Limits.v
* `rules/outputs/LimitNumber.py`: Limits.v
* `rules/outputs/Name.py`: Limits.v
* `rules/outputs/Required.py`: Shape.v
* `rules/outputs/Value.py`: Policies.v
* `rules/parameters/AllowedPattern.py`: ParameterValues.v
* `rules/parameters/AllowedValue.py`: ParameterValues.v
* `rules/parameters/ApproachingLimitName.py`: Limits.v
* `rules/parameters/ApproachingLimitNumber.py`: Limits.v
* `rules/parameters/ApproachingLimitValue.py`: Limits.v
* `rules/parameters/Configuration.py`: Shape.v
* `rules/parameters/Default.py`: Parameters.v
* `rules/parameters/DefaultRef.py`: Shape.v
* `rules/parameters/LambdaMemorySize.py`: ParameterValues.v
* `rules/parameters/LimitName.py`: Limits.v
* `rules/parameters/LimitNumber.py`: Limits.v
* `rules/parameters/LimitValue.py`: Limits.v
* `rules/parameters/Name.py`: Limits.v
* `rules/parameters/Types.py`: Shape.v
* `rules/parameters/Used.py`: Parameters.v
* `rules/resources/ApproachingLimitName.py`: Limits.v
* `rules/resources/ApproachingLimitNumber.py`: Limits.v
* `rules/resources/BothUpdateReplacePolicyDeletionPolicyNeeded.py`: Policies.v
* `rules/resources/CircularDependency.py`: Graph.v
* `rules/resources/Configuration.py`: Shape.v
* `rules/resources/DeletionPolicy.py`: Policies.v
* `rules/resources/DependsOn.py`: Relationship.v
* `rules/resources/DependsOnObsolete.py`: Policies.v
* `rules/resources/LimitName.py`: Limits.v
* `rules/resources/LimitNumber.py`: Limits.v
* `rules/resources/Modules.py`: Policies.v
* `rules/resources/Name.py`: Limits.v
* `rules/resources/NoEcho.py`: Policies.v
* `rules/resources/ResourceSchema.py`: Registry.v
* `rules/resources/ServerlessTransform.py`: Policies.v
* `rules/resources/UniqueNames.py`: Policies.v
* `rules/resources/UpdateReplacePolicy.py`: Policies.v
* `rules/resources/UpdateReplacePolicyDeletionPolicyOnStatefulResourceTypes.py`: Policies.v
* `rules/resources/certificatemanager/DomainValidationOptions.py`: Domains.v
* `rules/resources/cloudfront/Aliases.py`: SubProps.v
* `rules/resources/codepipeline/CodepipelineStageActions.py`: Pipelines.v
* `rules/resources/codepipeline/CodepipelineStages.py`: Pipelines.v
* `rules/resources/dynamodb/AttributeMismatch.py`: DynamoDb.v
* `rules/resources/ecs/TaskDefinitionEssentialContainer.py`: SubProps.v
* `rules/resources/ectwo/Ebs.py`: SubProps.v
* `rules/resources/ectwo/RouteTableAssociation.py`: Ec2.v
* `rules/resources/ectwo/SecurityGroupIngress.py`: Ec2.v
* `rules/resources/elasticache/CacheClusterFailover.py`: ElastiCache.v
* `rules/resources/elb/Elb.py`: Elb.v
* `rules/resources/events/RuleScheduleExpression.py`: Events.v
* `rules/resources/events/RuleTargetsLimit.py`: Events.v
* `rules/resources/iam/Permissions.py`: Iam.v
* `rules/resources/iam/Policy.py`: Iam.v
* `rules/resources/iam/PolicyVersion.py`: Iam.v
* `rules/resources/iam/RefWithPath.py`: Iam.v
* `rules/resources/lmbd/DeprecatedRuntime.py`: Lambda.v
* `rules/resources/lmbd/DeprecatedRuntimeEnd.py`: Lambda.v
* `rules/resources/lmbd/DeprecatedRuntimeEol.py`: Lambda.v
* `rules/resources/lmbd/EventsLogGroupName.py`: Lambda.v
* `rules/resources/properties/AllowedPattern.py`: ValueRules.v
* `rules/resources/properties/AllowedValue.py`: ValueRules.v
* `rules/resources/properties/AtLeastOne.py`: PropertyRules.v
* `rules/resources/properties/AvailabilityZone.py`: ValueRules.v
* `rules/resources/properties/BasedOnValue.py`: BasedOn.v
* `rules/resources/properties/Exclusive.py`: PropertyRules.v
* `rules/resources/properties/ImageId.py`: ValueRules.v
* `rules/resources/properties/Inclusive.py`: PropertyRules.v
* `rules/resources/properties/JsonSize.py`: JsonSize.v
* `rules/resources/properties/ListDuplicates.py`: JsonDump.v
* `rules/resources/properties/ListDuplicatesAllowed.py`: PropertyRules.v
* `rules/resources/properties/ListSize.py`: PropertyRules.v
* `rules/resources/properties/NumberSize.py`: PropertyRules.v
* `rules/resources/properties/OnlyOne.py`: PropertyRules.v
* `rules/resources/properties/Password.py`: ValueRules.v
* `rules/resources/properties/Properties.py`: PropertyTree.v
* `rules/resources/properties/PropertiesTemplated.py`: ValueRules.v
* `rules/resources/properties/Required.py`: PropertyRules.v
* `rules/resources/properties/RequiredBasedOnValue.py`: BasedOn.v
* `rules/resources/properties/StringSize.py`: PropertyRules.v
* `rules/resources/properties/UnwantedBasedOnValue.py`: BasedOn.v
* `rules/resources/properties/ValuePrimitiveType.py`: ValueRules.v
* `rules/resources/properties/ValueRefGetAtt.py`: ValueRules.v
* `rules/resources/rds/InstanceSize.py`: Rds.v
* `rules/resources/route53/RecordSet.py`: Route53.v
* `rules/resources/route53/RecordSetName.py`: Domains.v
* `rules/resources/stepfunctions/StateMachine.py`: StateMachine.v
* `rules/resources/updatepolicy/Configuration.py`: UpdatePolicy.v
* `rules/templates/ApproachingLimitDescription.py`: Limits.v
* `rules/templates/ApproachingLimitSize.py`: Limits.v
* `rules/templates/Base.py`: Shape.v
* `rules/templates/Description.py`: Shape.v
* `rules/templates/LimitDescription.py`: Limits.v
* `rules/templates/LimitSize.py`: Limits.v
* `runner.py`: Runner.v, Standard.v, Translated.v
* `template.py`: ElastiCache.v, Elb.v, Functions.v, Helpers.v, Lambda.v, Limits.v, Locate.v, Parameters.v, Policies.v, PropertyRules.v, Rds.v, Refs.v, Registry.v, Relationship.v, Resolve.v, Rules.v, Runner.v, Search.v, Shape.v, Standard.v, SubProps.v, ValueRules.v
* `transform.py`: Core.v, Serverless.v, Translated.v

Not modelled:

* `decorators/refactored.py`: deprecation warnings
* `version.py`: a constant

Outside the repository, and therefore arguments of the model or out of it: PyYAML's scanner and parser (the YAML model
starts at composed nodes), the JSON float syntax, `re` on patterns taken from data, SHA-1, the SAM translator, networkx,
the file system and `glob`, jsonschema, the contents of the resource specifications, Python's recursion limit (except
where a theorem names it), characters above code point 255, infinite and not-a-number floats, object keys that are not
texts.

## Trusted base

* Coq 8.16.1's kernel, including its virtual machine (`vm_compute` in witnesses).
* `Print Assumptions` under every property theorem answers "Closed under the global context": the theorems use no axiom
  at all. The seven `Coq.ssr.ssrunder.Under_rel.*` entries that a library-wide listing shows are opaque module fields of
  Coq's own ssreflect files, loaded through the standard library; no theorem depends on them.
* The reading of the Python code recorded in the comments of `Model/`, and the specifications in `Spec/`.
* Nothing is extracted or executed outside Coq, and no plugin, functor, module type or axiom is defined.
