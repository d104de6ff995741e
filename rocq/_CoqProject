-Q theories Verif
theories/Model/Base.v
theories/Model/BasedOn.v
theories/Model/CommandLine.v
theories/Model/ConditionRules.v
theories/Model/Conditions.v
theories/Model/Config.v
theories/Model/Core.v
theories/Model/Decode.v
theories/Model/Documentation.v
theories/Model/Domains.v
theories/Model/DynamoDb.v
theories/Model/Ec2.v
theories/Model/ElastiCache.v
theories/Model/Elb.v
theories/Model/Events.v
theories/Model/Formatters.v
theories/Model/Functions.v
theories/Model/Graph.v
theories/Model/Helpers.v
theories/Model/Iam.v
theories/Model/Interface.v
theories/Model/Json.v
theories/Model/JsonDump.v
theories/Model/JsonSize.v
theories/Model/Lambda.v
theories/Model/Limits.v
theories/Model/Loading.v
theories/Model/Locate.v
theories/Model/Maintenance.v
theories/Model/Node.v
theories/Model/Overriding.v
theories/Model/ParameterValues.v
theories/Model/Parameters.v
theories/Model/Pipelines.v
theories/Model/Policies.v
theories/Model/PropertyRules.v
theories/Model/PropertyTree.v
theories/Model/Rds.v
theories/Model/Refs.v
theories/Model/Registry.v
theories/Model/Relationship.v
theories/Model/Resolve.v
theories/Model/Route53.v
theories/Model/Rules.v
theories/Model/Runner.v
theories/Model/Search.v
theories/Model/Serverless.v
theories/Model/Shape.v
theories/Model/Standard.v
theories/Model/Startup.v
theories/Model/StateMachine.v
theories/Model/SubNeeded.v
theories/Model/SubProps.v
theories/Model/Translated.v
theories/Model/UpdatePolicy.v
theories/Model/ValueRules.v
theories/Model/Yaml.v
theories/Proofs/ActionMain.v
theories/Proofs/ActionProofs.v
theories/Proofs/ActionWitness.v
theories/Proofs/AliasProofs.v
theories/Proofs/AttributeProofs.v
theories/Proofs/BaseFacts.v
theories/Proofs/BasedMain.v
theories/Proofs/BasedProofs.v
theories/Proofs/BasedWitness.v
theories/Proofs/BooleanProofs.v
theories/Proofs/BranchProofs.v
theories/Proofs/CallRun.v
theories/Proofs/CidrProofs.v
theories/Proofs/CleanProofs.v
theories/Proofs/CleanWitness.v
theories/Proofs/ClusterProofs.v
theories/Proofs/ClusterWitness.v
theories/Proofs/CodelocalProofs.v
theories/Proofs/CommandLineProofs.v
theories/Proofs/CommandLineWitness.v
theories/Proofs/ConditionMore.v
theories/Proofs/ConditionProofs.v
theories/Proofs/ConditionUseProofs.v
theories/Proofs/ConditionWitness.v
theories/Proofs/CrashProofs.v
theories/Proofs/CrashWitness.v
theories/Proofs/DecodeProofs.v
theories/Proofs/DeepProofs.v
theories/Proofs/DeviceProofs.v
theories/Proofs/DocumentationProofs.v
theories/Proofs/DocumentationWitness.v
theories/Proofs/DomainProofs.v
theories/Proofs/DomainWitness.v
theories/Proofs/DumpProofs.v
theories/Proofs/DuplicateProofs.v
theories/Proofs/DuplicateWitness.v
theories/Proofs/DynRefProofs.v
theories/Proofs/Ec2Proofs.v
theories/Proofs/Ec2Witness.v
theories/Proofs/ElbMain.v
theories/Proofs/ElbProofs.v
theories/Proofs/ElbWitness.v
theories/Proofs/EqualsProofs.v
theories/Proofs/EventProofs.v
theories/Proofs/EventWitness.v
theories/Proofs/ExpectedProofs.v
theories/Proofs/ExpectedWitness.v
theories/Proofs/FilesProofs.v
theories/Proofs/FilledKnown.v
theories/Proofs/FilledProofs.v
theories/Proofs/FilledWitness.v
theories/Proofs/FilterProofs.v
theories/Proofs/FormatProofs.v
theories/Proofs/FunctionProofs.v
theories/Proofs/FunctionWitness.v
theories/Proofs/GraphProofs.v
theories/Proofs/GroupMain.v
theories/Proofs/GroupProofs.v
theories/Proofs/GroupWitness.v
theories/Proofs/HistoryProofs.v
theories/Proofs/HistoryWitness.v
theories/Proofs/IamProofs.v
theories/Proofs/IamWitness.v
theories/Proofs/InputProofs.v
theories/Proofs/InputRules.v
theories/Proofs/InputWitness.v
theories/Proofs/InterfaceProofs.v
theories/Proofs/JoinProofs.v
theories/Proofs/JsonLexProofs.v
theories/Proofs/JsonProofs.v
theories/Proofs/JsonSizeMain.v
theories/Proofs/JsonSizeProofs.v
theories/Proofs/JsonSizeWitness.v
theories/Proofs/JsonWitness.v
theories/Proofs/LambdaProofs.v
theories/Proofs/LambdaWitness.v
theories/Proofs/LayoutProofs.v
theories/Proofs/LayoutWitness.v
theories/Proofs/LimitProofs.v
theories/Proofs/LoadingProofs.v
theories/Proofs/LoadingWitness.v
theories/Proofs/LocalityProofs.v
theories/Proofs/LocalityWitness.v
theories/Proofs/MaintenanceMain.v
theories/Proofs/MaintenanceProofs.v
theories/Proofs/MaintenanceWitness.v
theories/Proofs/MapProofs.v
theories/Proofs/MatchRun.v
theories/Proofs/NestedProofs.v
theories/Proofs/OptionProofs.v
theories/Proofs/OverridingProofs.v
theories/Proofs/OverridingWitness.v
theories/Proofs/ParameterProofs.v
theories/Proofs/ParameterValueProofs.v
theories/Proofs/ParameterValueWitness.v
theories/Proofs/PatchProofs.v
theories/Proofs/PatchWitness.v
theories/Proofs/PatternProofs.v
theories/Proofs/PermissionProofs.v
theories/Proofs/PermissionWitness.v
theories/Proofs/PipelineProofs.v
theories/Proofs/PipelineWitness.v
theories/Proofs/PlaceholderProofs.v
theories/Proofs/Places.v
theories/Proofs/PolicyProofs.v
theories/Proofs/PrimitiveProofs.v
theories/Proofs/PropertyRuleProofs.v
theories/Proofs/PropertyWitness.v
theories/Proofs/RdsProofs.v
theories/Proofs/RdsWitness.v
theories/Proofs/RecordMain.v
theories/Proofs/RecordProofs.v
theories/Proofs/RecordTexts.v
theories/Proofs/RecordWitness.v
theories/Proofs/RefProofs.v
theories/Proofs/RegistryMain.v
theories/Proofs/RegistryProofs.v
theories/Proofs/RegistryWitness.v
theories/Proofs/RelationProofs.v
theories/Proofs/RelationRule.v
theories/Proofs/ReorderedFacts.v
theories/Proofs/ReorderedProofs.v
theories/Proofs/ReorderedWitness.v
theories/Proofs/ReportProofs.v
theories/Proofs/ResolveProofs.v
theories/Proofs/ResolvingProofs.v
theories/Proofs/ResolvingWitness.v
theories/Proofs/RuleSetLint.v
theories/Proofs/RuleSetMain.v
theories/Proofs/RuleSetProofs.v
theories/Proofs/RuleSetWitness.v
theories/Proofs/RunProofs.v
theories/Proofs/Samples.v
theories/Proofs/Says.v
theories/Proofs/ScenarioMain.v
theories/Proofs/ScenarioProofs.v
theories/Proofs/ScenarioRule.v
theories/Proofs/SearchProofs.v
theories/Proofs/SearchWitness.v
theories/Proofs/SelectionProofs.v
theories/Proofs/SelectionWitness.v
theories/Proofs/SensitiveProofs.v
theories/Proofs/SetProofs.v
theories/Proofs/ShapeProofs.v
theories/Proofs/SilenceProofs.v
theories/Proofs/SilenceWitness.v
theories/Proofs/SizeProofs.v
theories/Proofs/SizeWitness.v
theories/Proofs/StageMain.v
theories/Proofs/StageProofs.v
theories/Proofs/StageWitness.v
theories/Proofs/StandardChecks.v
theories/Proofs/StandardConfigured.v
theories/Proofs/StandardConfiguredWitness.v
theories/Proofs/StandardDocuments.v
theories/Proofs/StandardFunctionWitness.v
theories/Proofs/StandardFunctions.v
theories/Proofs/StandardMain.v
theories/Proofs/StandardNested.v
theories/Proofs/StandardObjects.v
theories/Proofs/StandardPlaces.v
theories/Proofs/StandardProofs.v
theories/Proofs/StandardPropWitness.v
theories/Proofs/StandardProps.v
theories/Proofs/StandardRelations.v
theories/Proofs/StandardRules.v
theories/Proofs/StandardServiceWitness.v
theories/Proofs/StandardServices.v
theories/Proofs/StandardSettings.v
theories/Proofs/StandardSteady.v
theories/Proofs/StandardTemplates.v
theories/Proofs/StandardWitness.v
theories/Proofs/StartupProofs.v
theories/Proofs/StartupWitness.v
theories/Proofs/StateMachineProofs.v
theories/Proofs/StateMachineWitness.v
theories/Proofs/StopProofs.v
theories/Proofs/StopWitness.v
theories/Proofs/SubProofs.v
theories/Proofs/SubPropsProofs.v
theories/Proofs/SubPropsWitness.v
theories/Proofs/SubstitutionProofs.v
theories/Proofs/SubstitutionWitness.v
theories/Proofs/TableProofs.v
theories/Proofs/TableWitness.v
theories/Proofs/TargetProofs.v
theories/Proofs/TranslatedProofs.v
theories/Proofs/TranslatedWitness.v
theories/Proofs/UpdatePolicyProofs.v
theories/Proofs/UpdatePolicyWitness.v
theories/Proofs/ValueProofs.v
theories/Proofs/ValueRefProofs.v
theories/Proofs/ValueRun.v
theories/Proofs/ValueWitness.v
theories/Proofs/WalkProofs.v
theories/Proofs/WalkSound.v
theories/Proofs/WfDecide.v
theories/Proofs/YamlProofs.v
theories/Properties/C01_rule_selection.v
theories/Properties/C02_exit_code.v
theories/Properties/C03_duplicates.v
theories/Properties/C04_suppression.v
theories/Properties/C05_order.v
theories/Properties/C06_crashing_rule.v
theories/Properties/C07_history.v
theories/Properties/C08_precedence.v
theories/Properties/C09_merge_config.v
theories/Properties/C100_crashes.v
theories/Properties/C101_command_line.v
theories/Properties/C102_whole_program.v
theories/Properties/C103_overriding.v
theories/Properties/C104_silence.v
theories/Properties/C105_selection.v
theories/Properties/C106_clean.v
theories/Properties/C107_resolving.v
theories/Properties/C108_filled.v
theories/Properties/C109_reordered.v
theories/Properties/C10_rule_settings.v
theories/Properties/C110_locality.v
theories/Properties/C111_stops.v
theories/Properties/C112_layout.v
theories/Properties/C113_inputs.v
theories/Properties/C11_json.v
theories/Properties/C12_members.v
theories/Properties/C13_deep_search.v
theories/Properties/C14_positions.v
theories/Properties/C15_condition_values.v
theories/Properties/C16_scenarios_cover.v
theories/Properties/C17_scenarios_possible.v
theories/Properties/C18_resolving.v
theories/Properties/C19_branches.v
theories/Properties/C20_Circular.v
theories/Properties/C21_Refs.v
theories/Properties/C22_Conditions.v
theories/Properties/C23_Limits.v
theories/Properties/C24_Names.v
theories/Properties/C25_Defaults.v
theories/Properties/C26_UnusedParameters.v
theories/Properties/C27_required.v
theories/Properties/C28_groups.v
theories/Properties/C29_sizes.v
theories/Properties/C30_duplicates.v
theories/Properties/C31_ConditionFunctions.v
theories/Properties/C32_functions.v
theories/Properties/C33_conditional_references.v
theories/Properties/C34_SpecPatterns.v
theories/Properties/C35_reports.v
theories/Properties/C36_bool_compare.v
theories/Properties/C37_ResourcePolicies.v
theories/Properties/C38_DependsOn.v
theories/Properties/C39_Shape.v
theories/Properties/C40_serverless.v
theories/Properties/C41_every_template_reported.v
theories/Properties/C42_nested_objects.v
theories/Properties/C43_UnusedConditions.v
theories/Properties/C44_UnusedMappings.v
theories/Properties/C45_Protection.v
theories/Properties/C46_Names.v
theories/Properties/C47_Secrets.v
theories/Properties/C48_Modules.v
theories/Properties/C49_OutputLists.v
theories/Properties/C50_decode.v
theories/Properties/C51_files.v
theories/Properties/C52_attributes.v
theories/Properties/C53_substitution.v
theories/Properties/C54_sub_uses.v
theories/Properties/C55_map_keys.v
theories/Properties/C56_condition_refs.v
theories/Properties/C57_allowed_values.v
theories/Properties/C58_patterns.v
theories/Properties/C59_primitive_types.v
theories/Properties/C60_secure_references.v
theories/Properties/C61_value_references.v
theories/Properties/C62_hardcoded.v
theories/Properties/C63_passwords.v
theories/Properties/C64_image_ids.v
theories/Properties/C65_expected_objects.v
theories/Properties/C66_based_on_value.v
theories/Properties/C67_needed_substitution.v
theories/Properties/C68_interface_metadata.v
theories/Properties/C69_parameter_values.v
theories/Properties/C70_update_policies.v
theories/Properties/C71_policy_documents.v
theories/Properties/C72_permissions.v
theories/Properties/C73_events.v
theories/Properties/C74_lambda.v
theories/Properties/C75_sub_properties.v
theories/Properties/C76_nested_conditions.v
theories/Properties/C77_records.v
theories/Properties/C78_superdomains.v
theories/Properties/C79_subnets.v
theories/Properties/C80_state_machines.v
theories/Properties/C81_database_classes.v
theories/Properties/C82_tables.v
theories/Properties/C83_clusters.v
theories/Properties/C84_stages.v
theories/Properties/C85_actions.v
theories/Properties/C86_json_sizes.v
theories/Properties/C87_registry.v
theories/Properties/C88_updates.v
theories/Properties/C89_patches.v
theories/Properties/C90_documentation.v
theories/Properties/C91_rule_sets.v
theories/Properties/C92_loading.v
theories/Properties/C93_shipped_rules.v
theories/Properties/C94_shipped_reports.v
theories/Properties/C95_shipped_property_reports.v
theories/Properties/C96_shipped_function_reports.v
theories/Properties/C97_shipped_document_reports.v
theories/Properties/C97_shipped_service_reports.v
theories/Properties/C97_shipped_template_reports.v
theories/Properties/C98_translated_templates.v
theories/Properties/C99_configured_reports.v
theories/Spec/Attributes.v
theories/Spec/Based.v
theories/Spec/Booleans.v
theories/Spec/Branches.v
theories/Spec/Clean.v
theories/Spec/Clusters.v
theories/Spec/Codelocal.v
theories/Spec/CommandLine.v
theories/Spec/ConditionUse.v
theories/Spec/Configured.v
theories/Spec/Crashes.v
theories/Spec/Decoding.v
theories/Spec/Dependencies.v
theories/Spec/Documentation.v
theories/Spec/Domains.v
theories/Spec/Ec2.v
theories/Spec/Events.v
theories/Spec/Expected.v
theories/Spec/Faults.v
theories/Spec/Files.v
theories/Spec/Filled.v
theories/Spec/FunctionArguments.v
theories/Spec/Groups.v
theories/Spec/History.v
theories/Spec/Iam.v
theories/Spec/Inputs.v
theories/Spec/Interface.v
theories/Spec/JsonSize.v
theories/Spec/JsonText.v
theories/Spec/Lambda.v
theories/Spec/Layout.v
theories/Spec/Limited.v
theories/Spec/Loading.v
theories/Spec/Locality.v
theories/Spec/Maintenance.v
theories/Spec/Metadata.v
theories/Spec/Nested.v
theories/Spec/Options.v
theories/Spec/Overriding.v
theories/Spec/ParameterUse.v
theories/Spec/ParameterValues.v
theories/Spec/Paths.v
theories/Spec/Patterns.v
theories/Spec/Permissions.v
theories/Spec/Pipeline.v
theories/Spec/Pipelines.v
theories/Spec/Protect.v
theories/Spec/Rds.v
theories/Spec/Records.v
theories/Spec/References.v
theories/Spec/Registry.v
theories/Spec/Reordered.v
theories/Spec/Report.v
theories/Spec/Required.v
theories/Spec/Resolved.v
theories/Spec/Resolving.v
theories/Spec/RuleSets.v
theories/Spec/SameJson.v
theories/Spec/Selection.v
theories/Spec/Sensitive.v
theories/Spec/Shipped.v
theories/Spec/ShippedChecks.v
theories/Spec/ShippedPlaces.v
theories/Spec/Silence.v
theories/Spec/Sizes.v
theories/Spec/Startup.v
theories/Spec/StateMachine.v
theories/Spec/Stops.v
theories/Spec/SubProps.v
theories/Spec/Substitution.v
theories/Spec/Tables.v
theories/Spec/Translated.v
theories/Spec/Truth.v
theories/Spec/UpdatePolicy.v
theories/Spec/ValueRefs.v
theories/Spec/Values.v
theories/Spec/Walk.v
theories/Spec/YamlNodes.v
