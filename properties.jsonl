{"id": "C01", "title": "Rule selection", "statement": "A rule runs on a template if and only if: it is not experimental (or experimental rules were asked for), its id starts with one of the selected prefixes, and either its id starts with a mandatory prefix or no non-empty ignored prefix matches it. Warnings and errors are always among the selected prefixes, and mandatory checks cannot be switched off by any ignore list.", "quantifier": "every rule id, every include/ignore/mandatory list of prefixes, every experimental flag", "why_tests_cant": "The id and the three lists are arbitrary strings; tests pick a few combinations of an unbounded product.", "anchors": ["src/cfnlint/rules/__init__.py: CloudFormationLintRule.is_enabled, RulesCollection.is_rule_enabled, RulesCollection.register, RulesCollection.configure"]}
{"id": "C02", "title": "Exit code", "statement": "The process exit code computed from a list of findings has bit 2 set exactly when some finding is an error, bit 4 exactly when some is a warning, bit 8 exactly when some is informational, and no other bit; so it is 0 exactly when nothing of those three severities was found, and it does not depend on the order or repetition of the findings.", "quantifier": "every list of findings", "why_tests_cant": "Ranges over all multisets of findings of any length.", "anchors": ["src/cfnlint/core.py: get_exit_code", "src/cfnlint/rules/__init__.py: CloudFormationLintRule.severity"]}
{"id": "C03", "title": "Duplicate findings are reported once", "statement": "Within one template no two reported findings agree on line, column, rule id and message, every finding a rule produced (and no directive suppresses) is represented in the report, and the order of first occurrence is kept.", "quantifier": "every list of raw findings and every set of suppression directives", "why_tests_cant": "An invariant of a fold over lists of unbounded length.", "anchors": ["src/cfnlint/runner.py: Runner.run", "src/cfnlint/rules/__init__.py: Match.__eq__"]}
{"id": "C04", "title": "Suppression directives", "statement": "A finding whose rule is not named by any resource's ignore_checks is never suppressed, a finding of a mandatory rule is never suppressed, and a finding is suppressed only if it lies inside a resource that names its rule.", "quantifier": "every list of findings, every directive table, every source layout (positions)", "why_tests_cant": "Layouts (several resources on one line, any column) are unbounded; tests use conventional layouts.", "anchors": ["src/cfnlint/runner.py: Runner.run", "src/cfnlint/template.py: Template.get_directives"]}
{"id": "C05", "title": "Report order", "statement": "The findings of one template are printed exactly once each, ordered by file name, then line, then rule id, and findings that tie keep the order in which they were produced; the report of several files is the concatenation of the reports of the files.", "quantifier": "every list of findings", "why_tests_cant": "Sortedness, permutation and stability quantify over all lists.", "anchors": ["src/cfnlint/core.py: run_checks"]}
{"id": "C06", "title": "A crashing rule does not hide other rules", "statement": "When the check of one rule fails with an unexpected error, the findings of all other rules on that template are still reported, and the failure itself is reported as one E0002 finding.", "quantifier": "every set of rules, every subset of them that crashes, every rule selection", "why_tests_cant": "The crash can happen in any rule at any position with any selection of rules.", "anchors": ["src/cfnlint/rules/__init__.py: RulesCollection.run_check, RulesCollection.run", "src/cfnlint/core.py: run_checks"]}
{"id": "C07", "title": "Linting one template does not depend on what was linted before", "statement": "The findings for a template depend on that template and on the command line only, not on the templates linted earlier in the same process.", "quantifier": "every history of previously linted templates with any Metadata configuration", "why_tests_cant": "Quantifies over histories; tests start from a fresh process.", "anchors": ["src/cfnlint/core.py: get_template_rules, get_rules (cached rules)", "src/cfnlint/rules/__init__.py: CloudFormationLintRule.configure, RulesCollection.configure"]}
{"id": "C08", "title": "Configuration precedence", "statement": "For every option the value used is the command line's if given, otherwise the template Metadata's (when that option may be set there), otherwise the configuration file's (when it may be set there), otherwise the command line default.", "quantifier": "every combination of sources and option values", "why_tests_cant": "All combinations of present/absent/falsy values over three sources.", "anchors": ["src/cfnlint/config.py: ConfigMixIn._get_argument_value and the option properties"]}
{"id": "C09", "title": "Project configuration overrides user configuration", "statement": "Merging the user configuration file with the project one keeps every key of both, takes the project's value wherever both give one (lists included), merges nested objects recursively and invents nothing.", "quantifier": "every pair of configuration documents of any depth", "why_tests_cant": "Arbitrary nesting of documents.", "anchors": ["src/cfnlint/config.py: ConfigFileArgs.merge_config"]}
{"id": "C10", "title": "Rule configuration on the command line", "statement": "RuleId:key=value[,RuleId:key=value] arguments are recorded exactly: every key of every rule mentioned is stored with its value, later ones winning, and no other rule's configuration is touched.", "quantifier": "every list of arguments", "why_tests_cant": "Strings and lists of unbounded length, including values that contain the separators.", "anchors": ["src/cfnlint/config.py: RuleConfigurationAction"]}
{"id": "C11", "title": "JSON decoding", "statement": "Decoding the text of a JSON document yields exactly the value the document denotes: every value without repeated or null members round-trips through printing and decoding, for any amount of white space, nesting and string content.", "quantifier": "every JSON value and every admissible layout", "why_tests_cant": "Round trip over all values.", "anchors": ["src/cfnlint/decode/cfn_json.py: CfnJSONDecoder, JSONDecoder helpers"]}
{"id": "C12", "title": "Duplicate and null members are rejected", "statement": "A JSON or YAML mapping at any depth that repeats a key or has a null member is rejected with a decode error naming the key, and a mapping that does neither is accepted unchanged.", "quantifier": "every list of members", "why_tests_cant": "All key multiplicities and positions.", "anchors": ["src/cfnlint/decode/cfn_json.py: check_duplicates", "src/cfnlint/decode/cfn_yaml.py: NodeConstructor.construct_yaml_map"]}
{"id": "C13", "title": "Deep key search", "statement": "Searching the template for a key (used by every function rule) returns every place where that key occurs, each exactly once, with the exact path to it and the value found there, and nothing else.", "quantifier": "every template of any depth and every key", "why_tests_cant": "Arbitrary nesting of mappings and lists.", "anchors": ["src/cfnlint/template.py: Template.search_deep_keys, Template._search_deep_keys"]}
{"id": "C14", "title": "Findings point to the nearest existing key", "statement": "The position of a finding is the position of the longest prefix of its path that exists in the template; a finding is never attached to a position that is not the position of a key or list item on its path.", "quantifier": "every template, every path (also into missing parts)", "why_tests_cant": "Arbitrary paths and templates.", "anchors": ["src/cfnlint/template.py: Template.get_location_yaml", "src/cfnlint/rules/__init__.py: create_match_from_rulematch / matching"]}
{"id": "C15", "title": "Evaluation of one condition", "statement": "For every template whose conditions are built from Fn::And, Fn::Or, Fn::Not, Condition references and Fn::Equals comparing one function call with a literal, the truth value the linter computes for a condition under an assignment of values to the function calls is the one CloudFormation computes.", "quantifier": "every acyclic set of conditions and every assignment", "why_tests_cant": "Conditions nest arbitrarily and refer to each other.", "anchors": ["src/cfnlint/conditions.py: Condition.test, Condition.process_condition, Equals.test"]}
{"id": "C16", "title": "Condition scenarios cover every deployment", "statement": "The scenarios enumerated for a set of conditions include the truth values that every possible choice of parameter values produces, so a problem that occurs in some deployment is looked at.", "quantifier": "every set of conditions, every parameter assignment", "why_tests_cant": "Infinitely many parameter values and unboundedly many conditions.", "anchors": ["src/cfnlint/conditions.py: Conditions.get_scenarios, multiply_conditions"]}
{"id": "C17", "title": "Condition scenarios are all possible", "statement": "Every scenario enumerated for a set of conditions can be produced by some choice of parameter values, so no problem is reported for an impossible combination.", "quantifier": "every set of conditions", "why_tests_cant": "Existence of a witness for each of an exponential number of scenarios.", "anchors": ["src/cfnlint/conditions.py: Conditions.get_scenarios"]}
{"id": "C18", "title": "Resolving conditions in an object", "statement": "Resolving an object for a scenario replaces each top-level Fn::If whose condition the scenario decides by the chosen branch (through nested ifs), drops members and list items that become AWS::NoValue, and leaves everything else unchanged.", "quantifier": "every object and every scenario", "why_tests_cant": "Arbitrary nesting of Fn::If.", "anchors": ["src/cfnlint/template.py: Template.get_value_from_scenario, get_object_without_conditions"]}
{"id": "C19", "title": "Branch enumeration", "statement": "Enumerating the values of an object that may be wrapped in nested Fn::If yields every leaf value that some choice of branches produces, each with its exact path, never an AWS::NoValue reference, and nothing else.", "quantifier": "every nesting of Fn::If in objects and lists", "why_tests_cant": "Arbitrary nesting depth.", "anchors": ["src/cfnlint/decode/node.py: dict_node.items_safe, dict_node.get_safe, dict_node.clean, list_node.items_safe", "src/cfnlint/template.py: get_condition_values, get_values"]}
{"id": "C20", "title": "Circular dependencies", "statement": "A template is reported as having a circular dependency if and only if its resources' DependsOn, Ref, Fn::GetAtt and Fn::Sub references form a cycle, and every reported pair is an actual dependency on a cycle.", "quantifier": "every template with any number of resources and references", "why_tests_cant": "Reachability over unbounded graphs.", "anchors": ["src/cfnlint/graph.py: Graph, Graph.get_cycles", "src/cfnlint/rules/resources/CircularDependency.py"]}
{"id": "C21", "title": "References to undefined names are reported", "statement": "A Ref whose target is no parameter, resource, module output or pseudo parameter is reported, and a Ref to a defined name is not.", "quantifier": "every template and every referenced name", "why_tests_cant": "Names are arbitrary strings, including extensions of defined names.", "anchors": ["src/cfnlint/rules/functions/RefExist.py", "src/cfnlint/template.py: Template.get_valid_refs", "src/cfnlint/helpers.py: RegexDict"]}
{"id": "C22", "title": "Undefined conditions are reported", "statement": "Every condition name used in Fn::If, in a Condition reference, on a resource or on an output that is not defined in Conditions is reported, and no defined condition is.", "quantifier": "every template", "why_tests_cant": "All positions and depths of use.", "anchors": ["src/cfnlint/rules/conditions/Exists.py"]}
{"id": "C23", "title": "Limits", "statement": "For every limited quantity (names, counts, values, descriptions) an error is reported exactly when it exceeds the limit and an informational finding exactly when it lies above 90% of the limit without exceeding it; the two are never reported together for the same item.", "quantifier": "every template, every limit", "why_tests_cant": "All lengths and counts around the boundaries, for every section.", "anchors": ["src/cfnlint/rules/common.py", "src/cfnlint/helpers.py: LIMITS", "src/cfnlint/rules/*/LimitName.py, LimitNumber.py, LimitAttributes.py, LimitValue.py, LimitDescription.py"]}
{"id": "C24", "title": "Logical names are alphanumeric", "statement": "A logical name of a resource, parameter, output or mapping, and a second-level key of a mapping, is reported exactly when it contains a character other than an ASCII letter or digit.", "quantifier": "every name", "why_tests_cant": "All strings.", "anchors": ["src/cfnlint/rules/common.py: alphanumeric_name", "src/cfnlint/helpers.py: REGEX_ALPHANUMERIC"]}
{"id": "C25", "title": "Parameter defaults respect their constraints", "statement": "A parameter default outside its allowed values, its MinValue/MaxValue or its MinLength/MaxLength is reported, and one that respects them is not.", "quantifier": "every parameter definition", "why_tests_cant": "All integer bounds (including 0 and negative ones) and lengths.", "anchors": ["src/cfnlint/rules/parameters/Default.py"]}
{"id": "C26", "title": "Unused parameters", "statement": "A parameter is reported as unused exactly when no Ref and no Fn::Sub placeholder anywhere in the original template names it.", "quantifier": "every template", "why_tests_cant": "All depths and Sub strings.", "anchors": ["src/cfnlint/rules/parameters/Used.py", "src/cfnlint/template.py: get_sub_parameters"]}
{"id": "C27", "title": "Required properties", "statement": "For every choice of Fn::If branches, each property the resource specification requires and the chosen object lacks is reported at that object, and nothing else is.", "quantifier": "every specification and every properties object", "why_tests_cant": "Arbitrary nesting of Fn::If and any specification.", "anchors": ["src/cfnlint/rules/resources/properties/Required.py", "src/cfnlint/rules/__init__.py: RulesCollection.run_resource, resource_property"]}
{"id": "C28", "title": "Mutually exclusive and jointly required properties", "statement": "For each way of resolving conditions, a properties object is reported exactly when it violates the specification's exclusive / inclusive / only-one / at-least-one groups.", "quantifier": "every specification and every object, every scenario", "why_tests_cant": "Any number of groups, any nesting of conditions.", "anchors": ["src/cfnlint/rules/resources/properties/{Exclusive,Inclusive,OnlyOne,AtLeastOne}.py"]}
{"id": "C29", "title": "List, string and number sizes", "statement": "A list, string or number value is reported exactly when it lies outside the bounds the specification gives.", "quantifier": "every value and every pair of bounds", "why_tests_cant": "All bounds including zero.", "anchors": ["src/cfnlint/rules/resources/properties/{ListSize,StringSize,NumberSize}.py"]}
{"id": "C30", "title": "Duplicate list items", "statement": "A list item is reported as a duplicate exactly when it is equal (as JSON, ignoring member order) to an earlier item of the list.", "quantifier": "every list", "why_tests_cant": "Lists of any length of values of any depth.", "anchors": ["src/cfnlint/rules/resources/properties/{ListDuplicates,ListDuplicatesAllowed}.py"]}
{"id": "C31", "title": "Condition functions are well formed", "statement": "Fn::And/Or take 2 to 10 conditions, Fn::Not exactly one, Fn::Equals two operands, Fn::If a name and two values; a template is reported exactly when one of these is violated.", "quantifier": "every template", "why_tests_cant": "Arity and shape at any depth.", "anchors": ["src/cfnlint/rules/conditions/{And,Or,Not,Condition,Equals}.py", "src/cfnlint/rules/functions/If.py"]}
{"id": "C32", "title": "Intrinsic function arguments", "statement": "A well formed Fn::Cidr, Fn::FindInMap, Fn::Select, Fn::Join, Fn::Split, Fn::Base64, Fn::GetAZs or Fn::ImportValue is not reported and a malformed one is.", "quantifier": "every argument value", "why_tests_cant": "All argument shapes.", "anchors": ["src/cfnlint/rules/functions/*.py"]}
{"id": "C33", "title": "References to conditional resources", "statement": "A reference from a place that can exist in a deployment in which the referenced resource does not is reported, and a reference that is always safe is not.", "quantifier": "every template and every condition assignment", "why_tests_cant": "All nestings of conditions on both ends.", "anchors": ["src/cfnlint/template.py: is_resource_available, get_conditions_from_path", "src/cfnlint/rules/functions/RelationshipConditions.py", "src/cfnlint/rules/resources/DependsOn.py"]}
{"id": "C34", "title": "Specification include/exclude patterns", "statement": "After an override, a resource type is available exactly when it is listed as included (or there is no include list) and not excluded, where * in a pattern stands for any text.", "quantifier": "every pattern list and every resource type name", "why_tests_cant": "Wildcard matching over all strings.", "anchors": ["src/cfnlint/helpers.py: override_specs, set_specs, merge_spec"]}
{"id": "C35", "title": "Text reports are lossless", "statement": "Every finding of a report appears in the formatted output exactly once and in order; the machine-readable line format has one line per finding, whatever the message contains, from which position, rule id and severity can be recovered.", "quantifier": "every list of findings and every message text", "why_tests_cant": "Messages are arbitrary strings with newlines and separators.", "anchors": ["src/cfnlint/formatters/__init__.py"]}
{"id": "C36", "title": "Boolean and string conversions", "statement": "A boolean compares with an expected boolean by equality; a string compares equal to True exactly when it spells true in any case and equal to False exactly when it does not spell true; a value that is neither a boolean nor a string compares equal to neither.", "quantifier": "every value", "why_tests_cant": "All strings and cases.", "anchors": ["src/cfnlint/helpers.py: bool_compare"]}
{"id": "C37", "title": "Resource policies", "statement": "DeletionPolicy and UpdateReplacePolicy are reported exactly when not one of Delete, Retain, Snapshot, or when Snapshot is used on a type that does not support it.", "quantifier": "every resource", "why_tests_cant": "All types and values.", "anchors": ["src/cfnlint/rules/resources/{DeletionPolicy,UpdateReplacePolicy}.py"]}
{"id": "C38", "title": "Resource references in DependsOn", "statement": "A DependsOn entry is reported exactly when it does not name a resource of the template, and a redundant DependsOn is reported exactly when the resource already references its target.", "quantifier": "every template", "why_tests_cant": "All resources, targets and reference forms.", "anchors": ["src/cfnlint/rules/resources/{DependsOn,DependsOnObsolete}.py"]}
{"id": "C39", "title": "Template and section shape", "statement": "Unknown top-level sections, a missing Resources section, parameter/output/mapping attributes outside the documented ones, and outputs without Value are each reported, and nothing else is.", "quantifier": "every template", "why_tests_cant": "All key sets.", "anchors": ["src/cfnlint/rules/templates/Base.py", "src/cfnlint/rules/{outputs,parameters,mappings,resources}/Configuration.py", "src/cfnlint/rules/outputs/Required.py"]}
{"id": "C40", "title": "Local code locations in serverless templates", "statement": "Before the serverless transform, local code locations are replaced by S3 locations and locations that already are S3 locations are left alone; doing it twice is the same as doing it once, and nothing else in the template changes.", "quantifier": "every serverless template", "why_tests_cant": "All values of the location properties.", "anchors": ["src/cfnlint/transform.py: Transform._replace_local_codeuri, _update_to_s3_uri, is_s3_uri"]}
{"id": "C41", "title": "Every decodable template gets its report", "statement": "Linting a template that decodes ends with a report that holds every finding its rules produced and no directive suppresses; no shape of template makes findings disappear or ends the process with an exception.", "quantifier": "all decoded templates, rule sets and option values", "why_tests_cant": "The shapes of Metadata that lose the report are outside the fixtures; the claim is about all of them.", "anchors": ["src/cfnlint/core.py:run_checks", "src/cfnlint/core.py:get_template_rules", "src/cfnlint/runner.py:Runner.run", "src/cfnlint/template.py:Template.get_directives", "src/cfnlint/config.py:TemplateArgs.set_template_args"]}
{"id": "C42", "title": "Every nested property object is checked", "statement": "For every resource, every choice of Fn::If branches and every object the resource specification says is nested in its properties, at any depth, each enabled rule for that property type is run on it and its outcome is in the findings.", "quantifier": "all resource specifications, templates, nesting depths and rules", "why_tests_cant": "Depth and shape of properties and of the specification are unbounded.", "anchors": ["src/cfnlint/rules/__init__.py:RulesCollection.resource_property", "src/cfnlint/rules/__init__.py:RulesCollection.run_resource"]}
{"id": "C43", "title": "Unused conditions are reported", "statement": "A condition defined in Conditions is reported as unused exactly when no Fn::If, resource, output or other condition names it.", "quantifier": "every template", "why_tests_cant": "All positions and depths of use.", "anchors": ["src/cfnlint/rules/conditions/Used.py"]}
{"id": "C44", "title": "Unused mappings", "statement": "A mapping is reported as unused exactly when no Fn::FindInMap in the original template names it; when some Fn::FindInMap computes the mapping's name, none is reported.", "quantifier": "every template", "why_tests_cant": "Every place a Fn::FindInMap may be nested in.", "anchors": ["src/cfnlint/rules/mappings/Used.py"]}
{"id": "C45", "title": "Protection from deletion", "statement": "A resource other than a Lambda version is reported exactly when it has one of DeletionPolicy and UpdateReplacePolicy with a value other than Delete and lacks the other; a resource of a stateful type is reported exactly when it lacks one of them.", "quantifier": "every template", "why_tests_cant": "All types, values and combinations.", "anchors": ["src/cfnlint/rules/resources/{BothUpdateReplacePolicyDeletionPolicyNeeded,UpdateReplacePolicyDeletionPolicyOnStatefulResourceTypes}.py"]}
{"id": "C46", "title": "Names and transform", "statement": "A resource is reported exactly when a parameter has the same name; a template without the serverless transform is reported exactly when it has a serverless resource.", "quantifier": "every template", "why_tests_cant": "All names and positions.", "anchors": ["src/cfnlint/rules/resources/{UniqueNames,ServerlessTransform}.py"]}
{"id": "C47", "title": "Hidden parameters in Metadata", "statement": "A reference to a NoEcho parameter in a resource's Metadata is reported at every depth, and nothing else is.", "quantifier": "every template", "why_tests_cant": "Every nesting of references and every spelling of NoEcho.", "anchors": ["src/cfnlint/rules/resources/NoEcho.py"]}
{"id": "C48", "title": "Modules", "statement": "Tags, CreationPolicy, UpdatePolicy and the reserved Metadata key are reported exactly in module resources.", "quantifier": "every template", "why_tests_cant": "All resources and types.", "anchors": ["src/cfnlint/rules/resources/Modules.py"]}
{"id": "C49", "title": "Lists as values of outputs", "statement": "A list parameter or list attribute is reported in an output's Value exactly when no function turns it into a text.", "quantifier": "every template", "why_tests_cant": "Every nesting of functions.", "anchors": ["src/cfnlint/rules/outputs/Value.py"]}
{"id": "C50", "title": "Every file is decoded or reported", "statement": "Decoding any file, whatever it contains and whether or not it can be read, ends with either a template that is an object and no finding, or exactly one E0000 finding that names the file; the template is what the text means as YAML or, where YAML has no tabs and escapes for it, as JSON, and a repeated key or null is reported at its own position.", "quantifier": "all file contents, read errors and outcomes of the YAML parser", "why_tests_cant": "The exceptions that escape depend on combinations of keys, tags and scalars no fixture has.", "anchors": ["src/cfnlint/decode/__init__.py: decode", "src/cfnlint/decode/cfn_yaml.py: NodeConstructor, multi_constructor", "src/cfnlint/decode/cfn_json.py: CfnJSONDecoder"]}
{"id": "C51", "title": "Which files are linted", "statement": "The files linted are exactly those the given names and patterns stand for, less those the ignored names and patterns stand for, in order of name; a name that matches nothing stands for itself; names given with -t replace the positional ones and both replace what configuration files say.", "quantifier": "all option values from command line, Metadata and configuration files, and every state of the file system seen by glob", "why_tests_cant": "Combinations of sources, patterns and overlapping ignores.", "anchors": ["src/cfnlint/config.py: ConfigMixIn.templates, ignore_templates, _glob_filenames"]}
{"id": "C52", "title": "Attributes of resources", "statement": "A Fn::GetAtt is reported exactly when it does not name a resource of the template together with an attribute its type has; nested stacks, custom resources, serverless resources and modules have any attribute, and maps have any key.", "quantifier": "all templates, all argument shapes, all resource specifications", "why_tests_cant": "Names with several dots, lists with calls in them and types without attributes combine freely.", "anchors": ["src/cfnlint/rules/functions/GetAtt.py: GetAtt", "src/cfnlint/template.py: get_valid_getatts"]}
{"id": "C53", "title": "Variables of Fn::Sub", "statement": "Every variable in the text of a Fn::Sub is a pseudo parameter, a resource, a parameter that is no list, an attribute that is no list or a variable of its own; every Fn::Sub for which this fails, or whose arguments are malformed, is reported, and no other.", "quantifier": "all templates, all Fn::Sub arguments, all resource specifications", "why_tests_cant": "Any text can hold any number of placeholders.", "anchors": ["src/cfnlint/rules/functions/Sub.py: Sub", "src/cfnlint/template.py: get_valid_getatts"]}
{"id": "C54", "title": "Needless variables and needless Fn::Sub", "statement": "A variable given to a Fn::Sub is reported exactly when the text does not use it, and a Fn::Sub is reported exactly when its text has no variable.", "quantifier": "all templates, and all texts in which every placeholder is closed and not empty", "why_tests_cant": "Any text can hold any number of placeholders, escaped or with white space.", "anchors": ["src/cfnlint/rules/functions/SubParametersUsed.py", "src/cfnlint/rules/functions/SubUnneeded.py"]}
{"id": "C55", "title": "Keys of maps", "statement": "A Fn::FindInMap whose map lacks the key it names is reported, also when only the second of its keys is known, and no other is.", "quantifier": "all templates with maps of objects", "why_tests_cant": "Maps of any size, with known and computed names in any position.", "anchors": ["src/cfnlint/rules/functions/FindInMapKeys.py"]}
{"id": "C56", "title": "Resources in conditions", "statement": "A Ref to a resource is reported exactly when it is anywhere in the Conditions.", "quantifier": "all templates", "why_tests_cant": "Refs nested at any depth.", "anchors": ["src/cfnlint/rules/functions/RefInCondition.py"]}
{"id": "C57", "title": "Allowed values", "statement": "A value given for a property whose specification lists its allowed values is reported exactly when it is none of them, at its own place and with the list; calls of intrinsic functions and dynamic references are not judged.", "quantifier": "all properties, specifications and nestings of conditions and lists", "why_tests_cant": "Every value at every nesting of Fn::If and lists, against any list of allowed values.", "anchors": ["src/cfnlint/rules/resources/properties/AllowedValue.py", "src/cfnlint/template.py:check_value"]}
{"id": "C58", "title": "Patterns of values", "statement": "A value given for a property whose specification has a pattern is reported exactly when it does not match the pattern and contains no dynamic reference.", "quantifier": "all properties, specifications, patterns and nestings of conditions and lists", "why_tests_cant": "Every value and pattern.", "anchors": ["src/cfnlint/rules/resources/properties/AllowedPattern.py"]}
{"id": "C59", "title": "Primitive types", "statement": "A value of a property of primitive type, or of a member of such a map, is reported exactly when it is not of that type; unless types are strict, also values that convert to the type are accepted.", "quantifier": "all properties, types, values and both settings of strict", "why_tests_cant": "The product of types, kinds of values, conversions and places where strictness is switched off.", "anchors": ["src/cfnlint/rules/resources/properties/ValuePrimitiveType.py"]}
{"id": "C60", "title": "Secure references", "statement": "A secure dynamic reference in a property, a member of a map or a Fn::Sub is reported exactly when the property does not take one.", "quantifier": "all properties and texts", "why_tests_cant": "Texts with references anywhere, names of any length.", "anchors": ["src/cfnlint/rules/functions/DynamicReferenceSecureString.py", "src/cfnlint/helpers.py:REGEX_DYN_REF_SSM_SECURE"]}
{"id": "C61", "title": "What properties refer to", "statement": "A Ref or Fn::GetAtt that gives the value of a property, or of an item of a list, is reported exactly when the specification of the property (or of its items) does not allow the parameter, resource or attribute it names.", "quantifier": "all templates, properties, specifications, nestings of conditions and lists", "why_tests_cant": "Whether the restriction of the list or of the item applies depends on the place of the call, at any nesting.", "anchors": ["src/cfnlint/rules/resources/properties/ValueRefGetAtt.py"]}
{"id": "C62", "title": "Values that belong to one place", "statement": "Exactly the availability zones that are written into the template, and the locations of code that are plain texts, are reported.", "quantifier": "all properties and nestings of conditions and lists", "why_tests_cant": "Values at every nesting of conditions and lists.", "anchors": ["src/cfnlint/rules/resources/properties/AvailabilityZone.py", "src/cfnlint/rules/resources/properties/PropertiesTemplated.py"]}
{"id": "C63", "title": "Passwords", "statement": "A password anywhere in the properties of a resource is reported exactly when it is written into the template, comes by a reference that is not secure, is an object with several members, or comes from a parameter that is shown.", "quantifier": "all templates", "why_tests_cant": "Passwords at any depth, references anywhere in the text.", "anchors": ["src/cfnlint/rules/resources/properties/Password.py"]}
{"id": "C64", "title": "Image ids", "statement": "An ImageId anywhere in the resources is reported exactly when it is an object with several members or refers to something whose type is not that of an image.", "quantifier": "all templates", "why_tests_cant": "ImageIds at any depth, names that are prefixes of each other.", "anchors": ["src/cfnlint/rules/resources/properties/ImageId.py", "src/cfnlint/template.py:get_valid_refs"]}
{"id": "C65", "title": "The specification's objects and lists are enforced everywhere", "statement": "For every resource whose type is described, the check of resource properties reports exactly the places where something else stands than the specification expects: unknown properties, texts for objects, objects or scalars for lists, lists or unknown functions for single values, references to parameters that are no lists; it looks through nested property types, list items and the branches of conditions to any depth, and it answers instead of failing.", "quantifier": "every template, every specification, every depth of nesting of property types, lists and conditions", "why_tests_cant": "the check is a recursion over two unbounded trees at once, the template and the specification; tests try a few shapes", "anchors": ["src/cfnlint/rules/resources/properties/Properties.py: Properties"]}
{"id": "C66", "title": "Properties that depend on the value of another are required or forbidden exactly then", "statement": "When the specification says that a value of one property of an object needs, or excludes, other properties, the check reports exactly the needed properties that are missing and the excluded ones that are there, under every choice of the conditions that decide about the properties, on resources and on nested property types; a value is a text matching the given pattern, a reference to a resource of a given type or an attribute of one.", "quantifier": "every object, every table of such dependencies, every combination of conditions the object mentions", "why_tests_cant": "the number of combinations of conditions, properties and table entries is unbounded; tests try a handful of templates", "anchors": ["src/cfnlint/rules/resources/properties/BasedOnValue.py: BasedOnValue", "src/cfnlint/rules/resources/properties/RequiredBasedOnValue.py: RequiredBasedOnValue", "src/cfnlint/rules/resources/properties/UnwantedBasedOnValue.py: UnwantedBasedOnValue", "src/cfnlint/template.py: get_object_without_conditions"]}
{"id": "C67", "title": "Variables that nothing substitutes are reported", "statement": "Every ${variable} in a text of the template is reported, at the place of the text, unless the text is below a Fn::Sub, in the Parameters section, below a key whose texts are free-form, is a policy variable for a Resource, a stage variable of an API, is defined in the DefinitionSubstitutions of its state machine, or matches the user's pattern; nothing else is reported, and the rule always answers.", "quantifier": "every template, every text at every depth, every position of a variable in a text, every configuration of the rule", "why_tests_cant": "the texts, their depth and the keys above them are unbounded; tests try a few templates", "anchors": ["src/cfnlint/rules/functions/SubNeeded.py: SubNeeded.match, _match_values, match_values"]}
{"id": "C68", "title": "The interface in the metadata is checked against the template", "statement": "In the section AWS::CloudFormation::Interface of the metadata, every key that does not belong there or in one of its groups is reported at its place, every parameter named in a group or labelled is a parameter of the template or reported at its place, and nothing else is reported.", "quantifier": "every template, every number of groups, parameters and labels", "why_tests_cant": "groups, parameters and labels are unbounded in number and any name may be given; tests try two templates", "anchors": ["src/cfnlint/rules/metadata/InterfaceConfiguration.py: InterfaceConfiguration.match", "src/cfnlint/rules/metadata/InterfaceParameterExists.py: InterfaceParameterExists.match"]}
{"id": "C69", "title": "Parameters are judged by the properties they are given to", "statement": "A parameter that a property refers to has to satisfy the property: each value its definition allows, and its default, is one that the property allows or matches the pattern of the property, or else it is reported at its place in the parameter, unless conditions decide about the property; a parameter for the memory size of a function is reported unless it has bounds or allowed values; an output whose value is imported from another output is reported. Nothing else is reported.", "quantifier": "every template, every resource type and nested property type of the specification, every parameter, every choice of conditions", "why_tests_cant": "any property of hundreds of types can refer to any parameter, below any number of conditions; tests try a few templates", "anchors": ["src/cfnlint/rules/parameters/AllowedValue.py: AllowedValue.check_value_ref", "src/cfnlint/rules/parameters/AllowedPattern.py: AllowedPattern.check_value_ref", "src/cfnlint/rules/parameters/LambdaMemorySize.py: LambdaMemorySize.check_lambda_memory_size_ref", "src/cfnlint/rules/outputs/ImportValue.py: ImportValue.match"]}
{"id": "C70", "title": "Update policies are those the resource can have", "statement": "Every update policy of a resource is one that exists and that its type can have; it is an object with only the attributes of that policy, each of its kind, or a switch; in whatever branch of conditions it stands. Each deviation is reported at its place, and nothing else is reported.", "quantifier": "every template, every resource, every policy and attribute, every nesting of conditions", "why_tests_cant": "policies, attributes and values can be combined freely and put below any number of conditions; tests try two templates", "anchors": ["src/cfnlint/rules/resources/updatepolicy/Configuration.py: Configuration.match, Configuration.check_update_policy, Configuration.check_attributes, Configuration.check_value"]}
{"id": "C71", "title": "Policy documents are well formed and of the current version", "statement": "Every policy document a resource gives, as an object or as JSON, has only the keys of a document, one of the two versions, and statements that have an effect that allows or denies, an action, a resource unless it belongs to a repository, and a principal exactly when it is about the resource itself. Each deviation in any branch of conditions is reported at its place and nothing else is. Documents of the older version are pointed out.", "quantifier": "every resource, every document, every number of statements, every nesting of conditions", "why_tests_cant": "documents can be given by different properties, as objects or texts, with any number of statements below any conditions; tests try a few templates", "anchors": ["src/cfnlint/rules/resources/iam/Policy.py: Policy.check_policy_document, Policy._check_policy_statement, Policy.match_resource_properties", "src/cfnlint/rules/resources/iam/PolicyVersion.py: PolicyVersion.check_policy_document, PolicyVersion.match_resource_properties"]}
{"id": "C72", "title": "Policies name actions that exist", "statement": "Every action a policy document allows, denies or excepts is a star or names a known service and a permission of it, in any case of letters, where a star stands for any text; each other one is reported at its statement, and nothing else is. A service role given by a Ref leads to a role whose path is the root, and each other is reported.", "quantifier": "every list of services, every document and statement, every action", "why_tests_cant": "actions are texts of any form against a long list of services; tests try a few documents", "anchors": ["src/cfnlint/rules/resources/iam/Permissions.py: Permissions.load_service_map, Permissions.check_policy_document, Permissions.check_permissions, Permissions.get_actions", "src/cfnlint/rules/resources/iam/RefWithPath.py: RefWithPath.check_ref, RefWithPath.match_resource_properties"]}
{"id": "C73", "title": "Event rules have a schedule that can be read and at most five targets", "statement": "The schedule of an event rule, in whatever branch of conditions, is a rate of a whole number and a unit, or a cron of six fields that gives at most one of the two days; every other one is reported at its place. A rule never has more than five targets: each list of more that can be chosen is reported, and no other list is, whatever the other rules in the template have.", "quantifier": "every template, every number of event rules and targets, every schedule text, every condition", "why_tests_cant": "the check counts on from one resource to the next, and schedules are free texts; tests try two templates", "anchors": ["src/cfnlint/rules/resources/events/RuleScheduleExpression.py: RuleScheduleExpression.check_rate, RuleScheduleExpression.check_cron, RuleScheduleExpression.check_value", "src/cfnlint/rules/resources/events/RuleTargetsLimit.py: RuleTargetsLimit.initialize, RuleTargetsLimit.check_value, RuleTargetsLimit.match_resource_properties"]}
{"id": "C74", "title": "Functions get runtimes that can still be used, and log groups at most two subscription filters", "statement": "Each runtime a function can get, in any branch of conditions or by the default or an allowed value of a parameter, is reported as an error once it can no longer be updated and as a warning between the end of its life and that time; no other runtime is reported and none by both. If more than two subscription filters have the same log group the third is reported, and nothing else is.", "quantifier": "every template, every table of runtimes, every moment, every number of filters", "why_tests_cant": "the answer depends on the day of the run, and the count on all resources of the template; tests run today with a few templates", "anchors": ["src/cfnlint/rules/resources/lmbd/DeprecatedRuntime.py: DeprecatedRuntime.check_value, DeprecatedRuntime.check_ref", "src/cfnlint/rules/resources/lmbd/DeprecatedRuntimeEnd.py: DeprecatedRuntimeEnd.check_runtime", "src/cfnlint/rules/resources/lmbd/DeprecatedRuntimeEol.py: DeprecatedRuntimeEol.check_runtime", "src/cfnlint/rules/resources/lmbd/EventsLogGroupName.py: EventsLogGroupName.check_events_subscription_duplicated"]}
{"id": "C75", "title": "Properties are found by name, and block devices, aliases and essential containers are judged", "statement": "Asking a template for a property of resources of a type gives every value that following the names leads to, through items of lists and conditions among them, with its place, and nothing else. Among the values found that way, virtual names of block devices that are not ephemeral0 to ephemeral23, io1 volumes without a rate and other volumes with one, aliases of distributions that are no domain names or have a star for a later label, and task definitions none of whose containers is essential are reported; nothing else is.", "quantifier": "every template, every type of resource, every list of names, every depth of lists and conditions", "why_tests_cant": "the search recurses through values of any shape, and the pattern of aliases accepts texts of any number of labels; tests give a few", "anchors": ["src/cfnlint/template.py: Template.get_resource_properties, Template._get_sub_resource_properties", "src/cfnlint/rules/resources/ectwo/Ebs.py: Ebs.match, Ebs._checkEbs", "src/cfnlint/rules/resources/cloudfront/Aliases.py: Aliases.match", "src/cfnlint/rules/resources/ecs/TaskDefinitionEssentialContainer.py: TaskDefinitionEssentialContainer.match"]}
{"id": "C76", "title": "Objects are judged for each outcome of their conditions at every depth, load balancers among them", "statement": "An object or list with conditions at any depth is given once for each outcome of the conditions it rests on, with exactly what is left of it for that outcome; without conditions it is given as it is. For each of these outcomes, security groups of network load balancers, fewer than two subnets or subnet mappings of application load balancers and attributes that the type of load balancer does not have are reported, with the outcome; nothing else is. Protocols of listeners that are not known, or that need a certificate where none is given, are reported.", "quantifier": "every template, every place in it, every set of conditions, every depth of conditions", "why_tests_cant": "conditions may be nested to any depth and combined in any way; tests give a few templates", "anchors": ["src/cfnlint/template.py: Template.get_object_without_nested_conditions, Template._get_object_without_nested_conditions, Template.get_condition_scenarios_below_path", "src/cfnlint/rules/resources/elb/Elb.py: Elb.match, Elb.match_resource_properties, Elb.check_protocol_value, Elb.check_alb_subnets, Elb.check_loadbalancer_allowed_attributes"]}
{"id": "C77", "title": "The records of Route 53 are judged by the grammar of their type", "statement": "For every record set of a template, standing alone or in a group, that is no alias: the check of record sets (E3020) reports exactly the records that do not have the form their type asks for (an IPv4 or IPv6 address, a host name, the three settings of CAA, the two of MX, quoted texts of up to 255 characters for TXT), each at its own place, and every CNAME that has more than one record in some deployment, with the outcome of the conditions.", "quantifier": "all templates, record sets, record types, record texts, outcomes of conditions and positions", "why_tests_cant": "The texts of records are unbounded and the regular expressions accept infinitely many; tests cover a few addresses and names, not every text, nor every outcome of conditions.", "anchors": ["src/cfnlint/rules/resources/route53/RecordSet.py: RecordSet.match, check_recordset, count_c_names, check_caa_record, check_mx_record, check_txt_record, check_cname_record", "src/cfnlint/helpers.py: REGEX_IPV4, REGEX_ALPHANUMERIC"]}
{"id": "C78", "title": "A record is named below its zone, and a certificate is validated by a domain above its name", "statement": "For every record set whose Name and HostedZoneName are texts, linting reports the zone when it does not end in a dot and the name when it does not end in the zone; for every option of a certificate whose DomainName and ValidationDomain are texts it reports the name exactly when the validation domain is neither the name nor a domain above it.  When these texts depend on conditions, they are judged for every outcome of the conditions, and the report names the outcome.", "quantifier": "every pair of texts, every nesting of Fn::If around options and members, every set of conditions and parameter values, every template", "why_tests_cant": "the texts are unbounded and every outcome of conditions must be looked at; tests try a few names", "anchors": ["src/cfnlint/rules/resources/route53/RecordSetName.py: RecordSetName.match_resource_properties", "src/cfnlint/rules/resources/certificatemanager/DomainValidationOptions.py: DomainValidationOptions.check_value", "src/cfnlint/template.py: Template.get_object_without_conditions"]}
{"id": "C79", "title": "A subnet has one route table, and sources of ingress rules fit their group", "statement": "For every template, linting reports an association of a subnet with a route table exactly when another association uses the same subnet under the same conditions or under none, and names the others; it reports an ingress rule exactly when it is in a group of a VPC and names its source group, or is outside of a VPC and gives the id of one, at the place of the source.", "quantifier": "every template, number of associations and rules, nesting of Fn::If around subnets", "why_tests_cant": "the report depends on pairs of resources anywhere in the template and on unbounded nesting; tests have a few pairs", "anchors": ["src/cfnlint/rules/resources/ectwo/RouteTableAssociation.py: RouteTableAssociation.match, get_values", "src/cfnlint/rules/resources/ectwo/SecurityGroupIngress.py: SecurityGroupIngress.match, check_ingress_rule"]}
{"id": "C80", "title": "Definitions of state machines are judged by their keys and the types of their states", "statement": "For every template and every text given as the definition of a state machine, directly or through Fn::Sub, linting reports, at the place of the text, exactly: that it is no JSON (not for Fn::Sub), keys of the machine that are unknown or missing, states without a type or with an unknown one, and keys of states that their type does not know or lacks.", "quantifier": "every template, nesting of Fn::If around the text, JSON object, number and names of states", "why_tests_cant": "definitions are texts of unbounded size with any number of states; tests have a few files", "anchors": ["src/cfnlint/rules/resources/stepfunctions/StateMachine.py: StateMachine.check_value, check_sub, _check_definition_json, _check_state_json"]}
{"id": "C81", "title": "Classes of database instances are offered in the regions of the run", "statement": "For every template, table of classes and list of regions, linting reports the class of a database instance exactly when its engine and class are texts and some region of the run offers classes for the engine and the license (given, or by default that of the first license model that has the engine), but not this one; once for each such region, at the place of the class.", "quantifier": "every template, table of classes, list of regions, nesting of Fn::If around the properties", "why_tests_cant": "the result depends on a table of thousands of entries and on all the regions; tests have a few of them", "anchors": ["src/cfnlint/rules/resources/rds/InstanceSize.py: InstanceSize.match, get_resources, check_db_config, _get_license_model", "src/cfnlint/decode/node.py: items_safe"]}
{"id": "C82", "title": "The attributes that tables define are those that their keys use", "statement": "For every DynamoDB table of the usual shape whose names are texts, linting reports it exactly when the set of attributes in its definitions is not the set of attributes that its keys and the keys of its secondary indexes use; with conditions, every report is about a deployment with this fault and each deployment with it is reported.", "quantifier": "every table, number of keys and indexes, nesting of Fn::If, set of condition values, order of scenarios", "why_tests_cant": "attributes come from three places, each under its own conditions; tests have a handful of tables", "anchors": ["src/cfnlint/rules/resources/dynamodb/AttributeMismatch.py: AttributeMismatch.check, match_resource_properties", "src/cfnlint/template.py: get_object_without_conditions"]}
{"id": "C83", "title": "Replication groups suit parameter groups that enable clusters", "statement": "For every ElastiCache replication group whose parameter group is a reference to a resource of the template, linting reports the properties that do not go with a parameter group that enables clusters (failover switched off; fewer than two cache clusters without node groups), and nothing else; with conditions, each deployment that has such a fault is reported, and each report is about a combination of condition values with the fault.", "quantifier": "every replication group and parameter group, nesting of Fn::If, set of condition values, order of scenarios", "why_tests_cant": "conditions of two resources, of the path of the reference and of the resource itself are combined; tests have a handful of templates", "anchors": ["src/cfnlint/rules/resources/elasticache/CacheClusterFailover.py: CacheClusterFailover.match_resource_properties, test_cluster_settings, _test_cluster_settings, is_cluster_enabled", "src/cfnlint/template.py: get_conditions_from_path, get_conditions_scenarios_from_object, get_value_from_scenario"]}
{"id": "C84", "title": "The stages of pipelines are at least two, start with the sources and have names of their own", "statement": "For every CodePipeline pipeline, linting reports a number of stages below two, a first stage without a source action or with other actions, source actions in later stages, pipelines of source actions only and stages with a name that was used before, each at its place, and nothing else; with conditions, each deployment that has such a fault is reported with the values of the conditions, and each report is about a combination of condition values with the fault.", "quantifier": "every template, number of pipelines, stages and actions, nesting of Fn::If, set of condition values, order of scenarios", "why_tests_cant": "counts, sets of categories and names range over lists of any length, and conditions at any depth change which stages there are; tests have a handful of pipelines", "anchors": ["src/cfnlint/rules/resources/codepipeline/CodepipelineStages.py: CodepipelineStages.match, check_stage_count, check_first_stage, check_source_actions, check_names_unique", "src/cfnlint/template.py: get_object_without_nested_conditions, get_resource_properties"]}
{"id": "C85", "title": "The actions of pipelines have names of their own, proper versions, and artifacts that fit together", "statement": "For every CodePipeline pipeline, linting reports an action with the name of an earlier action of its stage, a version that is not one to nine letters, digits, low lines or hyphens, a number of input or output artifacts outside the limits of the action's owner, category and provider, an input artifact that no earlier action of the pipeline gives, and an output artifact with the name of an earlier one, each at its action, and nothing else.", "quantifier": "every template, number of pipelines, stages, actions and artifacts, values of versions and names", "why_tests_cant": "the sets of names and artifacts grow over lists of any length and are carried from stage to stage, so that an order or reset mistake shows only in particular histories; tests have a handful of pipelines", "anchors": ["src/cfnlint/rules/resources/codepipeline/CodepipelineStageActions.py: CodepipelineStageActions.match, check_names_unique, check_version, check_artifact_counts, check_artifact_names", "src/cfnlint/decode/node.py: dict_node.get_safe, list_node.items_safe", "src/cfnlint/template.py: get_resource_properties"]}
{"id": "C86", "title": "JSON documents in properties are no longer than their limit", "statement": "For every property that holds JSON and has a limit of size, linting reports the property if and only if its document, written without white space and without the placeholders of Fn::Sub, has more characters than the limit in some deployment; the report names the values of the conditions on which the properties rest, and no other report is made.", "quantifier": "every document (any depth, any characters), every limit, every set of conditions in the properties and every value of the parameters", "why_tests_cant": "the count depends on escapes of characters, on greedy matches of placeholders and on which branches are deployed together; tests compare two templates", "anchors": ["src/cfnlint/rules/resources/properties/JsonSize.py: JsonSize.check, check_value, remove_functions, match_resource_properties, match_resource_sub_properties", "src/cfnlint/template.py: get_object_without_nested_conditions", "src/cfnlint/rules/resources/properties/JsonSize.py: _serialize_date"]}
{"id": "C87", "title": "Resources of registered types fit their schemas, whatever was linted before", "statement": "For every schema in the given folders and every resource of its type whose properties have no template syntax and no dynamic reference, linting reports the properties if and only if they do not fit the schema, with the words of the validator; the report of a template is the same whether it is the first one linted by the process or a later one.", "quantifier": "every registry, template, properties of any depth and characters, every number of templates linted before", "why_tests_cant": "template syntax is found by looking for words in the text of the whole object, so that escapes, quotes and brackets may hide or invent it; and the registry grows with each template, which shows only over histories", "anchors": ["src/cfnlint/rules/resources/ResourceSchema.py: ResourceSchema.match", "src/cfnlint/core.py: run_cli", "src/cfnlint/helpers.py: REGISTRY_SCHEMAS, REGEX_DYN_REF, PSEUDOPARAMS, UNCONVERTED_SUFFIXES, FN_PREFIX", "src/cfnlint/template.py: get_resources", "src/cfnlint/runner.py: Runner.run"]}
{"id": "C88", "title": "Updating the specifications keeps the copies of the regions whole and current, however updates are mixed and wherever they stop", "statement": "An update of a region leaves its specification as it was, or made from what the server sent, and touches no other region; when it ends well the specification is the latest; what is up to date is not downloaded again; updates of several regions run together give what each gives alone; and after a process was stopped or a download broke off, the next update repairs what is missing.", "quantifier": "every state of the files, behaviour of the network at each step, number of regions, schedule of the processes and moment at which a process stops", "why_tests_cant": "the order in which the memory of tags and the specification are written shows only when a process stops between them, and races of the pool only under particular schedules", "anchors": ["src/cfnlint/maintenance.py: update_resource_specs, update_resource_spec", "src/cfnlint/helpers.py: url_has_newer_version, get_url_content, get_metadata_filename, load_metadata, save_metadata", "src/cfnlint/core.py: get_args_filenames"]}
{"id": "C89", "title": "Patches and references of specifications are processed the same way on every system", "statement": "The patches for all regions and for the region are applied in the order of the names of folders and files, whatever order the system lists files in, and patches that do not fit are passed over; then each reference to a type of botocore is replaced by the sorted values of its enumeration, everything else stays, each service is downloaded at most once and no reference is left; this succeeds if and only if all references are texts for existing enumerations.", "quantifier": "every specification of any depth, patch file, listing order, behaviour of the patch library and of the services", "why_tests_cant": "listing order depends on the file system, and specifications nest to any depth, with references anywhere", "anchors": ["src/cfnlint/maintenance.py: patch_spec, update_resource_spec.search_and_replace_botocore_types", "src/cfnlint/helpers.py: load_resource"]}
{"id": "C90", "title": "The page of the rules and the file of the policies are regenerated without loss", "statement": "Updating the documentation keeps the text before the part on rules as it is and writes, whatever the order in which rules were loaded, one row for each rule, by names, and their number; doing it again changes nothing. Updating the policies writes what the server sent with the three known actions added and everything else unchanged, and a failed update leaves the file as it was.", "quantifier": "every page, list of rules, result of the search for sources, text from the server and moment at which the process stops", "why_tests_cant": "the page is read and rewritten in place, so that its own output is its next input; and the policies come from a text whose marks may occur anywhere", "anchors": ["src/cfnlint/maintenance.py: update_documentation, update_iam_policies", "src/cfnlint/rules/__init__.py: ParseError, TransformError, RuleError", "src/cfnlint/core.py: get_args_filenames"]}
{"id": "C91", "title": "The report depends only on the set of rules", "statement": "Loading the rules in another order, or a rule several times, changes neither the findings of a run over any files nor the exit status, nor the order in which findings are reported. The findings of a rule do not depend on which other rules run, and leaving rules out removes their findings and no others.", "quantifier": "every specification, template, list of files, configuration and list of rules, whatever the rules report or raise, in every order and multiplicity", "why_tests_cant": "rules are loaded in the order in which the file system lists directories, and modules that import rules load them again; a test sees one order", "anchors": ["src/cfnlint/rules/__init__.py: RulesCollection.run, run_check, register, configure", "src/cfnlint/runner.py: Runner.run", "src/cfnlint/core.py: run_checks, get_template_rules, get_exit_code", "src/cfnlint/__main__.py: main"]}
{"id": "C92", "title": "The rules in a directory are loaded, in whatever order it is listed", "statement": "Each rule class in a file of a rules directory, at any depth, is loaded and nothing else is; the order in which the system lists directories does not show in reports; rules of appended paths come on top of the default ones; a path that cannot be loaded ends the tool with exit code 1; and the list of rules shows the rules that run.", "quantifier": "every directory tree, file name, module contents or exception raised by a module, list of paths and configuration", "why_tests_cant": "trees, names and listing orders are unbounded, and the order is chosen by the file system", "anchors": ["src/cfnlint/helpers.py: create_rules, import_filename, load_plugins", "src/cfnlint/rules/__init__.py: RulesCollection.create_from_directory, create_from_module, extend", "src/cfnlint/core.py: get_rules, get_args_filenames"]}
{"id": "C93", "title": "The rules the linter ships with are the documented ones, and every run uses them", "statement": "The ids listed in the documentation are exactly those of the shipped rules and the built-in findings, each belongs to one rule, and the rules are experimental and have the settings the documentation says; whatever was linted before, each template is linted with these rules and the settings given for it; everything reported has a documented id; informational and experimental rules are silent unless asked for; and the order in which the rule files are read shows neither in reports nor in the exit status.", "quantifier": "every template, history of templates, configuration, order of rule files, resource specification and behaviour of the library functions the rules use", "why_tests_cant": "templates, histories and orders are unbounded; a test sees one order, the one of its file system", "anchors": ["docs/rules.md", "src/cfnlint/rules: all rule classes", "src/cfnlint/core.py: get_template_rules, run_checks", "src/cfnlint/__main__.py: main"]}
{"id": "C94", "title": "A run reports exactly the faults the shipped rules are documented to find", "statement": "Linting a template with the shipped rules reports, for each documented rule that is selected, exactly the faults the rule is documented to find, at their places, save those suppressed by directives or told already; nothing other rules do, crash or report gets in the way.", "quantifier": "every template, set of further rules, configuration, resource specification and behaviour of the library functions the rules use", "why_tests_cant": "templates are unbounded, and a unit test of a rule runs it alone", "anchors": ["src/cfnlint/runner.py: Runner.run", "src/cfnlint/rules/__init__.py: RulesCollection.run", "src/cfnlint/core.py: run_checks", "src/cfnlint/rules: the rules named in the theorems"]}
{"id": "C95", "title": "A run reports exactly the faults in properties the shipped rules are documented to find", "statement": "Linting a template with the shipped rules reports, for each documented rule on properties that is selected, exactly the faults in the properties of resources and in the objects nested in them that the rule is documented to find, at their places, save those suppressed by directives or told already.", "quantifier": "every template, set of further rules, configuration, resource specification, set of data files and behaviour of the library functions the rules use", "why_tests_cant": "templates and specifications are unbounded, and a unit test of a rule runs it alone on a few of them", "anchors": ["src/cfnlint/runner.py: Runner.run", "src/cfnlint/rules/__init__.py: RulesCollection.run, RulesCollection.resource_property", "src/cfnlint/core.py: run_checks", "src/cfnlint/rules/resources: the rules named in the theorems"]}
{"id": "C96", "title": "A run reports exactly the faults in functions and conditions the shipped rules are documented to find", "statement": "Linting a template with the shipped rules reports, for each documented rule on the arguments of functions and on conditions that is selected, exactly the uses of the function that are faulty in the way the rule is documented to find, at their places, save those suppressed by directives or told already; no use of a function makes a rule end in an exception.", "quantifier": "every template, set of further rules, configuration, list of types with their attributes and behaviour of the library functions the rules use", "why_tests_cant": "functions can be used anywhere in unbounded templates, and a unit test of a rule runs it alone on a few of them", "anchors": ["src/cfnlint/runner.py: Runner.run", "src/cfnlint/rules/__init__.py: RulesCollection.run", "src/cfnlint/core.py: run_checks", "src/cfnlint/rules/functions: the rules named in the theorems", "src/cfnlint/rules/conditions: the rules named in the theorems"]}
{"id": "C97", "title": "A run reports exactly the faults of the template, its services and its described properties the shipped rules are documented to find", "statement": "Linting a template with the shipped rules reports, for each documented rule on the outline of the template, its metadata, its circular dependencies, its secrets, the services it describes and the properties its resources may have that is selected, exactly the faults the rule is documented to find, at their places, save those suppressed by directives or told already.", "quantifier": "every template, set of further rules, configuration, specification, registry, table of instance classes and behaviour of the library functions the rules use", "why_tests_cant": "templates are unbounded and the rules run together in one linter, while a unit test of a rule runs it alone on a few templates", "anchors": ["src/cfnlint/runner.py: Runner.run", "src/cfnlint/rules/__init__.py: RulesCollection.run", "src/cfnlint/core.py: run_checks", "src/cfnlint/rules/templates, metadata, mappings, outputs, parameters and resources: the rules named in the theorems"]}
{"id": "C98", "title": "Serverless templates are reported on as their translations, at the places of the file they come from", "statement": "Linting a template that asks for the serverless transform reports exactly what linting its translation would, with each finding placed at the nearest key or item of the file that its place in the translation comes from; if the translation fails, the report is exactly one E0001 finding for each cause; and the directives in translated resources suppress the findings inside them.", "quantifier": "every template, every behaviour of the serverless translator, every rule, configuration and specification", "why_tests_cant": "what the translator makes of a template and which of its parts stood in the file is unbounded, and tests run one version of it on a few templates", "anchors": ["src/cfnlint/helpers.py: convert_dict", "src/cfnlint/transform.py: Transform.transform_template", "src/cfnlint/runner.py: Runner.transform", "src/cfnlint/core.py: run_checks", "src/cfnlint/template.py: get_directives"]}
{"id": "C99", "title": "A run reports what rules with settings, experimental rules and the rules on repeated items and conditional references are documented to find", "statement": "Linting a template with the shipped rules reports, for the rules that have settings, the experimental rule and the rules on repeated items and conditional references, exactly the faults they are documented to find under the settings given, at their places, save those suppressed by directives or told already.", "quantifier": "every template, value of the settings, set of further rules, configuration, specification, list of services and behaviour of the library functions the rules use", "why_tests_cant": "templates, settings and deployments are unbounded, and a unit test of a rule runs it alone with its usual settings on a few templates", "anchors": ["src/cfnlint/rules/functions/SubNeeded.py: SubNeeded.match", "src/cfnlint/rules/resources/properties/ValuePrimitiveType.py: ValuePrimitiveType.check", "src/cfnlint/rules/resources/iam/Permissions.py: Permissions.match_resource_properties", "src/cfnlint/rules/resources/properties/ListDuplicates.py: ListDuplicates.check", "src/cfnlint/rules/resources/properties/ListDuplicatesAllowed.py: ListDuplicatesAllowed.check", "src/cfnlint/rules/functions/RelationshipConditions.py: RelationshipConditions.match", "src/cfnlint/core.py: run_checks"]}
{"id": "C100", "title": "Which rules can crash", "statement": "On a template that no transform replaces, 26 of the shipped rules (E1001 E1002 E1004 E1015 E1016 E1018 E1020 E1021 E1023 E1026 E2014 E3000 E3001 E3010 E3035 E3036 E3038 E8004 E8005 E8006 I1002 I3010 I3011 W1019 W3011 W6001) never end in an exception, if the region has a specification and the user's schemas name their types; each of the others does on some template without null members, and is then reported as E0002.", "quantifier": "every template, configuration, specification, data and behaviour of the library functions the rules use; and every shipped rule", "why_tests_cant": "that a rule never crashes is a statement about all templates, of any shape and depth; a unit test crashes or does not on the one it has", "anchors": ["src/cfnlint/rules/__init__.py: RulesCollection.run_check", "src/cfnlint/core.py: run_checks", "src/cfnlint/rules/templates/Base.py: Base.match", "src/cfnlint/rules/resources/Configuration.py: Configuration.match", "src/cfnlint/rules/functions/Cidr.py: Cidr.match", "src/cfnlint/decode/node.py: TemplateAttributeError"]}
{"id": "C101", "title": "What a command line says", "statement": "A command line that names options (by whole names, unambiguous cut names or letters sharing a dash, their values behind them, behind an equals sign or directly behind the letter) and, at one place where no more values can follow, templates, sets every switch that is named and no other, keeps the last value of options with one value, collects all values of options with several (split at commas where documented) and all settings of rules with the last value each; only the order of uses of the same option matters. Help and version end the program with status 0, unknown formats and ambiguous names with 32.", "quantifier": "every sequence of arguments of the described form, of any length; every order and way of writing; every unknown option", "why_tests_cant": "options can be combined, cut, bundled and ordered in unboundedly many ways; tests try a few command lines", "anchors": ["src/cfnlint/config.py: CliArgs.create_parser", "src/cfnlint/config.py: CliArgs.__init__", "src/cfnlint/config.py: comma_separated_arg", "src/cfnlint/config.py: RuleConfigurationAction", "src/cfnlint/config.py: _ensure_value"]}
{"id": "C102", "title": "Configuration files and the whole program", "statement": "Without --config-file a run takes its settings from ~/.cfnlintrc and from the first existing one of .cfnlintrc.yaml, .cfnlintrc.yml and .cfnlintrc in the current folder, the latter winning wherever it says something; with --config-file from that file alone; a file that says something not permitted ends the program with status 1 before any template is read. The options for maintenance end it after their work with status 0. Otherwise the templates named are checked in one run, without templates the standard input, and on a terminal the program shows its help and ends with status 1.", "quantifier": "every command line, all contents and combinations of configuration files, every set of templates and rules, every outcome of reading, loading and checking", "why_tests_cant": "the outcome depends on the combination of the command line, two or three files and the terminal; tests fix one combination at a time", "anchors": ["src/cfnlint/__main__.py: main", "src/cfnlint/core.py: get_args_filenames", "src/cfnlint/core.py: run_cli", "src/cfnlint/config.py: ConfigFileArgs", "src/cfnlint/config.py: ConfigMixIn.__init__", "src/cfnlint/data/CfnLintCli/config/schema.json"]}
{"id": "C103", "title": "Overriding the specifications", "statement": "With --override-spec every template of a run is checked against the same specifications: in every region those of the program, where the document in the file does not say something else, reduced to the resource types that match one of the included patterns, if there are any, and none of the excluded ones. Without the option, whatever the templates say, nothing is overridden. A file that cannot be read or is not JSON ends the program with status 1.", "quantifier": "all documents, specifications of any regions and sets of patterns, any sequence of templates of one run and any way of checking them, every outcome of opening the file", "why_tests_cant": "the file is merged again into the already overridden specifications for every template; that this changes nothing depends on all combinations of documents, patterns and specifications", "anchors": ["src/cfnlint/helpers.py: override_specs", "src/cfnlint/helpers.py: set_specs", "src/cfnlint/helpers.py: merge_spec", "src/cfnlint/core.py: run_cli", "src/cfnlint/__main__.py: main"]}
{"id": "C104", "title": "What one malformed member hides", "statement": "A parameter, resource, output or mapping that is a text or a list instead of an object does not keep the linter from reporting the faults of the other members of its section: a rule reports them, or says that it could not check.", "quantifier": "all templates, runs with the shipped rules, any configuration and any member", "why_tests_cant": "tests of a rule have one fault per template; that a rule reports nothing at all in the presence of another fault shows only in combination", "anchors": ["src/cfnlint/__init__.py: RulesCollection.run_check", "src/cfnlint/decode/node.py: TemplateAttributeError", "src/cfnlint/rules/parameters/Configuration.py: match", "src/cfnlint/template.py: get_valid_refs", "src/cfnlint/graph.py: Graph.__init__"]}
{"id": "C105", "title": "What the options about rules mean for the report", "statement": "A run of the command reports a finding of a rule only if no check given with --ignore-checks names the rule (unless a mandatory check does), only if an included check names it when it is no warning or error, and an experimental rule only with --include-experimental; and every warning or error rule that nobody ignores is looked for in every template of the run.", "quantifier": "all command lines made of documented options, configuration files, sets of templates, file systems, rule directories and resource specifications", "why_tests_cant": "tests call the rules with chosen settings; how command line, configuration files and template metadata combine into the settings of a whole run over several templates is a property of all combinations", "anchors": ["src/cfnlint/__main__.py: main", "src/cfnlint/core.py: get_args_filenames, get_template_rules, run_checks", "src/cfnlint/config.py: ConfigMixIn", "src/cfnlint/rules/__init__.py: RulesCollection.is_rule_enabled"]}
{"id": "C106", "title": "What a report without findings guarantees", "statement": "If linting with all rules reports nothing, the template has only known sections, has resources, every resource is an object with a known type and known attributes, and parameters, outputs, mappings and conditions are objects without structural fault.", "quantifier": "all templates (objects without transforms, directives or Globals), all resource specifications, registered types, regions and further settings", "why_tests_cant": "the guarantee quantifies over all templates with an empty report, that is over everything the linter lets pass; tests show chosen faults being reported, and never that nothing else slips through", "anchors": ["src/cfnlint/core.py: run_checks, run_cli", "src/cfnlint/rules/__init__.py: RulesCollection.run_check", "src/cfnlint/rules/templates/Base.py: Base.match", "src/cfnlint/rules/resources/Configuration.py: Configuration.match", "src/cfnlint/rules/parameters/Configuration.py: Configuration.match", "src/cfnlint/rules/outputs/Configuration.py: Configuration.match"]}
{"id": "C107", "title": "Nothing dangles in a template without findings", "statement": "If linting with all rules reports nothing, every Ref names a parameter, resource, module output or pseudo parameter, every condition used is defined, condition functions and Fn::If are well formed, every DependsOn names a resource, and no resource depends on itself, directly or through others.", "quantifier": "all templates (objects without transforms, directives or Globals), all resource specifications, cycle finders fit for networkx's contract, and further settings", "why_tests_cant": "the guarantee quantifies over every template that passes, including those whose malformed parts silence the very rules concerned; tests show chosen dangling references being reported", "anchors": ["src/cfnlint/core.py: run_checks", "src/cfnlint/rules/__init__.py: RulesCollection.run_check", "src/cfnlint/rules/functions/RefExist.py: RefExist.match", "src/cfnlint/rules/conditions/Exists.py: Exists.match", "src/cfnlint/rules/conditions/common.py: check_condition_list", "src/cfnlint/rules/resources/DependsOn.py: DependsOn.match", "src/cfnlint/rules/resources/CircularDependency.py: CircularDependency.match", "src/cfnlint/graph.py: Graph"]}
{"id": "C108", "title": "Properties fit their specification in a template without findings", "statement": "If linting with all rules reports nothing, the properties of every resource the specification describes, and every object nested in them, have no required property missing in any branch, no property or shape the specification does not know, values among the listed ones and matching the patterns, sizes within the bounds, and groups of properties given as the specification demands.", "quantifier": "all templates (objects without transforms, directives or Globals), all resource specifications and tables, all values, nestings and choices of Fn::If branches, further settings", "why_tests_cant": "a guarantee about every template that passes: it needs that each of the rules is run on every nested object and that none of them is silenced on the way; tests show single bad values being reported", "anchors": ["src/cfnlint/core.py: run_checks", "src/cfnlint/rules/__init__.py: RulesCollection.resource_property", "src/cfnlint/rules/resources/properties/Required.py: Required", "src/cfnlint/rules/resources/properties/Properties.py: Properties", "src/cfnlint/rules/resources/properties/AllowedValue.py: AllowedValue", "src/cfnlint/rules/resources/properties/AllowedPattern.py: AllowedPattern", "src/cfnlint/rules/resources/properties/StringSize.py: StringSize", "src/cfnlint/rules/resources/properties/NumberSize.py: NumberSize", "src/cfnlint/rules/resources/properties/ListSize.py: ListSize", "src/cfnlint/rules/resources/properties/Exclusive.py: Exclusive", "src/cfnlint/rules/resources/properties/Inclusive.py: Inclusive", "src/cfnlint/rules/resources/properties/AtLeastOne.py: AtLeastOne", "src/cfnlint/rules/resources/properties/OnlyOne.py: OnlyOne"]}
{"id": "C109", "title": "The order of members does not matter", "statement": "Linting two templates that differ only in the order in which the members of objects are written, at any depth, tells of the same faults: each finding on one is matched by a finding of the same rule about the same place in the template and in the same words on the other, up to suppression.", "quantifier": "all pairs of templates that differ in the order of members, all collections with the shipped rules, settings, specifications and translators; the rules E1001, E1004, E1012, E1015, E1016, E1018, E1020, E1021, E1023, E1028, E2001, E2003, E3006, E3007, E6002, E6004, E6005, E7002, E8004, E8005, E8006, I3011, W2001, W3011, W7001, W8001", "why_tests_cant": "JSON and YAML objects are unordered but Python dicts are not: whether some rule depends on the order (by stopping at the first match, by overwriting an earlier one, by comparing texts of objects) can only be excluded by comparing all pairs of templates", "anchors": ["src/cfnlint/core.py: run_checks", "src/cfnlint/template.py: Template.search_deep_keys, Template.get_resources", "src/cfnlint/rules/conditions/Exists.py: Exists.match", "src/cfnlint/rules/functions: match", "src/cfnlint/rules/templates: match", "src/cfnlint/rules/parameters: match", "src/cfnlint/rules/outputs: match"]}
{"id": "C110", "title": "What is said about one part of a template does not depend on the others", "statement": "When two templates have the same value at a place (the same resource, parameter, mapping, output, or any value at a path), the reports on them tell of the same faults inside that value, whatever the rest of the templates is, up to suppression: adding, removing or changing other resources neither hides nor creates such findings.", "quantifier": "all pairs of templates with an equal part, all collections with the shipped rules, settings, specifications and translators; the rules E1015, E1016, E1018, E1020, E1021, E1023, E1027, E1028, E2001, E2002, E2003, E2520, E2521, E2522, E2523, E3001, E3003, E3006, E3030, E3031, E3032, E3033, E3034, E3035, E3036, E6002, E6004, E6005, E7001, E7002, E8004, E8005, E8006, I3011, W3011", "why_tests_cant": "a rule that carries state from one resource to the next, or that stops at the first fault, is right on each template a test contains; only a statement about all pairs of templates excludes it", "anchors": ["src/cfnlint/core.py: run_checks", "src/cfnlint/template.py: Template.search_deep_keys, Template.get_resources", "src/cfnlint/rules/__init__.py: RulesCollection.run, RulesCollection.resource_property", "src/cfnlint/rules/resources/properties: match_resource_properties, match_resource_sub_properties", "src/cfnlint/rules/functions: match", "src/cfnlint/rules/resources/DeletionPolicy.py: DeletionPolicy.match"]}
{"id": "C111", "title": "Which templates stop the program", "statement": "When several files are linted, no template stops the program: each file is linted and the report consists of the findings on each. This holds whenever the settings in the templates' metadata are sound (objects where objects are expected, lists of texts, known regions, integers for integer settings). It fails for templates with unsound settings: these end the program, and the findings on all files are lost.", "quantifier": "all lists of files and results of decoding them, all sets of rules, specifications, translators and options that are sound", "why_tests_cant": "whether an exception can escape depends on every value that settings can take and on the settings left behind by the files linted before; tests lint single files with proper metadata", "anchors": ["src/cfnlint/__main__.py: main", "src/cfnlint/core.py: get_template_rules, run_checks", "src/cfnlint/config.py: TemplateArgs.set_template_args, ConfigMixIn", "src/cfnlint/rules/__init__.py: CloudFormationLintRule.is_enabled, CloudFormationLintRule.configure, RulesCollection.configure"]}
{"id": "C112", "title": "The layout of a template does not matter", "statement": "Two template files with the same contents but another layout (JSON or YAML, other indentation, line breaks or comments) get the same findings from the shipped rules: each finding on one file has a counterpart on the other by the same rule, in the same words, at the same place of the document, with only the line and column numbers of that place differing. Exempt are findings whose counterpart is suppressed by a directive, and the rules on the size of the file.", "quantifier": "all documents and all pairs of layouts of them, all worlds (specifications, data files, library functions), settings and subsets of the shipped rules, with and without failing rules", "why_tests_cant": "there are infinitely many layouts of a document; tests lint each fixture in one layout", "anchors": ["src/cfnlint/rules/__init__.py: RulesCollection.run, CloudFormationLintRule.matching, create_match_from_template_result", "src/cfnlint/template.py: get_location_yaml, _loc", "src/cfnlint/runner.py: Runner.run", "src/cfnlint/decode/node.py"]}
{"id": "C113", "title": "Each input of a run influences only the rules that read it", "statement": "Besides the template and the options, what a run reports depends on the clock, the regions, the sizes of files and the data files of the package. Each of these influences only the rules that read it: the clock and the table of runtimes only E2531 and W2531, the regions (the first one's specification apart) only E1015, E3001 and E3025, the sizes of files only E1002 and I1002, the registry schemas only E3000, and so on for 22 inputs. All other findings are the same. In particular a region named in Fn::GetAZs is accepted whatever the regions of the run are.", "quantifier": "all pairs of worlds that differ in one input, all templates, options, rule settings and translators", "why_tests_cant": "independence of an input is about all its values and all templates; tests run with the one clock and the one set of data files there is", "anchors": ["src/cfnlint/rules/__init__.py: RulesCollection.run", "src/cfnlint/rules/resources/lmbd/DeprecatedRuntime.py", "src/cfnlint/rules/functions/GetAz.py: GetAz.match", "src/cfnlint/rules/resources/Configuration.py", "src/cfnlint/rules/resources/rds/InstanceSize.py", "src/cfnlint/rules/templates/LimitSize.py"]}
