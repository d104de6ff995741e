(** C96 What a run with the shipped rules reports of functions and conditions. *)
From Coq Require Import List String ZArith Bool Permutation.
Import ListNotations.
From Verif.Model Require Import Base Node Locate Helpers Rules Runner Config Core Search Refs ConditionRules Relationship Limits Parameters Policies Functions Standard.
From Verif.Spec Require Import Pipeline Paths References ConditionUse FunctionArguments Attributes RuleSets Shipped ShippedPlaces.
From Verif.Proofs Require Import StandardProofs StandardPlaces StandardFunctions Samples RuleSetWitness StandardWitness StandardPropWitness StandardFunctionWitness.
Import Verif.Model.Rules.
Local Open Scope string_scope.

(** Exactly the uses of Fn::Base64 are reported whose argument is no text and no call that gives one.  In a run, save where suppressed or told already. *)
Theorem base64_arguments_reported : forall (w : world) (sp : spec) (tr : translator) (k : collection) (rg man : list string) (c : cfn) (ds : list directive) (l : list finding), wf (template c) -> lints w sp tr k rg man c ds "E1021" l -> tells_uses c man ds l "E1021" "Fn::Base64" (unless base64_ok).
Proof. exact fn_base64. Qed.
Print Assumptions base64_arguments_reported.

(** Exactly the uses of Fn::Not are reported whose argument is no list.  In a run, save where suppressed or told already. *)
Theorem not_arguments_reported : forall (w : world) (sp : spec) (tr : translator) (k : collection) (rg man : list string) (c : cfn) (ds : list directive) (l : list finding), wf (template c) -> lints w sp tr k rg man c ds "E1023" l -> tells_uses c man ds l "E1023" "Fn::Not" (unless list_ok).
Proof. exact fn_not. Qed.
Print Assumptions not_arguments_reported.

(** Exactly the uses of Ref are reported whose argument is no text.  In a run, save where suppressed or told already. *)
Theorem ref_arguments_reported : forall (w : world) (sp : spec) (tr : translator) (k : collection) (rg man : list string) (c : cfn) (ds : list directive) (l : list finding), wf (template c) -> lints w sp tr k rg man c ds "E1020" l -> tells_uses c man ds l "E1020" "Ref" (unless text).
Proof. exact fn_ref. Qed.
Print Assumptions ref_arguments_reported.

(** Exactly the uses of Fn::GetAZs are reported whose argument is a text or an object and gives no region.  In a run, save where suppressed or told already. *)
Theorem zone_arguments_reported : forall (w : world) (sp : spec) (tr : translator) (k : collection) (rg man : list string) (c : cfn) (ds : list directive) (l : list finding), wf (template c) -> lints w sp tr k rg man c ds "E1015" l -> tells_uses c man ds l "E1015" "Fn::GetAZs" (fun p v r => r = [] /\ (text v \/ object v) /\ ~ getaz_ok (w_regions w) v).
Proof. exact fn_getaz. Qed.
Print Assumptions zone_arguments_reported.

(** Exactly the faults of the arguments of Fn::ImportValue are reported.  In a run, save where suppressed or told already. *)
Theorem import_arguments_reported : forall (w : world) (sp : spec) (tr : translator) (k : collection) (rg man : list string) (c : cfn) (ds : list directive) (l : list finding), wf (template c) -> lints w sp tr k rg man c ds "E1016" l -> tells_uses c man ds l "E1016" "Fn::ImportValue" import_fault.
Proof. exact fn_import. Qed.
Print Assumptions import_arguments_reported.

(** Exactly the faults of the arguments of Fn::Split are reported.  In a run, save where suppressed or told already. *)
Theorem split_arguments_reported : forall (w : world) (sp : spec) (tr : translator) (k : collection) (rg man : list string) (c : cfn) (ds : list directive) (l : list finding), wf (template c) -> lints w sp tr k rg man c ds "E1018" l -> tells_uses c man ds l "E1018" "Fn::Split" split_fault.
Proof. exact fn_split. Qed.
Print Assumptions split_arguments_reported.

(** Exactly the faults of the lists of Fn::And in conditions are reported, with their messages.  In a run, save where suppressed or told already. *)
Theorem and_arguments_reported : forall (w : world) (sp : spec) (tr : translator) (k : collection) (rg man : list string) (c : cfn) (ds : list directive) (l : list finding), wf (template c) -> lints w sp tr k rg man c ds "E8004" l -> tells_exactly c man ds l "E8004" (condition_faults "Fn::And" (template c)).
Proof. exact fn_and. Qed.
Print Assumptions and_arguments_reported.

(** Exactly the faults of the lists of Fn::Not in conditions are reported, with their messages.  In a run, save where suppressed or told already. *)
Theorem not_lists_reported : forall (w : world) (sp : spec) (tr : translator) (k : collection) (rg man : list string) (c : cfn) (ds : list directive) (l : list finding), wf (template c) -> lints w sp tr k rg man c ds "E8005" l -> tells_exactly c man ds l "E8005" (condition_faults "Fn::Not" (template c)).
Proof. exact fn_not_list. Qed.
Print Assumptions not_lists_reported.

(** Exactly the faults of the lists of Fn::Or in conditions are reported, with their messages.  In a run, save where suppressed or told already. *)
Theorem or_arguments_reported : forall (w : world) (sp : spec) (tr : translator) (k : collection) (rg man : list string) (c : cfn) (ds : list directive) (l : list finding), wf (template c) -> lints w sp tr k rg man c ds "E8006" l -> tells_exactly c man ds l "E8006" (condition_faults "Fn::Or" (template c)).
Proof. exact fn_or. Qed.
Print Assumptions or_arguments_reported.

(** Exactly the Refs to resources in conditions are reported.  Missing: sections of other shapes.  In a run, save where suppressed or told already. *)
Theorem resources_in_conditions_reported_partial : forall (w : world) (sp : spec) (tr : translator) (k : collection) (rg man : list string) (c : cfn) (ds : list directive) (l : list finding), wf (template c) -> plain_sections (template c) -> lints w sp tr k rg man c ds "E1026" l -> tells_uses c man ds l "E1026" "Ref" (resource_in_conditions (template c)).
Proof. exact fn_in_conditions. Qed.
Print Assumptions resources_in_conditions_reported_partial.

(** Exactly the variables of Fn::Sub are reported that its text does not use.  Missing: texts with placeholders that are not closed.  In a run, save where suppressed or told already. *)
Theorem sub_variables_used_reported_partial : forall (w : world) (sp : spec) (tr : translator) (k : collection) (rg man : list string) (c : cfn) (ds : list directive) (l : list finding), wf (template c) -> closed_subs (template c) (VDict []) -> lints w sp tr k rg man c ds "W1019" l -> tells_uses c man ds l "W1019" "Fn::Sub" sub_unused.
Proof. exact fn_used. Qed.
Print Assumptions sub_variables_used_reported_partial.

(** Exactly the faults of the arguments of Fn::Select are reported.  Missing: indices that are null or lists, for which the rule ends in an exception, see below.  In a run, save where suppressed or told already. *)
Theorem select_arguments_reported_partial : forall (w : world) (sp : spec) (tr : translator) (k : collection) (rg man : list string) (c : cfn) (ds : list directive) (l : list finding), wf (template c) -> (forall p i x, occurs "Fn::Select" (template c) (VDict []) p (VList [i; x]) -> i <> VNull /\ ~ list_ok i) ->
  lints w sp tr k rg man c ds "E1017" l -> tells_uses c man ds l "E1017" "Fn::Select" (unless (select_ok (w_is_int w))).
Proof. exact fn_select. Qed.
Print Assumptions select_arguments_reported_partial.

(** Exactly the uses of Fn::Join with an empty delimiter are reported.  Missing: joins of an empty list, for which the rule ends in an exception, see below.  In a run, save where suppressed or told already. *)
Theorem needless_joins_reported_partial : forall (w : world) (sp : spec) (tr : translator) (k : collection) (rg man : list string) (c : cfn) (ds : list directive) (l : list finding), wf (template c) -> (forall p, ~ occurs "Fn::Join" (template c) (VDict []) p (VList [])) ->
  lints w sp tr k rg man c ds "I1022" l -> tells_uses c man ds l "I1022" "Fn::Join" (fun p v r => r = [] /\ exists rest, v = VList (VStr "" :: rest)).
Proof. exact fn_not_join. Qed.
Print Assumptions needless_joins_reported_partial.

(** Exactly the uses of Fn::Sub are reported whose text has no variables.  Missing: texts with placeholders that are not closed, and first arguments that are no texts, see below.  In a run, save where suppressed or told already. *)
Theorem needless_subs_reported_partial : forall (w : world) (sp : spec) (tr : translator) (k : collection) (rg man : list string) (c : cfn) (ds : list directive) (l : list finding), wf (template c) -> closed_subs (template c) (VDict []) ->
  (forall p a b, occurs "Fn::Sub" (template c) (VDict []) p (VList [a; b]) -> text a) -> lints w sp tr k rg man c ds "W1020" l -> tells_uses c man ds l "W1020" "Fn::Sub" sub_unneeded.
Proof. exact fn_unneeded. Qed.
Print Assumptions needless_subs_reported_partial.

(** Exactly the faults of the arguments of Fn::FindInMap are reported.  Missing: lists of less than two arguments and arguments that are no lists below a list, for which the rule ends in an exception, see below.  In a run, save where suppressed or told already. *)
Theorem map_arguments_reported_partial : forall (w : world) (sp : spec) (tr : translator) (k : collection) (rg man : list string) (c : cfn) (ds : list directive) (l : list finding), wf (template c) -> plain_mappings (template c) ->
  (forall p v, occurs "Fn::FindInMap" (template c) (VDict []) p v -> (exists x, v = VList x /\ 2 <= List.length x) \/ (~ list_ok v /\ forall i, ~ In (PIdx i) p)) ->
  lints w sp tr k rg man c ds "E1011" l -> tells_uses c man ds l "E1011" "Fn::FindInMap" (map_fault (template c)).
Proof. exact fn_map. Qed.
Print Assumptions map_arguments_reported_partial.

(** Exactly the keys of Fn::FindInMap are reported that the mapping does not have.  Missing: mappings of other shapes and arguments that are no lists.  In a run, save where suppressed or told already. *)
Theorem map_keys_reported_partial : forall (w : world) (sp : spec) (tr : translator) (k : collection) (rg man : list string) (c : cfn) (ds : list directive) (l : list finding), wf (template c) -> plain_maps (template c) -> (forall p v, occurs "Fn::FindInMap" (template c) (VDict []) p v -> list_ok v) ->
  lints w sp tr k rg man c ds "W1011" l -> tells_uses c man ds l "W1011" "Fn::FindInMap" (map_keys_fault (template c)).
Proof. exact fn_keys. Qed.
Print Assumptions map_keys_reported_partial.

(** Exactly the faults of the arguments of Fn::Cidr, and of the parameters they refer to, are reported, or the rule ends in an exception.  Missing: when it does; two arguments always end it, see below.  In a run, save where suppressed or told already. *)
Theorem cidr_arguments_reported_partial : forall (w : world) (sp : spec) (tr : translator) (k : collection) (rg man : list string) (c : cfn) (ds : list directive) (l : list finding), wf (template c) -> plain_parameters (template c) -> (forall x, Permutation (w_order_values w x) x) ->
  (forall p a b, ~ occurs "Fn::Cidr" (template c) (VDict []) p (VList [a; b])) -> lints w sp tr k rg man c ds "E1024" l ->
  tells_crash c man ds l "E1024" \/
  tells_places c man ds l "E1024" (fun q => faults_at "Fn::Cidr" (template c) cidr_fault q \/
    exists n, (cidr_uses (template c) (VDict []) 1 n \/ cidr_uses (template c) (VDict []) 2 n) /\ cidr_parameter_fault (template c) n q).
Proof. exact fn_cidr. Qed.
Print Assumptions cidr_arguments_reported_partial.

(** Exactly the faults of the arguments of Fn::If are reported, with their messages.  Missing: empty lists, for which the rule ends in an exception, see below.  In a run, save where suppressed or told already. *)
Theorem if_arguments_reported_partial : forall (w : world) (sp : spec) (tr : translator) (k : collection) (rg man : list string) (c : cfn) (ds : list directive) (l : list finding), wf (template c) -> (forall p, ~ occurs "Fn::If" (template c) (VDict []) p (VList [])) -> lints w sp tr k rg man c ds "E1028" l ->
  tells_exactly c man ds l "E1028" (if_faults (template c)).
Proof. exact fn_if. Qed.
Print Assumptions if_arguments_reported_partial.

(** Exactly the faults of the definitions of conditions are reported, with their messages.  Missing: a section of conditions that is no object.  In a run, save where suppressed or told already. *)
Theorem condition_definitions_reported_partial : forall (w : world) (sp : spec) (tr : translator) (k : collection) (rg man : list string) (c : cfn) (ds : list directive) (l : list finding), wf (template c) -> forall cs,
  (at_path [PKey "Conditions"] (template c) = Some (VDict cs) \/ at_path [PKey "Conditions"] (template c) = None /\ cs = []) ->
  lints w sp tr k rg man c ds "E8001" l -> tells_exactly c man ds l "E8001" (conditions_faults cs).
Proof. exact fn_configuration. Qed.
Print Assumptions condition_definitions_reported_partial.

(** Each fault of a Fn::Equals in the conditions is reported at it or below it, and nothing else is.  Missing: operands that refer to what is not defined or is ambiguous.  In a run, save where suppressed or told already. *)
Theorem equals_arguments_reported_partial : forall (w : world) (sp : spec) (tr : translator) (k : collection) (rg man : list string) (c : cfn) (ds : list directive) (l : list finding), wf (template c) -> plain_sections (template c) ->
  (forall r a b, occurs "Fn::Equals" (template c) (VDict []) (PKey "Conditions" :: r) (VList [a; b]) -> plain_operand (template c) a /\ plain_operand (template c) b) ->
  lints w sp tr k rg man c ds "E8003" l ->
  tells_each c man ds l "E8003" (fun pv => exists r, fst pv = (PKey "Conditions" :: r) /\ occurs "Fn::Equals" (template c) (VDict []) (fst pv) (snd pv) /\ ~ valid_equals (template c) (snd pv))
    (fun pv q words => at_or_below (fst pv ++ [PKey "Fn::Equals"])%list q).
Proof. exact fn_equals. Qed.
Print Assumptions equals_arguments_reported_partial.

(** Each condition that is used and not defined is reported, and nothing else is.  Missing: sections of other shapes and empty Fn::Ifs, see below.  In a run, save where suppressed or told already. *)
Theorem undefined_conditions_reported_partial : forall (w : world) (sp : spec) (tr : translator) (k : collection) (rg man : list string) (c : cfn) (ds : list directive) (l : list finding), wf (template c) -> plain_uses (template c) (VDict []) -> lints w sp tr k rg man c ds "E8002" l ->
  tells_each c man ds l "E8002" (fun n => uses_condition (template c) (VDict []) n /\ ~ condition_defined (template c) n)
    (fun n q words => words = "Condition " ++ n ++ " is not defined.").
Proof. exact fn_exists. Qed.
Print Assumptions undefined_conditions_reported_partial.

(** Exactly the uses of Fn::GetAtt are reported that name no attribute of a resource, or the rule ends in an exception.  Missing: when it does, and sections of other shapes.  In a run, save where suppressed or told already. *)
Theorem getatt_arguments_reported_partial : forall (w : world) (sp : spec) (tr : translator) (k : collection) (rg man : list string) (c : cfn) (ds : list directive) (l : list finding), wf (template c) -> plain_sections (template c) -> plain_types (w_getatts w) -> lints w sp tr k rg man c ds "E1010" l ->
  tells_crash c man ds l "E1010" \/ tells_uses c man ds l "E1010" "Fn::GetAtt" (unless (getatt_ok (w_getatts w) (template c))).
Proof. exact fn_getatt. Qed.
Print Assumptions getatt_arguments_reported_partial.

(** Exactly the uses of Fn::Join are reported whose arguments are not a text and a list of texts, or the rule ends in an exception.  Missing: when it does, and sections of other shapes.  In a run, save where suppressed or told already. *)
Theorem join_arguments_reported_partial : forall (w : world) (sp : spec) (tr : translator) (k : collection) (rg man : list string) (c : cfn) (ds : list directive) (l : list finding), wf (template c) -> plain_sections (template c) -> plain_types (w_getatts w) -> lints w sp tr k rg man c ds "E1022" l ->
  tells_crash c man ds l "E1022" \/ tells_uses c man ds l "E1022" "Fn::Join" (unless (join_ok (w_getatts w) (template c))).
Proof. exact fn_join. Qed.
Print Assumptions join_arguments_reported_partial.

(** Exactly the faults of the arguments of Fn::Sub are reported, or the rule ends in an exception.  Missing: when it does, sections of other shapes, and texts with placeholders that are not closed.  In a run, save where suppressed or told already. *)
Theorem sub_arguments_reported_partial : forall (w : world) (sp : spec) (tr : translator) (k : collection) (rg man : list string) (c : cfn) (ds : list directive) (l : list finding), wf (template c) -> plain_sections (template c) -> plain_types (w_getatts w) -> dotless_parameters (template c) -> closed_subs (template c) (VDict []) -> lints w sp tr k rg man c ds "E1019" l ->
  tells_crash c man ds l "E1019" \/ tells_uses c man ds l "E1019" "Fn::Sub" (sub_fault (w_getatts w) (template c)).
Proof. exact fn_sub. Qed.
Print Assumptions sub_arguments_reported_partial.

Example calling_lints_ : exists l, Forall (fun id => exists fi, In fi l /\ f_rule fi = id) function_ids /\ forall id, In id function_ids ->
  lints stocked small_sp no_translator (mkColl (shipped stocked) informed) ["us-east-1"] [] calling_cfn [] id l.
Proof. exact calling_lints. Qed.

Example calling_wf_ : wf (template calling_cfn).
Proof. exact calling_wf. Qed.

Example calling_sections_ : plain_sections (template calling_cfn) /\ plain_mappings (template calling_cfn) /\ plain_maps (template calling_cfn) /\ plain_parameters (template calling_cfn) /\
  dotless_parameters (template calling_cfn).
Proof. exact calling_sections. Qed.

Example calling_subs_ : closed_subs (template calling_cfn) (VDict []) /\ (forall p a b, occurs "Fn::Sub" (template calling_cfn) (VDict []) p (VList [a; b]) -> text a).
Proof. exact calling_subs. Qed.

Example calling_uses_ : (forall p i x, occurs "Fn::Select" (template calling_cfn) (VDict []) p (VList [i; x]) -> i <> VNull /\ ~ list_ok i) /\
  (forall p, ~ occurs "Fn::Join" (template calling_cfn) (VDict []) p (VList [])) /\
  (forall p v, occurs "Fn::FindInMap" (template calling_cfn) (VDict []) p v ->
    list_ok v /\ ((exists x, v = VList x /\ 2 <= List.length x) \/ (~ list_ok v /\ forall i, ~ In (PIdx i) p))) /\
  (forall p a b, ~ occurs "Fn::Cidr" (template calling_cfn) (VDict []) p (VList [a; b])) /\
  (forall p, ~ occurs "Fn::If" (template calling_cfn) (VDict []) p (VList [])).
Proof. exact calling_uses. Qed.

Example calling_condition_uses_ : plain_uses (template calling_cfn) (VDict []) /\ at_path [PKey "Conditions"] (template calling_cfn) = Some (VDict calling_conditions) /\
  (forall r a b, occurs "Fn::Equals" (template calling_cfn) (VDict []) (PKey "Conditions" :: r) (VList [a; b]) -> plain_operand (template calling_cfn) a /\ plain_operand (template calling_cfn) b).
Proof. exact calling_condition_uses. Qed.

Example stocked_types_ : plain_types (w_getatts stocked) /\ forall x, Permutation (w_order_values stocked x) x.
Proof. exact stocked_types. Qed.

(** A Fn::Select whose index is null or a list ends its rule in an exception: the run reports that instead (E0002). *)
Theorem select_null_crashes : forall (w : world) (sp : spec) (tr : translator) (k : collection) (rg man : list string) (c : cfn) (ds : list directive) (l : list finding), wf (template c) -> forall p i x,
  occurs "Fn::Select" (template c) (VDict []) p (VList [i; x]) -> i = VNull \/ list_ok i -> lints w sp tr k rg man c ds "E1017" l -> tells_crash c man ds l "E1017".
Proof. exact fn_select_crash. Qed.
Print Assumptions select_null_crashes.

(** A Fn::Join of an empty list ends the rule on needless joins in an exception. *)
Theorem empty_join_crashes : forall (w : world) (sp : spec) (tr : translator) (k : collection) (rg man : list string) (c : cfn) (ds : list directive) (l : list finding), wf (template c) -> forall p,
  occurs "Fn::Join" (template c) (VDict []) p (VList []) -> lints w sp tr k rg man c ds "I1022" l -> tells_crash c man ds l "I1022".
Proof. exact fn_not_join_crash. Qed.
Print Assumptions empty_join_crashes.

(** A Fn::Sub of two arguments, the first of which is no text, ends the rule on needless substitutions in an exception. *)
Theorem sub_of_no_text_crashes : forall (w : world) (sp : spec) (tr : translator) (k : collection) (rg man : list string) (c : cfn) (ds : list directive) (l : list finding), wf (template c) -> forall p a b,
  occurs "Fn::Sub" (template c) (VDict []) p (VList [a; b]) -> ~ text a -> lints w sp tr k rg man c ds "W1020" l -> tells_crash c man ds l "W1020".
Proof. exact fn_unneeded_crash. Qed.
Print Assumptions sub_of_no_text_crashes.

(** A Fn::If of an empty list ends the rule that would report it in an exception. *)
Theorem empty_if_crashes : forall (w : world) (sp : spec) (tr : translator) (k : collection) (rg man : list string) (c : cfn) (ds : list directive) (l : list finding), wf (template c) -> forall p,
  occurs "Fn::If" (template c) (VDict []) p (VList []) -> lints w sp tr k rg man c ds "E1028" l -> tells_crash c man ds l "E1028".
Proof. exact fn_if_crash. Qed.
Print Assumptions empty_if_crashes.

(** A Fn::If of an empty list ends the rule on undefined conditions in an exception: no undefined condition is reported. *)
Theorem empty_if_hides_conditions : forall (w : world) (sp : spec) (tr : translator) (k : collection) (rg man : list string) (c : cfn) (ds : list directive) (l : list finding), wf (template c) -> forall p,
  occurs "Fn::If" (template c) (VDict []) p (VList []) -> lints w sp tr k rg man c ds "E8002" l -> tells_crash c man ds l "E8002".
Proof. exact fn_exists_crash. Qed.
Print Assumptions empty_if_hides_conditions.

(** A Fn::FindInMap of less than two arguments ends the rule that would report it in an exception. *)
Theorem short_map_crashes : forall (w : world) (sp : spec) (tr : translator) (k : collection) (rg man : list string) (c : cfn) (ds : list directive) (l : list finding), wf (template c) -> forall m x p,
  plain_mappings (template c) -> leads (c_tmpl c) (p ++ [PKey "Fn::FindInMap"])%list (MList m x) -> List.length x < 2 ->
  lints w sp tr k rg man c ds "E1011" l -> tells_crash c man ds l "E1011".
Proof. exact fn_map_short. Qed.
Print Assumptions short_map_crashes.

(** A Fn::FindInMap of something else than a list, somewhere in a list, ends the rule that would report it in an exception. *)
Theorem map_text_crashes : forall (w : world) (sp : spec) (tr : translator) (k : collection) (rg man : list string) (c : cfn) (ds : list directive) (l : list finding), wf (template c) -> forall p v i,
  plain_mappings (template c) -> occurs "Fn::FindInMap" (template c) (VDict []) p v -> ~ list_ok v -> In (PIdx i) p ->
  lints w sp tr k rg man c ds "E1011" l -> tells_crash c man ds l "E1011".
Proof. exact fn_map_text. Qed.
Print Assumptions map_text_crashes.

(** A Fn::Cidr of two arguments, which CloudFormation accepts, ends the rule in an exception. *)
Theorem two_argument_cidr_crashes : forall (w : world) (sp : spec) (tr : translator) (k : collection) (rg man : list string) (c : cfn) (ds : list directive) (l : list finding), wf (template c) -> forall m x y p,
  plain_parameters (template c) -> leads (c_tmpl c) (p ++ [PKey "Fn::Cidr"])%list (MList m [x; y]) ->
  lints w sp tr k rg man c ds "E1024" l -> tells_crash c man ds l "E1024".
Proof. exact fn_cidr_crash. Qed.
Print Assumptions two_argument_cidr_crashes.

Example crashing_lints_ : exists l, (exists fi, In fi l /\ f_rule fi = "E0002") /\ forall id, In id crashing_ids ->
  lints stocked small_sp no_translator (mkColl (shipped stocked) informed) ["us-east-1"] [] crashing_cfn [] id l.
Proof. exact crashing_lints. Qed.

Example crashing_wf_ : wf (template crashing_cfn).
Proof. exact crashing_wf. Qed.

Example crashing_uses_ : (exists m x y, leads (c_tmpl crashing_cfn) (prop_at "A" ++ [PKey "Fn::Cidr"])%list (MList m [x; y])) /\
  (exists m x, leads (c_tmpl crashing_cfn) (prop_at "B" ++ [PKey "Fn::FindInMap"])%list (MList m x) /\ List.length x < 2) /\
  occurs "Fn::Join" (template crashing_cfn) (VDict []) (prop_at "C") (VList []) /\ occurs "Fn::If" (template crashing_cfn) (VDict []) (prop_at "D") (VList []) /\
  occurs "Fn::Select" (template crashing_cfn) (VDict []) (prop_at "E") (VList [VNull; VList []]) /\
  occurs "Fn::FindInMap" (template crashing_cfn) (VDict []) (prop_at "F" ++ [PIdx 0])%list (VStr "text") /\
  occurs "Fn::Sub" (template crashing_cfn) (VDict []) (prop_at "G") (VList [VInt 1; VDict []]) /\ plain_mappings (template crashing_cfn) /\ plain_parameters (template crashing_cfn).
Proof. exact crashing_uses. Qed.
