(** C99 What a run with the shipped rules reports of settings, experiments, repeated items and conditional references. *)
From Coq Require Import List String ZArith QArith Bool Permutation.
Import ListNotations.
From Verif.Model Require Import Base Node Locate Helpers Conditions Search Resolve Rules Runner Config Core Relationship JsonDump PropertyRules ValueRules SubNeeded Iam Standard.
From Verif.Spec Require Import Pipeline Paths Branches References Walk Required Truth Resolved Groups SameJson Values Substitution Iam Permissions Shipped ShippedChecks Configured.
From Verif.Proofs Require Import StandardConfigured StandardRelations ConditionWitness RelationRule IamWitness PermissionWitness Samples StandardWitness StandardPropWitness StandardConfiguredWitness.
Import Verif.Model.Rules.
Local Open Scope string_scope.

Import Verif.Spec.Truth.
(** With the setting [custom_excludes] of E1029, exactly the variables in texts are reported that nothing substitutes and the setting does not spare.  Missing: variables in definitions of state machines, whose places are wrong, and templates with Globals.  In a run, save where suppressed or told already. *)
Theorem variables_reported_partial : forall w sp tr k rg man c ds l cfg r,
  lints_with w sp tr k rg man c ds "E1029" false cfg l -> wf (template c) ->
  assoc "custom_excludes" cfg = Some (VStr r) -> (forall d, template c = VDict d -> assoc "Globals" d = None) -> plain_definitions (template c) ->
  tells_exactly c man ds l "E1029" (fun q words => exists s n, at_path q (template c) = Some (VStr s) /\ has_variable s n /\ ~ excused (template c) q n /\ ~ spared (w_matches w) r n /\
    words = "Found an embedded parameter """ ++ ("${" ++ n ++ "}") ++ """ outside of an ""Fn::Sub"" at " ++ path_text q).
Proof. exact set_variables. Qed.
Print Assumptions variables_reported_partial.

(** With the setting [strict] of E3012, exactly the values are reported that are not of the type of their property.  Missing: values that may be null, and nested values that are no objects.  In a run, save where suppressed or told already. *)
Theorem types_reported_partial : forall w sp tr k rg man c ds l cfg strict,
  lints_with w sp tr k rg man c ds "E3012" false cfg l -> wf (template c) -> assoc "strict" cfg = Some strict ->
  let rs := w_rspec w in objects_nested sp (rs_property_types rs) (template c) ->
  (forall n d p specs, object_with sp (rs_resource_types rs) (rs_property_types rs) (template c) n d p specs -> no_null_member d p) ->
  tells_exactly c man ds l "E3012" (fun q words => exists n d p specs, object_with sp (rs_resource_types rs) (rs_property_types rs) (template c) n d p specs /\
    exists prop x ps t b v r y, assoc prop d = Some x /\ assoc prop specs = Some ps /\ has_primitive ps t /\ strict_at (truthy strict) n prop b /\
      single x (p ++ [PKey prop])%list v r /\ primitive_in ps v r y q /\ ~ of_type (w_is_int w) (w_is_float w) b t y /\
      words = (if smem t ["String"; "Boolean"; "Double"; "Integer"; "Long"] then "Property " ++ path_text q ++ " should be of type " ++ t else "Property should be of type " ++ t ++ " at " ++ path_text q)).
Proof. exact set_types. Qed.
Print Assumptions types_reported_partial.

(** If experimental rules are wanted, exactly the actions of policies are reported that no service has.  Missing: documents of other shapes.  In a run, save where suppressed or told already. *)
Theorem permissions_reported_partial : forall w services sp tr k rg man c ds l cfg,
  lints_with w sp tr k rg man c ds "W3037" true cfg l -> wf (template c) -> w_services w = load_service_map services ->
  (forall rt pd p, properties_of (template c) rt pd p -> In rt permission_rule_types -> permissions_shaped (w_json w) pd p) ->
  tells_exactly c man ds l "W3037" (fun q words => exists rt pd p, properties_of (template c) rt pd p /\ In rt permission_rule_types /\
    exists x q0 v r, document_at permission_document_names pd p x q0 /\ single x q0 v r /\ ~ is_call v /\ permission_fault (w_json w) services v r q words).
Proof. exact set_permissions. Qed.
Print Assumptions permissions_reported_partial.

(** Exactly the repeated items of lists are reported in which the specification forbids them.  Missing: lists under conditions, and digests that do not tell items apart.  In a run, save where suppressed or told already. *)
Theorem repeated_items_reported_partial : forall w sp tr k rg man c ds l,
  lints w sp tr k rg man c ds "E3037" l -> wf (template c) -> float_texts (w_float_text w) -> (forall l, Permutation (w_order w l) l) ->
  let rs := w_rspec w in objects_nested sp (rs_property_types rs) (template c) ->
  (forall n d p specs, object_with sp (rs_resource_types rs) (rs_property_types rs) (template c) n d p specs -> all_objects (VDict d) p /\
     forall e q prop ps x, branch (VDict d) p (VDict e) q -> assoc prop e = Some x -> assoc prop specs = Some ps -> ps_type ps = Some "List" -> ps_duplicates ps = Some false ->
       comparable (w_sha1 w) (w_float_text w) x) ->
  tells_exactly c man ds l "E3037" (fun q words => exists n d p specs, object_with sp (rs_resource_types rs) (rs_property_types rs) (template c) n d p specs /\
    exists e r prop ps items i, branch (VDict d) p (VDict e) r /\ assoc prop e = Some (VList items) /\ assoc prop specs = Some ps /\
      ps_type ps = Some "List" /\ ps_duplicates ps = Some false /\ repeats items i /\
      q = (r ++ [PKey prop; PIdx i])%list /\ words = "List has a duplicate value at " ++ path_text q).
Proof. exact set_duplicates. Qed.
Print Assumptions repeated_items_reported_partial.

(** Exactly the repeated items of lists of texts or numbers are reported in which the specification allows them.  Missing: as before.  In a run, save where suppressed or told already. *)
Theorem allowed_repetitions_reported_partial : forall w sp tr k rg man c ds l,
  lints w sp tr k rg man c ds "I3037" l -> wf (template c) -> float_texts (w_float_text w) -> (forall l, Permutation (w_order w l) l) ->
  let rs := w_rspec w in objects_nested sp (rs_property_types rs) (template c) ->
  (forall n d p specs, object_with sp (rs_resource_types rs) (rs_property_types rs) (template c) n d p specs -> all_objects (VDict d) p /\
     forall e q prop ps x, branch (VDict d) p (VDict e) q -> assoc prop e = Some x -> assoc prop specs = Some ps -> ps_type ps = Some "List" -> ps_duplicates ps = Some true ->
       ps_primitive_item ps = Some "String" \/ ps_primitive_item ps = Some "Integer" -> comparable (w_sha1 w) (w_float_text w) x) ->
  tells_exactly c man ds l "I3037" (fun q words => exists n d p specs, object_with sp (rs_resource_types rs) (rs_property_types rs) (template c) n d p specs /\
    exists e r prop ps items i, branch (VDict d) p (VDict e) r /\ assoc prop e = Some (VList items) /\ assoc prop specs = Some ps /\
      ps_type ps = Some "List" /\ ps_duplicates ps = Some true /\ (ps_primitive_item ps = Some "String" \/ ps_primitive_item ps = Some "Integer") /\ repeats items i /\
      q = (r ++ [PKey prop; PIdx i])%list /\ words = "List has a duplicate value at " ++ path_text q).
Proof. exact set_repetitions. Qed.
Print Assumptions allowed_repetitions_reported_partial.

(** Exactly the cases are reported in which a reference is used and the resource it names is not there, as determined for C33.  Missing: references of other shapes.  In a run, save where suppressed or told already. *)
Theorem conditional_references_reported_partial : forall w sp tr k rg man c ds l,
  lints w sp tr k rg man c ds "W1001" l -> wf (template c) -> plain_conditions (template c) -> plain_references (template c) ->
  (forall names, NoDup names -> (forall n, In n names -> mem_assoc n (cs_conditions (load (w_hash w) (w_fuel w) (template c))) = true) ->
     exists scs, get_scenarios (w_order w) (load (w_hash w) (w_fuel w) (template c)) names = Ok scs) ->
  tells_exactly c man ds l "W1001" (fun q words => exists f p v n, In f ["Ref"; "Fn::GetAtt"] /\ q = (p ++ [PKey f])%list /\ at_path q (template c) = Some v /\ names_target f v n /\ ~ In n PSEUDOPARAMS /\
    exists sc out, is_resource_available (w_order w) (load (w_hash w) (w_fuel w) (template c)) (template c) q n = Ok out /\ In sc out /\
      words = call_word f ++ " to resource """ ++ n ++ """ that may not be available " ++ scenario_text sc ++ " at " ++ path_text q).
Proof. exact set_relations. Qed.
Print Assumptions conditional_references_reported_partial.

(** A reference that exists in a deployment without the resource it names is reported, with the values of the conditions.  Missing: references inside a branch for the resource's own condition (refuted in C33), and five or more unrelated conditions. *)
Theorem missing_resources_reported_partial : forall w sp tr k rg man c ds l defs parameters,
  lints w sp tr k rg man c ds "W1001" l -> wf (template c) -> plain_conditions (template c) -> plain_references (template c) ->
  (forall names, NoDup names -> (forall n, In n names -> mem_assoc n (cs_conditions (load (w_hash w) (w_fuel w) (template c))) = true) ->
     exists scs, get_scenarios (w_order w) (load (w_hash w) (w_fuel w) (template c)) names = Ok scs) ->
  (forall v, digest (w_hash w v)) -> (forall l, Permutation (w_order w l) l) ->
  section_of "Conditions" (template c) defs -> section_of "Parameters" (template c) parameters ->
  forall f p v n rc names, In f ["Ref"; "Fn::GetAtt"] -> at_path (p ++ [PKey f])%list (template c) = Some v -> names_target f v n -> ~ In n PSEUDOPARAMS ->
  condition_of "Resources" n (template c) rc -> NoDup names -> (forall x, In x names <-> x = rc \/ exists b, needs (template c) (p ++ [PKey f])%list x b) ->
  (forall b, ~ needs (template c) (p ++ [PKey f])%list rc b) ->
  (forall x, In x names -> mem_assoc x (cs_conditions (load (w_hash w) (w_fuel w) (template c))) = true) -> (List.length names <= 4 \/ some_related defs names) ->
  forall values b, deployment (w_hash w) parameters values -> gives defs values names b -> place_exists b (template c) (p ++ [PKey f])%list -> b rc = false ->
  exists sc fi, Permutation sc (scenario_of names b) /\
    finding_of c "W1001" (p ++ [PKey f])%list (call_word f ++ " to resource """ ++ n ++ """ that may not be available " ++ scenario_text sc ++ " at " ++ path_text (p ++ [PKey f])%list) fi /\
    (suppressed man ds fi \/ exists u, In u l /\ same_finding fi u).
Proof. exact set_missing. Qed.
Print Assumptions missing_resources_reported_partial.

Example variables_run_ : linted_with small_sp tuned_cfn "E1029" false [("custom_excludes", VStr "later")] /\ wf (template tuned_cfn) /\
  (forall d, template tuned_cfn = VDict d -> assoc "Globals" d = None) /\ plain_definitions (template tuned_cfn).
Proof. exact variables_run. Qed.

Example types_run_ : linted_with small_sp tuned_cfn "E3012" false [("strict", VBool false)] /\ wf (template tuned_cfn) /\ let rs := w_rspec tuned in objects_nested small_sp (rs_property_types rs) (template tuned_cfn) /\
  (forall n d p specs, object_with small_sp (rs_resource_types rs) (rs_property_types rs) (template tuned_cfn) n d p specs -> ShippedChecks.no_null_member d p).
Proof. exact types_run. Qed.

Example permissions_run_ : let c := cfn_of (with_resource key_type key_props) in linted_with small_sp c "W3037" true [] /\ wf (template c) /\ w_services tuned = load_service_map sample_services /\
  (forall rt pd p, properties_of (template c) rt pd p -> In rt permission_rule_types -> permissions_shaped (w_json tuned) pd p).
Proof. exact permissions_run. Qed.

Example repeated_example_ : linted_plain small_sp tuned_cfn "E3037" /\ linted_plain small_sp tuned_cfn "I3037" /\ wf (template tuned_cfn) /\ float_texts (w_float_text tuned) /\ (forall l, Permutation (w_order tuned l) l) /\
  let rs := w_rspec tuned in objects_nested small_sp (rs_property_types rs) (template tuned_cfn) /\
  (forall n d p specs, object_with small_sp (rs_resource_types rs) (rs_property_types rs) (template tuned_cfn) n d p specs -> all_objects (VDict d) p /\
     forall e q prop ps x, branch (VDict d) p (VDict e) q -> assoc prop e = Some x -> assoc prop specs = Some ps -> comparable (w_sha1 tuned) (w_float_text tuned) x).
Proof. exact repeated_example. Qed.

Example relations_run_ : linted_plain small_sp shop_cfn "W1001" /\ wf (template shop_cfn) /\ plain_conditions (template shop_cfn) /\ plain_references (template shop_cfn) /\
  (forall names, NoDup names -> (forall n, In n names -> mem_assoc n (cs_conditions (load (w_hash tuned) (w_fuel tuned) (template shop_cfn))) = true) ->
     exists scs, get_scenarios (w_order tuned) (load (w_hash tuned) (w_fuel tuned) (template shop_cfn)) names = Ok scs).
Proof. exact relations_run. Qed.
