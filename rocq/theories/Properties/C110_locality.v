(** C110 What is said about one part of a template does not depend on the others. *)
From Coq Require Import List String ZArith Permutation.
Import ListNotations.
From Verif.Model Require Import Base Node Locate Helpers Rules Runner Config Core Resolve PropertyRules ValueRules Standard.
From Verif.Spec Require Import Pipeline Paths References Limited ConditionUse ParameterUse Faults Branches Walk Required Resolved Groups Sizes Values Sensitive Shipped ShippedPlaces ShippedChecks Locality.
From Verif.Proofs Require Import RuleSetWitness Samples PropertyWitness StandardWitness StandardPropWitness StandardFunctionWitness ReorderedWitness LocalityProofs LocalityWitness.
Import Verif.Model.Rules.
Local Open Scope string_scope.

(** Two runs of the shipped rules on templates that have the same part at p, whatever else they have, tell of misused functions in that part at the same places. *)
Theorem functions_stay_local : forall w sp tr k rg man c c' ds ds' l l', wf (template c) -> wf (template c') -> forall id f p,
  In (id, f) [("E1015", "Fn::GetAZs"); ("E1016", "Fn::ImportValue"); ("E1018", "Fn::Split"); ("E1020", "Ref"); ("E1021", "Fn::Base64"); ("E1023", "Fn::Not")] ->
  at_path p (template c) = at_path p (template c') -> ~ In (PKey f) p ->
  lints w sp tr k rg man c ds id l -> lints w sp tr k rg man c' ds' id l' -> same_places_about p c c' man ds ds' l l' id.
Proof. exact local_functions. Qed.
Print Assumptions functions_stay_local.

(** They tell of the same lists of conditions in that part, in the same words. *)
Theorem condition_lists_stay_local : forall w sp tr k rg man c c' ds ds' l l', wf (template c) -> wf (template c') -> forall id f p,
  In (id, f) [("E8004", "Fn::And"); ("E8005", "Fn::Not"); ("E8006", "Fn::Or")] ->
  at_path p (template c) = at_path p (template c') -> ~ In (PKey f) p ->
  lints w sp tr k rg man c ds id l -> lints w sp tr k rg man c' ds' id l' -> same_about p c c' man ds ds' l l' id.
Proof. exact local_condition_lists. Qed.
Print Assumptions condition_lists_stay_local.

(** They tell the same of the protection of a resource that both templates have. *)
Theorem protection_stays_local : forall w sp tr k rg man c c' ds ds' l l', wf (template c) -> wf (template c') -> forall id n,
  In id ["W3011"; "I3011"] -> at_path [PKey "Resources"; PKey n] (template c) = at_path [PKey "Resources"; PKey n] (template c') ->
  lints w sp tr k rg man c ds id l -> lints w sp tr k rg man c' ds' id l' -> same_about [PKey "Resources"; PKey n] c c' man ds ds' l l' id.
Proof. exact local_protection. Qed.
Print Assumptions protection_stays_local.

(** The same for Fn::If.  Missing for the full property: templates on which the rule fails. *)
Theorem if_stays_local_partial : forall w sp tr k rg man c c' ds ds' l l', wf (template c) -> wf (template c') -> forall p,
  at_path p (template c) = at_path p (template c') -> ~ In (PKey "Fn::If") p ->
  (forall q, ~ occurs "Fn::If" (template c) (VDict []) q (VList [])) -> (forall q, ~ occurs "Fn::If" (template c') (VDict []) q (VList [])) ->
  lints w sp tr k rg man c ds "E1028" l -> lints w sp tr k rg man c' ds' "E1028" l' -> same_about p c c' man ds ds' l l' "E1028".
Proof. exact local_if. Qed.
Print Assumptions if_stays_local_partial.

(** The same for names that are not alphanumeric.  Missing: names that end with a line break. *)
Theorem names_stay_local_partial : forall w sp tr k rg man c c' ds ds' l l', wf (template c) -> wf (template c') -> forall id s n ms ms',
  In (id, s) [("E2003", "Parameters"); ("E3006", "Resources"); ("E6004", "Outputs"); ("E7002", "Mappings")] ->
  at_path [PKey s; PKey n] (template c) = at_path [PKey s; PKey n] (template c') -> section (template c) s ms -> section (template c') s ms' ->
  (forall m x, In (m, x) (ms ++ ms')%list -> forall t, m <> t ++ String "010" "") ->
  lints w sp tr k rg man c ds id l -> lints w sp tr k rg man c' ds' id l' -> same_about [PKey s; PKey n] c c' man ds ds' l l' id.
Proof. exact local_names. Qed.
Print Assumptions names_stay_local_partial.

(** The same for the shape of a mapping.  Missing: Mappings that are no object. *)
Theorem mappings_stay_local_partial : forall w sp tr k rg man c c' ds ds' l l', wf (template c) -> wf (template c') -> forall n ms ms',
  at_path [PKey "Mappings"; PKey n] (template c) = at_path [PKey "Mappings"; PKey n] (template c') ->
  section (template c) "Mappings" ms -> section (template c') "Mappings" ms' ->
  lints w sp tr k rg man c ds "E7001" l -> lints w sp tr k rg man c' ds' "E7001" l' -> same_about [PKey "Mappings"; PKey n] c c' man ds ds' l l' "E7001".
Proof. exact local_mappings. Qed.
Print Assumptions mappings_stay_local_partial.

(** The same for the shape of a resource.  Missing: Resources that are no object. *)
Theorem resources_stay_local_partial : forall w sp tr k rg man c c' ds ds' l l', wf (template c) -> wf (template c') -> forall n rs rs',
  at_path [PKey "Resources"; PKey n] (template c) = at_path [PKey "Resources"; PKey n] (template c') ->
  section (template c) "Resources" rs -> section (template c') "Resources" rs' -> known_regions (w_specs w) (w_regions w) ->
  lints w sp tr k rg man c ds "E3001" l -> lints w sp tr k rg man c' ds' "E3001" l' -> same_about [PKey "Resources"; PKey n] c c' man ds ds' l l' "E3001".
Proof. exact local_resources. Qed.
Print Assumptions resources_stay_local_partial.

(** The same for a parameter or an output.  Missing: templates with parameters or outputs that are no objects. *)
Theorem definitions_stay_local_partial : forall w sp tr k rg man c c' ds ds' l l', wf (template c) -> wf (template c') -> forall id s n ms ms',
  In (id, s) [("E2001", "Parameters"); ("E2002", "Parameters"); ("E6002", "Outputs"); ("E6005", "Outputs")] ->
  at_path [PKey s; PKey n] (template c) = at_path [PKey s; PKey n] (template c') -> section (template c) s ms -> section (template c') s ms' ->
  (forall m x, In (m, x) (ms ++ ms')%list -> exists def, x = VDict def) ->
  lints w sp tr k rg man c ds id l -> lints w sp tr k rg man c' ds' id l' -> same_about [PKey s; PKey n] c c' man ds ds' l l' id.
Proof. exact local_definitions. Qed.
Print Assumptions definitions_stay_local_partial.

(** The same for the policies of a resource.  Missing: templates with an empty policy. *)
Theorem policies_stay_local_partial : forall w sp tr k rg man c c' ds ds' l l', wf (template c) -> wf (template c') -> forall id attr n,
  In (id, attr) [("E3035", "DeletionPolicy"); ("E3036", "UpdateReplacePolicy")] ->
  at_path [PKey "Resources"; PKey n] (template c) = at_path [PKey "Resources"; PKey n] (template c') ->
  (forall t m o v, t = template c \/ t = template c' -> Protect.resource t m o -> assoc attr o = Some v -> ~ empty v) ->
  lints w sp tr k rg man c ds id l -> lints w sp tr k rg man c' ds' id l' -> same_about [PKey "Resources"; PKey n] c c' man ds ds' l l' id.
Proof. exact local_policies. Qed.
Print Assumptions policies_stay_local_partial.

(** The same for the length of texts in the properties of a resource.  Missing, here and below: templates in which an object that the specification describes is of an unusual shape. *)
Theorem string_sizes_stay_local_partial : forall w sp tr k rg man c c' ds ds' l l', wf (template c) -> wf (template c') -> forall n, at_path [PKey "Resources"; PKey n] (template c) = at_path [PKey "Resources"; PKey n] (template c') -> ~ In "" (keys (rs_value_types (w_rspec w))) ->
  (each_object sp (rs_resource_types (w_rspec w)) (rs_property_types (w_rspec w)) (template c) (fun d p _ => ~ is_if (VDict d) /\ VDict d <> NoValue /\ no_null_member d p) /\ each_object sp (rs_resource_types (w_rspec w)) (rs_property_types (w_rspec w)) (template c') (fun d p _ => ~ is_if (VDict d) /\ VDict d <> NoValue /\ no_null_member d p)) ->
  lints w sp tr k rg man c ds "E3033" l -> lints w sp tr k rg man c' ds' "E3033" l' -> same_about [PKey "Resources"; PKey n] c c' man ds ds' l l' "E3033".
Proof. exact local_strings. Qed.
Print Assumptions string_sizes_stay_local_partial.

(** The same for numbers. *)
Theorem number_sizes_stay_local_partial : forall w sp tr k rg man c c' ds ds' l l', wf (template c) -> wf (template c') -> forall n, at_path [PKey "Resources"; PKey n] (template c) = at_path [PKey "Resources"; PKey n] (template c') -> ~ In "" (keys (rs_value_types (w_rspec w))) ->
  (each_object sp (rs_resource_types (w_rspec w)) (rs_property_types (w_rspec w)) (template c) (fun d p _ => ~ is_if (VDict d) /\ VDict d <> NoValue /\ no_null_member d p) /\ each_object sp (rs_resource_types (w_rspec w)) (rs_property_types (w_rspec w)) (template c') (fun d p _ => ~ is_if (VDict d) /\ VDict d <> NoValue /\ no_null_member d p)) ->
  lints w sp tr k rg man c ds "E3034" l -> lints w sp tr k rg man c' ds' "E3034" l' -> same_about [PKey "Resources"; PKey n] c c' man ds ds' l l' "E3034".
Proof. exact local_numbers. Qed.
Print Assumptions number_sizes_stay_local_partial.

(** The same for the length of lists. *)
Theorem list_sizes_stay_local_partial : forall w sp tr k rg man c c' ds ds' l l', wf (template c) -> wf (template c') -> forall n, at_path [PKey "Resources"; PKey n] (template c) = at_path [PKey "Resources"; PKey n] (template c') -> (forall x, Permutation (w_order w x) x) -> ~ In "" (keys (rs_value_types (w_rspec w))) ->
  each_object sp (rs_resource_types (w_rspec w)) (rs_property_types (w_rspec w)) (template c) (fun d p _ => all_objects (VDict d) p /\
     forall e q, branch (VDict d) p (VDict e) q -> plain_object e /\ VDict e <> no_value /\ forall m, ~ members_look_at e m) /\ (each_object sp (rs_resource_types (w_rspec w)) (rs_property_types (w_rspec w)) (template c') (fun d p _ => all_objects (VDict d) p /\
     forall e q, branch (VDict d) p (VDict e) q -> plain_object e /\ VDict e <> no_value /\ forall m, ~ members_look_at e m)) ->
  lints w sp tr k rg man c ds "E3032" l -> lints w sp tr k rg man c' ds' "E3032" l' -> same_about [PKey "Resources"; PKey n] c c' man ds ds' l l' "E3032".
Proof. exact local_lists. Qed.
Print Assumptions list_sizes_stay_local_partial.

(** The same for allowed values. *)
Theorem allowed_values_stay_local_partial : forall w sp tr k rg man c c' ds ds' l l', wf (template c) -> wf (template c') -> forall n, at_path [PKey "Resources"; PKey n] (template c) = at_path [PKey "Resources"; PKey n] (template c') -> ~ In "" (keys (w_values w)) ->
  (each_object sp (rs_resource_types (w_rspec w)) (rs_property_types (w_rspec w)) (template c) (fun d p _ => all_objects (VDict d) p /\ no_null_property (VDict d) p) /\ each_object sp (rs_resource_types (w_rspec w)) (rs_property_types (w_rspec w)) (template c') (fun d p _ => all_objects (VDict d) p /\ no_null_property (VDict d) p)) ->
  lints w sp tr k rg man c ds "E3030" l -> lints w sp tr k rg man c' ds' "E3030" l' -> same_about [PKey "Resources"; PKey n] c c' man ds ds' l l' "E3030".
Proof. exact local_values. Qed.
Print Assumptions allowed_values_stay_local_partial.

(** The same for patterns. *)
Theorem patterns_stay_local_partial : forall w sp tr k rg man c c' ds ds' l l', wf (template c) -> wf (template c') -> forall n, at_path [PKey "Resources"; PKey n] (template c) = at_path [PKey "Resources"; PKey n] (template c') -> ~ In "" (keys (w_values w)) ->
  (each_object sp (rs_resource_types (w_rspec w)) (rs_property_types (w_rspec w)) (template c) (fun d p _ => all_objects (VDict d) p /\ no_null_property (VDict d) p) /\ each_object sp (rs_resource_types (w_rspec w)) (rs_property_types (w_rspec w)) (template c') (fun d p _ => all_objects (VDict d) p /\ no_null_property (VDict d) p)) ->
  lints w sp tr k rg man c ds "E3031" l -> lints w sp tr k rg man c' ds' "E3031" l' -> same_about [PKey "Resources"; PKey n] c c' man ds ds' l l' "E3031".
Proof. exact local_patterns. Qed.
Print Assumptions patterns_stay_local_partial.

(** The same for secure dynamic references. *)
Theorem secure_texts_stay_local_partial : forall w sp tr k rg man c c' ds ds' l l', wf (template c) -> wf (template c') -> forall n, at_path [PKey "Resources"; PKey n] (template c) = at_path [PKey "Resources"; PKey n] (template c') -> each_object sp (rs_resource_types (w_rspec w)) (rs_property_types (w_rspec w)) (template c) (fun d p _ => no_null_member d p /\
     forall prop x r, assoc prop d = Some x -> ~ single x (p ++ [PKey prop])%list (VDict [("Fn::Sub", VList [])]) r) /\ (each_object sp (rs_resource_types (w_rspec w)) (rs_property_types (w_rspec w)) (template c') (fun d p _ => no_null_member d p /\
     forall prop x r, assoc prop d = Some x -> ~ single x (p ++ [PKey prop])%list (VDict [("Fn::Sub", VList [])]) r)) ->
  lints w sp tr k rg man c ds "E1027" l -> lints w sp tr k rg man c' ds' "E1027" l' -> same_about [PKey "Resources"; PKey n] c c' man ds ds' l l' "E1027".
Proof. exact local_secure. Qed.
Print Assumptions secure_texts_stay_local_partial.

(** The same for properties that exclude each other. *)
Theorem exclusive_stays_local_partial : forall w sp tr k rg man c c' ds ds' l l', wf (template c) -> wf (template c') -> forall n, at_path [PKey "Resources"; PKey n] (template c) = at_path [PKey "Resources"; PKey n] (template c') -> (forall x, Permutation (w_order w x) x) ->
  (each_object sp (fst (w_exclusive w)) (snd (w_exclusive w)) (template c) (fun d p _ => plain_object d /\ VDict d <> no_value /\ forall m, ~ members_look_at d m) /\ each_object sp (fst (w_exclusive w)) (snd (w_exclusive w)) (template c') (fun d p _ => plain_object d /\ VDict d <> no_value /\ forall m, ~ members_look_at d m)) ->
  lints w sp tr k rg man c ds "E2520" l -> lints w sp tr k rg man c' ds' "E2520" l' -> same_about [PKey "Resources"; PKey n] c c' man ds ds' l l' "E2520".
Proof. exact local_exclusive. Qed.
Print Assumptions exclusive_stays_local_partial.

(** The same for properties that demand each other. *)
Theorem inclusive_stays_local_partial : forall w sp tr k rg man c c' ds ds' l l', wf (template c) -> wf (template c') -> forall n, at_path [PKey "Resources"; PKey n] (template c) = at_path [PKey "Resources"; PKey n] (template c') -> (forall x, Permutation (w_order w x) x) ->
  (each_object sp (fst (w_inclusive w)) (snd (w_inclusive w)) (template c) (fun d p _ => plain_object d /\ VDict d <> no_value /\ forall m, ~ members_look_at d m) /\ each_object sp (fst (w_inclusive w)) (snd (w_inclusive w)) (template c') (fun d p _ => plain_object d /\ VDict d <> no_value /\ forall m, ~ members_look_at d m)) ->
  lints w sp tr k rg man c ds "E2521" l -> lints w sp tr k rg man c' ds' "E2521" l' -> same_about [PKey "Resources"; PKey n] c c' man ds ds' l l' "E2521".
Proof. exact local_inclusive. Qed.
Print Assumptions inclusive_stays_local_partial.

(** The same for groups of which at least one is needed. *)
Theorem at_least_one_stays_local_partial : forall w sp tr k rg man c c' ds ds' l l', wf (template c) -> wf (template c') -> forall n, at_path [PKey "Resources"; PKey n] (template c) = at_path [PKey "Resources"; PKey n] (template c') -> (forall x, Permutation (w_order w x) x) -> (each_object sp (fst (w_at_least_one w)) (snd (w_at_least_one w)) (template c) (fun d p groups => groups_fit d p groups) /\ each_object sp (fst (w_at_least_one w)) (snd (w_at_least_one w)) (template c') (fun d p groups => groups_fit d p groups)) ->
  lints w sp tr k rg man c ds "E2522" l -> lints w sp tr k rg man c' ds' "E2522" l' -> same_about [PKey "Resources"; PKey n] c c' man ds ds' l l' "E2522".
Proof. exact local_at_least. Qed.
Print Assumptions at_least_one_stays_local_partial.

(** The same for groups of which exactly one is needed. *)
Theorem only_one_stays_local_partial : forall w sp tr k rg man c c' ds ds' l l', wf (template c) -> wf (template c') -> forall n, at_path [PKey "Resources"; PKey n] (template c) = at_path [PKey "Resources"; PKey n] (template c') -> (forall x, Permutation (w_order w x) x) -> (each_object sp (fst (w_only_one w)) (snd (w_only_one w)) (template c) (fun d p groups => groups_fit d p groups) /\ each_object sp (fst (w_only_one w)) (snd (w_only_one w)) (template c') (fun d p groups => groups_fit d p groups)) ->
  lints w sp tr k rg man c ds "E2523" l -> lints w sp tr k rg man c' ds' "E2523" l' -> same_about [PKey "Resources"; PKey n] c c' man ds ds' l l' "E2523".
Proof. exact local_only_one. Qed.
Print Assumptions only_one_stays_local_partial.

(** The same for required properties. *)
Theorem required_stays_local_partial : forall w sp tr k rg man c c' ds ds' l l', wf (template c) -> wf (template c') -> forall n, at_path [PKey "Resources"; PKey n] (template c) = at_path [PKey "Resources"; PKey n] (template c') -> (forall t, t = template c \/ t = template c' -> types_are_texts t /\ objects_nested sp (rs_property_types (w_rspec w)) t /\
    (forall name rt attrs x, resource_of t name rt attrs -> custom_type (w_rspec w) rt -> assoc "Properties" attrs = Some x ->
       exists props, x = VDict props /\ all_members (VDict props) [PKey "Resources"; PKey name; PKey "Properties"]) /\
    (forall m d p specs, object_with sp (rs_resource_types (w_rspec w)) (rs_property_types (w_rspec w)) t m d p specs -> all_members (VDict d) p)) ->
  lints w sp tr k rg man c ds "E3003" l -> lints w sp tr k rg man c' ds' "E3003" l' -> same_about [PKey "Resources"; PKey n] c c' man ds ds' l l' "E3003".
Proof. exact local_required. Qed.
Print Assumptions required_stays_local_partial.

(** Two templates that share parts, in which the rules find faults, and the runs on both. *)
Example shared_case : wf (template first_cfn) /\ wf (template third_cfn) /\
  (forall id p, In (id, p) shared_parts -> at_path p (template first_cfn) = at_path p (template third_cfn) /\ at_path p (template first_cfn) <> None) /\
  exists l l', Forall (fun idp => exists fi fi', In fi l /\ In fi' l' /\ f_rule fi = fst idp /\ f_rule fi' = fst idp) shared_parts /\ forall id p, In (id, p) shared_parts ->
    lints stocked small_sp no_translator (mkColl (shipped stocked) informed) ["us-east-1"] [] first_cfn [] id l /\
    lints stocked small_sp no_translator (mkColl (shipped stocked) informed) ["us-east-1"] [] third_cfn [] id l'.
Proof. exact shared_case. Qed.

(** They meet the hypotheses of the theorems above. *)
Example shared_meets : (forall c s, In c [first_cfn; third_cfn] -> In s ["Parameters"; "Outputs"; "Mappings"; "Resources"] -> section (template c) s (parts c s) /\
     (forall n x, In (n, x) (parts c s) -> (exists def, x = VDict def) /\ forall t, n <> t ++ String "010" "")) /\
  (forall c q, In c [first_cfn; third_cfn] -> ~ occurs "Fn::If" (template c) (VDict []) q (VList [])) /\
  (forall t m o v attr, t = template first_cfn \/ t = template third_cfn -> In attr ["DeletionPolicy"; "UpdateReplacePolicy"] -> Protect.resource t m o -> assoc attr o = Some v -> ~ Faults.empty v) /\
  Faults.known_regions (w_specs stocked) (w_regions stocked).
Proof. exact shared_meets. Qed.

(** The same for the theorems on properties: a template with many resources and one with two of them. *)
Example spare_case : wf (template busy_cfn) /\ wf (template spare_cfn) /\
  (forall id n, In (id, n) spare_ids -> at_path [PKey "Resources"; PKey n] (template busy_cfn) = at_path [PKey "Resources"; PKey n] (template spare_cfn)) /\
  exists l l', Forall (fun idn => exists fi fi', In fi l /\ In fi' l' /\ f_rule fi = fst idn /\ f_rule fi' = fst idn) spare_ids /\ forall id n, In (id, n) spare_ids ->
    lints stocked small_sp no_translator (mkColl (shipped stocked) default_settings) ["us-east-1"] [] busy_cfn [] id l /\
    lints stocked small_sp no_translator (mkColl (shipped stocked) default_settings) ["us-east-1"] [] spare_cfn [] id l'.
Proof. exact spare_case. Qed.

(** They meet the hypotheses of these theorems. *)
Example spare_meets : let rs := w_rspec stocked in
  ~ In "" (keys (rs_value_types rs)) /\ ~ In "" (keys (w_values stocked)) /\ (forall x, Permutation (w_order stocked x) x) /\
  (let both good := each_object small_sp (rs_resource_types rs) (rs_property_types rs) (template busy_cfn) good /\ each_object small_sp (rs_resource_types rs) (rs_property_types rs) (template spare_cfn) good in
   both (fun d p _ => ~ is_if (VDict d) /\ VDict d <> NoValue /\ no_null_member d p) /\
   both (fun d p _ => all_objects (VDict d) p /\ forall e q, branch (VDict d) p (VDict e) q -> plain_object e /\ VDict e <> no_value /\ forall m, ~ members_look_at e m) /\
   both (fun d p _ => all_objects (VDict d) p /\ no_null_property (VDict d) p) /\
   both (fun d p _ => no_null_member d p /\ forall prop x r, assoc prop d = Some x -> ~ single x (p ++ [PKey prop])%list (VDict [("Fn::Sub", VList [])]) r)) /\
  (let both (tables : list (string * list (string * list string)) * list (string * list (string * list string))) good :=
     each_object small_sp (fst tables) (snd tables) (template busy_cfn) good /\ each_object small_sp (fst tables) (snd tables) (template spare_cfn) good in
   both (w_exclusive stocked) (fun d p _ => plain_object d /\ VDict d <> no_value /\ forall m, ~ members_look_at d m) /\
   both (w_inclusive stocked) (fun d p _ => plain_object d /\ VDict d <> no_value /\ forall m, ~ members_look_at d m)) /\
  (let both (tables : list (string * list (list string)) * list (string * list (list string))) :=
     each_object small_sp (fst tables) (snd tables) (template busy_cfn) (fun d p groups => groups_fit d p groups) /\ each_object small_sp (fst tables) (snd tables) (template spare_cfn) (fun d p groups => groups_fit d p groups) in
   both (w_at_least_one stocked) /\ both (w_only_one stocked)).
Proof. exact spare_meets. Qed.

Example spare_required : forall t,
  t = template busy_cfn \/ t = template spare_cfn -> types_are_texts t /\ objects_nested small_sp (rs_property_types (w_rspec stocked)) t /\
  (forall name rt attrs x, resource_of t name rt attrs -> custom_type (w_rspec stocked) rt -> assoc "Properties" attrs = Some x ->
     exists props, x = VDict props /\ all_members (VDict props) [PKey "Resources"; PKey name; PKey "Properties"]) /\
  (forall m d p specs, object_with small_sp (rs_resource_types (w_rspec stocked)) (rs_property_types (w_rspec stocked)) t m d p specs -> all_members (VDict d) p).
Proof. exact spare_required. Qed.
