(** C109 The order in which members are written does not matter. *)
From Coq Require Import List String ZArith Permutation.
Import ListNotations.
From Verif.Model Require Import Base Node Locate Helpers Rules Runner Config Core Standard.
From Verif.Spec Require Import Pipeline Paths References Limited ConditionUse ParameterUse Faults Shipped ShippedPlaces Reordered.
From Verif.Proofs Require Import Samples PropertyWitness StandardWitness StandardPropWitness StandardFunctionWitness ReorderedProofs ReorderedWitness.
Import Verif.Model.Rules.
Local Open Scope string_scope.

(** Two runs of the shipped rules on templates that differ only in the order of members, at any depth, tell of misused functions at the same places in the template. *)
Theorem order_of_functions : forall w sp tr k rg man c c' ds ds' l l', wf (template c) -> reordered (template c) (template c') -> forall id,
  In id ["E1015"; "E1016"; "E1018"; "E1020"; "E1021"; "E1023"] ->
  lints w sp tr k rg man c ds id l -> lints w sp tr k rg man c' ds' id l' -> same_places c c' man ds ds' l l' id.
Proof. exact order_functions. Qed.
Print Assumptions order_of_functions.

(** They tell of the same faults, at the same places in the template and in the same words, under the rules about conditions in lists, sections, the description and policies. *)
Theorem order_of_sections : forall w sp tr k rg man c c' ds ds' l l', wf (template c) -> reordered (template c) (template c') -> forall id,
  In id ["E8004"; "E8005"; "E8006"; "W3011"; "I3011"; "E1001"; "E1004"] ->
  lints w sp tr k rg man c ds id l -> lints w sp tr k rg man c' ds' id l' -> same_reports c c' man ds ds' l l' id.
Proof. exact order_sections. Qed.
Print Assumptions order_of_sections.

(** The same for names that are not alphanumeric.  Missing for the full property: names that end with a line break. *)
Theorem order_of_names_partial : forall w sp tr k rg man c c' ds ds' l l', wf (template c) -> reordered (template c) (template c') -> forall id s ms,
  In (id, s) [("E2003", "Parameters"); ("E3006", "Resources"); ("E6004", "Outputs"); ("E7002", "Mappings")] ->
  section (template c) s ms -> (forall n x, In (n, x) ms -> forall t, n <> t ++ String "010" "") ->
  lints w sp tr k rg man c ds id l -> lints w sp tr k rg man c' ds' id l' -> same_reports c c' man ds ds' l l' id.
Proof. exact order_names. Qed.
Print Assumptions order_of_names_partial.

(** The same for parameters and outputs.  Missing: parameters and outputs that are no objects. *)
Theorem order_of_definitions_partial : forall w sp tr k rg man c c' ds ds' l l', wf (template c) -> reordered (template c) (template c') -> forall id s ms,
  In (id, s) [("E2001", "Parameters"); ("E6002", "Outputs"); ("E6005", "Outputs")] ->
  section (template c) s ms -> (forall n x, In (n, x) ms -> exists def, x = VDict def) ->
  lints w sp tr k rg man c ds id l -> lints w sp tr k rg man c' ds' id l' -> same_reports c c' man ds ds' l l' id.
Proof. exact order_definitions. Qed.
Print Assumptions order_of_definitions_partial.

(** The same for names that a resource and a parameter share.  Missing: Parameters that are no object. *)
Theorem order_of_shared_names_partial : forall w sp tr k rg man c c' ds ds' l l', wf (template c) -> reordered (template c) (template c') -> (forall d v, template c = VDict d -> assoc "Parameters" d = Some v -> exists ps, v = VDict ps) ->
  lints w sp tr k rg man c ds "E3007" l -> lints w sp tr k rg man c' ds' "E3007" l' -> same_reports c c' man ds ds' l l' "E3007".
Proof. exact order_shared. Qed.
Print Assumptions order_of_shared_names_partial.

(** The same for Fn::If.  Missing: templates on which the rule fails. *)
Theorem order_of_if_partial : forall w sp tr k rg man c c' ds ds' l l', wf (template c) -> reordered (template c) (template c') -> (forall p, ~ occurs "Fn::If" (template c) (VDict []) p (VList [])) ->
  lints w sp tr k rg man c ds "E1028" l -> lints w sp tr k rg man c' ds' "E1028" l' -> same_reports c c' man ds ds' l l' "E1028".
Proof. exact order_if. Qed.
Print Assumptions order_of_if_partial.

(** The same for conditions that are not used, where the sections have the shapes they should have. *)
Theorem order_of_conditions_partial : forall w sp tr k rg man c c' ds ds' l l', wf (template c) -> reordered (template c) (template c') -> plain_uses (template c) (VDict []) ->
  lints w sp tr k rg man c ds "W8001" l -> lints w sp tr k rg man c' ds' "W8001" l' -> same_reports c c' man ds ds' l l' "W8001".
Proof. exact order_conditions. Qed.
Print Assumptions order_of_conditions_partial.

(** The same for parameters that are not used, where their names are alphanumeric and every Fn::Sub is closed. *)
Theorem order_of_parameters_partial : forall w sp tr k rg man c c' ds ds' l l', wf (template c) -> reordered (template c) (template c') -> forall ps,
  section (template c) "Parameters" ps -> (forall n x, In (n, x) ps -> n <> "" /\ alphanumeric n) ->
  (forall p v, occurs "Fn::Sub" (template c) (VDict []) p v -> exists s, sub_text v s /\ closed s) ->
  lints w sp tr k rg man c ds "W2001" l -> lints w sp tr k rg man c' ds' "W2001" l' -> same_reports c c' man ds ds' l l' "W2001".
Proof. exact order_unused. Qed.
Print Assumptions order_of_parameters_partial.

(** The same for mappings that are not used. *)
Theorem order_of_mappings_partial : forall w sp tr k rg man c c' ds ds' l l', wf (template c) -> reordered (template c) (template c') -> forall ms,
  section (template c) "Mappings" ms -> (forall p, ~ occurs "Fn::FindInMap" (template c) (VDict []) p (VList [])) ->
  lints w sp tr k rg man c ds "W7001" l -> lints w sp tr k rg man c' ds' "W7001" l' -> same_reports c c' man ds ds' l l' "W7001".
Proof. exact order_mappings. Qed.
Print Assumptions order_of_mappings_partial.

(** The same for references to what does not exist. *)
Theorem order_of_references_partial : forall w sp tr k rg man c c' ds ds' l l', wf (template c) -> reordered (template c) (template c') -> plain_sections (template c) -> at_path [PKey "Ref"] (template c) = None ->
  (forall p v, occurs "Ref" (template c) (VDict []) p v -> (forall z, v <> VInt z) /\ forall b, v <> VBool b) ->
  lints w sp tr k rg man c ds "E1012" l -> lints w sp tr k rg man c' ds' "E1012" l' -> same_reports c c' man ds ds' l l' "E1012".
Proof. exact order_refs. Qed.
Print Assumptions order_of_references_partial.

(** A template with faults of sixteen of these rules, the template with all members in the opposite order, and the runs on both. *)
Example order_case : wf (template first_cfn) /\ reordered (template first_cfn) (template second_cfn) /\ template first_cfn <> template second_cfn /\
  exists l l', Forall (fun id => exists fi, In fi l /\ f_rule fi = id) order_ids /\ forall id, In id order_ids ->
    lints stocked small_sp no_translator (mkColl (shipped stocked) informed) ["us-east-1"] [] first_cfn [] id l /\
    lints stocked small_sp no_translator (mkColl (shipped stocked) informed) ["us-east-1"] [] second_cfn [] id l'.
Proof. exact order_case. Qed.

Example order_parts : forall s,
  In s ["Parameters"; "Outputs"] -> section (template first_cfn) s (part s) /\ (forall n x, In (n, x) (part s) -> exists def, x = VDict def) /\
  (forall n x, In (n, x) (part s) -> forall t, n <> t ++ String "010" "").
Proof. exact part_objects. Qed.

(** It meets the hypotheses of the theorems above. *)
Example order_meets : (forall d v, template first_cfn = VDict d -> assoc "Parameters" d = Some v -> exists ps, v = VDict ps) /\
  (forall p, ~ occurs "Fn::If" (template first_cfn) (VDict []) p (VList [])) /\
  plain_uses (template first_cfn) (VDict []) /\
  (forall n x, In (n, x) (part "Parameters") -> n <> "" /\ alphanumeric n) /\
  (forall p v, occurs "Fn::Sub" (template first_cfn) (VDict []) p v -> exists s, sub_text v s /\ closed s) /\
  section (template first_cfn) "Mappings" (part "Mappings") /\ (forall p, ~ occurs "Fn::FindInMap" (template first_cfn) (VDict []) p (VList [])) /\
  plain_sections (template first_cfn) /\ at_path [PKey "Ref"] (template first_cfn) = None /\
  (forall p v, occurs "Ref" (template first_cfn) (VDict []) p v -> (forall z, v <> VInt z) /\ forall b, v <> VBool b).
Proof. exact order_meets. Qed.

(** For conditions that are not defined the order matters: where two resources name such a condition, the rule E8002 tells only of the one that is written last.  In both templates that is the one on line 7; it is resource B in one and resource A in the other. *)
Theorem order_of_undefined_conditions_refuted : wf (template ab_cfn) /\ reordered (template ab_cfn) (template ba_cfn) /\
  exists l l', lints stocked small_sp no_translator (mkColl (shipped stocked) informed) ["us-east-1"] [] ab_cfn [] "E8002" l /\
    lints stocked small_sp no_translator (mkColl (shipped stocked) informed) ["us-east-1"] [] ba_cfn [] "E8002" l' /\
    told l = [("E8002", "Condition Gone is not defined.", 7%Z)] /\ told l' = [("E8002", "Condition Gone is not defined.", 7%Z)] /\
    position (c_tmpl ab_cfn) [PKey "Resources"; PKey "B"; PKey "Condition"] 2 (ln 6 4 13) /\
    position (c_tmpl ba_cfn) [PKey "Resources"; PKey "A"; PKey "Condition"] 2 (ln 6 4 13) /\
    position (c_tmpl ba_cfn) [PKey "Resources"; PKey "B"; PKey "Condition"] 2 (ln 3 4 13).
Proof. exact order_place. Qed.
Print Assumptions order_of_undefined_conditions_refuted.
