(** C27 Required properties. *)
From Coq Require Import List.
Import ListNotations.
From Verif.Model Require Import Base Locate Rules Relationship PropertyRules.
From Verif.Spec Require Import Paths Branches Walk Required.
From Verif.Proofs Require Import PropertyRuleProofs PropertyWitness Samples.
Import Verif.Model.Rules.
Local Open Scope string_scope.

(** For each choice of Fn::If branches around the properties of a resource, the required properties that the chosen value lacks are reported at its path, and nothing else. *)
Theorem missing_properties_reported : forall rs props p rt,
  all_members (VDict props) p ->
  exists ms, required_props rs (VDict props) rt p = Ok ms /\
    forall m, In m ms <-> exists w q name, branch (VDict props) p w q /\ requires (rs_resource_types rs) rt name /\ lacks w name /\
      m = mkRM q ("Property " ++ name ++ " missing at " ++ path_text q).
Proof. exact c27_objects. Qed.
Print Assumptions missing_properties_reported.

(** The same for a nested object and the type it has. *)
Theorem missing_nested_properties_reported : forall rs props p pt,
  all_members (VDict props) p ->
  exists ms, required_subs rs (VDict props) pt p = Ok ms /\
    forall m, In m ms <-> exists w q name, branch (VDict props) p w q /\ requires (rs_property_types rs) pt name /\ lacks w name /\
      m = mkRM q ("Property " ++ name ++ " missing at " ++ path_text q).
Proof. exact c27_nested. Qed.
Print Assumptions missing_nested_properties_reported.

(** Custom resources that the specification does not list are checked like AWS::CloudFormation::CustomResource. *)
Theorem missing_custom_properties_reported : forall rs t,
  (forall name rt attrs x, resource_of t name rt attrs -> custom_type rs rt -> assoc "Properties" attrs = Some x ->
     exists props, x = VDict props /\ all_members (VDict props) [PKey "Resources"; PKey name; PKey "Properties"]) ->
  forall ms, required_match rs t = Ok ms ->
  forall m, In m ms <-> exists name rt attrs props w q prop, resource_of t name rt attrs /\ custom_type rs rt /\
    assoc "Properties" attrs = Some (VDict props) /\ branch (VDict props) [PKey "Resources"; PKey name; PKey "Properties"] w q /\
    requires (rs_resource_types rs) "AWS::CloudFormation::CustomResource" prop /\ lacks w prop /\
    m = mkRM q ("Property " ++ prop ++ " missing at " ++ path_text q).
Proof. exact c27_custom. Qed.
Print Assumptions missing_custom_properties_reported.

(** Nothing is reported twice. *)
Theorem missing_properties_reported_once : forall required props p,
  NoDup required -> forall ms, required_check (VDict props) required p = Ok ms -> NoDup ms.
Proof. exact required_NoDup. Qed.
Print Assumptions missing_properties_reported_once.

(** A branch that is a number, a Boolean or null makes the check fail instead: nothing is reported for the other branches either. *)
Theorem scalar_branch_refuted : forall required props p w q,
  required <> [] -> branch (VDict props) p w q -> ~ has_members w -> required_check (VDict props) required p = Err ETypeErr.
Proof. exact required_fails. Qed.
Print Assumptions scalar_branch_refuted.

(** In a run with this rule enabled the report is among the findings ... *)
Theorem missing_property_is_in_the_findings : forall sp k c raw rs name rt attrs pd m0 d0 d q prop,
  snd (coll_run sp k c) = Ok raw -> In (required_rule rs) (k_all k) -> enabled (k_set k) (required_rule rs) = true ->
  wf (template c) -> c_tmpl c = MDict m0 d0 -> resource_of (template c) name rt attrs -> assoc "Properties" attrs = Some (VDict pd) ->
  all_members (VDict pd) [PKey "Resources"; PKey name; PKey "Properties"] ->
  branch (VDict pd) [PKey "Resources"; PKey name; PKey "Properties"] d q -> requires (rs_resource_types rs) rt prop -> lacks d prop ->
  exists f, locate_match c "E3003" (mkRM q ("Property " ++ prop ++ " missing at " ++ path_text q)) = Ok f /\ In f raw.
Proof. exact required_in_run. Qed.
Print Assumptions missing_property_is_in_the_findings.

(** ... and so is that of a nested object, wherever the specification leads to it. *)
Theorem missing_nested_property_is_in_the_findings : forall sp k c raw rs name rt attrs pd m0 d0 n w q d q' prop,
  snd (coll_run sp k c) = Ok raw -> In (required_rule rs) (k_all k) -> enabled (k_set k) (required_rule rs) = true ->
  wf (template c) -> c_tmpl c = MDict m0 d0 -> resource_of (template c) name rt attrs -> assoc "Properties" attrs = Some (VDict pd) ->
  resource_nested sp rt (VDict pd) [PKey "Resources"; PKey name; PKey "Properties"] n (VDict w) q -> ~ is_if (VDict w) -> 
  branch (VDict w) q d q' -> requires (rs_property_types rs) n prop -> lacks d prop ->
  exists f, locate_match c "E3003" (mkRM q' ("Property " ++ prop ++ " missing at " ++ path_text q')) = Ok f /\ In f raw.
Proof. exact required_nested_in_run. Qed.
Print Assumptions missing_nested_property_is_in_the_findings.

Example required_example_ : let k := mkColl [required_rule sample_rs] default_settings in
  exists raw, snd (coll_run sample_sp k sample_cfn) = Ok raw /\
    map f_msg raw = ["Property ServiceToken missing at Resources/C/Properties";
                     "Property Kind missing at Resources/T/Properties/Fn::If/1";
                     "Property Id missing at Resources/T/Properties/Fn::If/1/Rules/1"].
Proof. exact required_example. Qed.

Example required_meets_the_hypotheses : In (required_rule sample_rs) (k_all (mkColl [required_rule sample_rs] default_settings)) /\ enabled default_settings (required_rule sample_rs) = true /\
  wf (template sample_cfn) /\ (exists m d, c_tmpl sample_cfn = MDict m d) /\ resource_of (template sample_cfn) "T" "AWS::X::Table" sample_attrs /\
  all_members (VDict sample_props) [PKey "Resources"; PKey "T"; PKey "Properties"] /\
  requires (rs_resource_types sample_rs) "AWS::X::Table" "Kind" /\
  (exists w q, branch (VDict sample_props) [PKey "Resources"; PKey "T"; PKey "Properties"] w q /\ lacks w "Kind") /\
  (exists d q, resource_nested sample_sp "AWS::X::Table" (VDict sample_props) [PKey "Resources"; PKey "T"; PKey "Properties"] "AWS::X::Table.Rule" (VDict d) q /\
     ~ is_if (VDict d) /\ branch (VDict d) q (VDict d) q /\ requires (rs_property_types sample_rs) "AWS::X::Table.Rule" "Id" /\ lacks (VDict d) "Id").
Proof. exact required_hypotheses. Qed.
