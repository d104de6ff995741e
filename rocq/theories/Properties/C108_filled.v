(** C108 What a report without findings guarantees about properties. *)
From Coq Require Import List String ZArith Permutation.
Import ListNotations.
From Verif.Model Require Import Base Node Locate Helpers Rules Runner Config Core PropertyRules ValueRules PropertyTree Standard.
From Verif.Spec Require Import Pipeline Paths References Branches Walk Required Resolved Groups Sizes Values Expected Shipped ShippedChecks Crashes Filled.
From Verif.Proofs Require Import CrashWitness PropertyWitness StandardPropWitness FilledProofs FilledWitness FilledKnown.
Import Verif.Model.Rules.
Local Open Scope string_scope.

(** If the report of a run with the shipped rules is empty, the rules about properties are selected and no directive in the template disables a rule, then for the properties of every resource that the specification describes, and for every object nested in them: no required property is missing, whatever branches of Fn::If are chosen; values are among those the specification lists and match its patterns; lists, texts and numbers are within their bounds; properties that exclude each other are not both given, those that belong together are, and groups have the members they need.  Each part is stated for each object by itself, with the conditions on that object that are written in Spec/Filled.v: missing are values in objects that depend on conditions or have members that are null. *)
Theorem clean_properties_partial : forall w sp tr k rg man c,
  plain_run w sp tr k rg man c [] -> get_directives (c_tmpl c) = Ok [] ->
  (forall id, In id filling_rules -> selected id false (s_experimental (k_set k)) (s_ignore (k_set k)) (s_include (k_set k)) (s_mandatory (k_set k))) ->
  types_are_texts (template c) -> (forall l, Permutation (w_order w l) l) -> ~ In "" (keys (w_values w)) -> ~ In "" (keys (rs_value_types (w_rspec w))) ->
  let text := py_str (w_str w) in
  nothing_missing sp (template c) (w_rspec w) /\
  values_allowed sp (template c) (w_rspec w) (w_values w) text /\ values_match sp (template c) (w_rspec w) (w_values w) text (w_matches w) /\
  lists_fit sp (template c) (w_rspec w) /\ texts_fit sp (template c) (w_rspec w) /\ numbers_fit sp (template c) (w_rspec w) (w_py_float w) /\
  none_excluded sp (template c) (fst (w_exclusive w)) (snd (w_exclusive w)) /\ none_alone sp (template c) (fst (w_inclusive w)) (snd (w_inclusive w)) /\
  each_group_given sp (template c) (fst (w_at_least_one w)) (snd (w_at_least_one w)) /\ each_group_once sp (template c) (fst (w_only_one w)) (snd (w_only_one w)).
Proof. exact c108_filled. Qed.
Print Assumptions clean_properties_partial.

(** A template with properties of all these kinds, and its run. *)
Example clean_properties_case : (plain_run ample small_sp keeping all_rules ["us-east-1"] [] (crash_cfn full_template) [] /\ get_directives (c_tmpl (crash_cfn full_template)) = Ok [] /\
  (forall id, In id filling_rules -> selected id false (s_experimental (k_set all_rules)) (s_ignore (k_set all_rules)) (s_include (k_set all_rules)) (s_mandatory (k_set all_rules))) /\
  types_are_texts (template (crash_cfn full_template)) /\ (forall l, Permutation (w_order ample l) l) /\ ~ In "" (keys (w_values ample)) /\ ~ In "" (keys (rs_value_types (w_rspec ample)))) /\
  (exists specs ps, object_with small_sp (rs_resource_types (w_rspec ample)) (rs_property_types (w_rspec ample)) full_template "AWS::Events::Rule" full_properties full_place specs /\
     In ("State", ps) specs /\ ps_required ps = true /\ branch (VDict full_properties) full_place (VDict full_properties) full_place) /\
  (exists q specs ps, object_with small_sp (rs_resource_types (w_rspec ample)) (rs_property_types (w_rspec ample)) full_template "AWS::Events::Rule.Target"
     [("Arn", VStr "long one"); ("Id", VStr "good")] q specs /\ In ("Arn", ps) specs /\ ps_required ps = true) /\
  (exists groups, object_with small_sp (fst (w_only_one ample)) (snd (w_only_one ample)) full_template "AWS::Events::Rule" full_properties full_place groups /\ groups <> []).
Proof. exact full_case. Qed.

(** With rule E3002 selected, nothing in the properties of described resources is unknown to the specification or of another shape than it says.  Missing are templates for which E3002 ends in an exception. *)
Theorem clean_known_properties_partial : forall w sp tr k rg man c,
  plain_run w sp tr k rg man c [] -> get_directives (c_tmpl c) = Ok [] ->
  selected "E3002" false (s_experimental (k_set k)) (s_ignore (k_set k)) (s_include (k_set k)) (s_mandatory (k_set k)) ->
  plain_sections (template c) -> text_types (template c) ->
  let rts := w_resource_objects w in let pts := w_property_objects w in
  (forall parent, In parent (keys rts) -> complete rts pts parent) ->
  (forall name rt props, described_resource rts (template c) name rt props -> Expected.judgeable (template c) props) ->
  forall name rt props b q words, described_resource rts (template c) name rt props ->
    reaches rts pts rt (true, "", props, [PKey "Resources"; PKey name; PKey "Properties"]) b ->
    ~ Expected.fault rts pts (w_intrinsic_types w) (template c) rt name b q words.
Proof. exact c108_known. Qed.
Print Assumptions clean_known_properties_partial.

Example clean_known_properties_case : (plain_run ample small_sp keeping all_rules ["us-east-1"] [] (crash_cfn full_template) [] /\ get_directives (c_tmpl (crash_cfn full_template)) = Ok [] /\
  selected "E3002" false (s_experimental (k_set all_rules)) (s_ignore (k_set all_rules)) (s_include (k_set all_rules)) (s_mandatory (k_set all_rules)) /\
  plain_sections (template (crash_cfn full_template)) /\ text_types (template (crash_cfn full_template)) /\
  (forall parent, In parent (keys (w_resource_objects ample)) -> complete (w_resource_objects ample) (w_property_objects ample) parent) /\
  (forall name rt props, described_resource (w_resource_objects ample) (template (crash_cfn full_template)) name rt props -> Expected.judgeable (template (crash_cfn full_template)) props)) /\
  exists props, described_resource (w_resource_objects ample) (template (crash_cfn full_template)) "B" "AWS::CloudFormation::CustomResource" props.
Proof. exact known_case. Qed.
