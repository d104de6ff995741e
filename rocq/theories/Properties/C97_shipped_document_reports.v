(** C97 What a run with the shipped rules reports of targets, documents and described properties. *)
From Coq Require Import List String ZArith QArith Bool Permutation Relations.
Import ListNotations.
From Verif.Model Require Import Base Node Locate Helpers Rules Runner Config Core Conditions Relationship Resolve PropertyRules PropertyTree Events JsonSize Standard.
From Verif.Spec Require Import Pipeline Paths Branches References Walk Resolved Nested Attributes Permissions Expected Events JsonSize Groups Shipped ShippedPlaces.
From Verif.Proofs Require Import StandardDocuments Samples RuleSetWitness StandardWitness StandardPropWitness StandardFunctionWitness PropertyRuleProofs GroupWitness PropertyWitness IamWitness GraphProofs DuplicateWitness RegistryWitness SubPropsWitness RecordWitness Ec2Witness RdsWitness StageWitness ActionWitness ClusterWitness ElbWitness EventWitness JsonSizeWitness LambdaWitness UpdatePolicyWitness InterfaceProofs ValueWitness ExpectedWitness StandardServiceWitness.
Import Verif.Model.Rules.
Local Open Scope string_scope.

(** Exactly the event rules with more than five targets are reported.  Missing: targets of other shapes, and names with dots.  In a run, save where suppressed or told already. *)
Theorem targets_reported_partial : forall w sp tr k rg man c ds l,
  lints w sp tr k rg man c ds "E3021" l -> wf (template c) ->
  (forall n attrs pd, resource_of (template c) n "AWS::Events::Rule" attrs -> assoc "Properties" attrs = Some (VDict pd) -> targets_shaped pd /\ without "." n) ->
  tells_exactly c man ds l "E3021" (fun q words => exists n attrs pd, resource_of (template c) n "AWS::Events::Rule" attrs /\ assoc "Properties" attrs = Some (VDict pd) /\
    many_targets n pd q /\ words = "An Events Rule can have up to 5 Targets").
Proof. exact srv_E3021. Qed.
Print Assumptions targets_reported_partial.

(** Exactly the documents are reported that are longer than the specification allows.  Missing: documents under conditions.  In a run, save where suppressed or told already. *)
Theorem documents_reported_partial : forall w sp tr k rg man c ds l,
  lints w sp tr k rg man c ds "E3502" l -> wf (template c) ->
  let rs := w_rspec w in objects_nested sp (rs_property_types rs) (template c) ->
  (forall n d p specs, object_with sp (rs_resource_types rs) (rs_property_types rs) (template c) n d p specs ->
     plain_path p /\ tidy (VDict d) /\ ~ is_if (VDict d) /\ ~ In "Ref" (keys specs) /\ limits_known (w_json_max w) specs /\ (forall n, ~ rests_on (VDict d) n) /\
     (forall prop ps limit x, assoc prop specs = Some ps -> json_limit (w_json_max w) ps limit -> assoc prop d = Some x -> subs_written x)) ->
  tells_exactly c man ds l "E3502" (fun q words => exists n d p specs, object_with sp (rs_resource_types rs) (rs_property_types rs) (template c) n d p specs /\
    exists prop ps limit x, assoc prop specs = Some ps /\ json_limit (w_json_max w) ps limit /\ assoc prop d = Some x /\ x <> no_value /\
      too_long (fun q => String.length (w_float_text w q)) limit x /\ q = (p ++ [PKey prop])%list /\ words = json_words limit).
Proof. exact srv_E3502. Qed.
Print Assumptions documents_reported_partial.

(** Exactly the faults of the described properties of resources, and of the objects in them, are reported.  Missing: specifications that are not complete, values that are not judgeable, and conditions directly inside conditions.  In a run, save where suppressed or told already. *)
Theorem properties_reported_partial : forall w sp tr k rg man c ds l,
  lints w sp tr k rg man c ds "E3002" l -> wf (template c) -> plain_sections (template c) -> text_types (template c) ->
  let rts := w_resource_objects w in let pts := w_property_objects w in
  (forall parent, In parent (keys rts) -> complete rts pts parent) ->
  (forall name rt props, described_resource rts (template c) name rt props -> judgeable (template c) props /\ forall c a b, inside props (If_of (VList [c; a; b])) -> ~ is_if a /\ ~ is_if b) ->
  tells_exactly c man ds l "E3002" (fun q words => exists name rt props (b : Expected.place), described_resource rts (template c) name rt props /\
    reaches rts pts rt (true, "", props, [PKey "Resources"; PKey name; PKey "Properties"]) b /\
    Expected.fault rts pts (w_intrinsic_types w) (template c) rt name b q words).
Proof. exact tmpl_E3002. Qed.
Print Assumptions properties_reported_partial.

Example target_run_ : let c := cfn_of event_template in linted dots small_sp c "E3021" /\ wf (template c) /\
  (forall n attrs pd, resource_of (template c) n "AWS::Events::Rule" attrs -> assoc "Properties" attrs = Some (VDict pd) -> targets_shaped pd /\ without "." n).
Proof. exact target_run. Qed.

Example json_run_ : let c := cfn_of (group_template [("Doc", long_doc)]) in let rs := w_rspec half in linted half small_sp c "E3502" /\ wf (template c) /\ objects_nested small_sp (rs_property_types rs) (template c) /\
  (forall n d p specs, object_with small_sp (rs_resource_types rs) (rs_property_types rs) (template c) n d p specs ->
     plain_path p /\ tidy (VDict d) /\ ~ is_if (VDict d) /\ ~ In "Ref" (keys specs) /\ limits_known (w_json_max half) specs /\ (forall n, ~ rests_on (VDict d) n) /\
     (forall prop ps limit x, assoc prop specs = Some ps -> json_limit (w_json_max half) ps limit -> assoc prop d = Some x -> subs_written x)).
Proof. exact json_run. Qed.

Example tree_run_ : let c := cfn_of (tree_template bad_props) in let rts := w_resource_objects dots in linted dots small_sp c "E3002" /\ wf (template c) /\ plain_sections (template c) /\ text_types (template c) /\
  (forall parent, In parent (keys rts) -> complete rts (w_property_objects dots) parent) /\
  (forall name rt props, described_resource rts (template c) name rt props -> judgeable (template c) props /\ forall c a b, Expected.inside props (If_of (VList [c; a; b])) -> ~ is_if a /\ ~ is_if b).
Proof. exact tree_run. Qed.
