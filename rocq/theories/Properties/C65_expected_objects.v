(** C65 Objects and lists where they are expected. *)
From Coq Require Import List ZArith.
Import ListNotations.
From Verif.Model Require Import Base Locate Helpers Node Conditions Search Resolve Rules Refs Relationship Limits Parameters JsonDump PropertyRules Functions ValueRules PropertyTree.
From Verif.Spec Require Import Paths Branches References Attributes Expected.
From Verif.Proofs Require Import ValueWitness ExpectedProofs ExpectedWitness.
Import Verif.Model.Rules.
Local Open Scope string_scope.

(** Whenever the rule answers, it reports exactly the places, among those where the specification expects something, that hold something else, each with what is wrong. *)
Theorem expected_objects_judged : forall (resource_types property_types : list (string * ospec)) (intrinsic_types : list (string * list string)) (template : val),
  forall ms,
  wf template -> text_types template -> properties_match resource_types property_types intrinsic_types template = Ok ms ->
  forall m, In m ms <-> exists name rt props b q words, described_resource resource_types template name rt props /\
    reaches resource_types property_types rt (true, "", props, [PKey "Resources"; PKey name; PKey "Properties"]) b /\
    fault resource_types property_types intrinsic_types template rt name b q words /\ m = mkRM q words.
Proof. exact c65_expected. Qed.
Print Assumptions expected_objects_judged.

(** The rule answers for every template in which conditions have lists for arguments and Fn::GetAtt names resources that are there, when the specification describes every type that it mentions.  Missing for the full property: other templates, see below. *)
Theorem expected_objects_answered_partial : forall (resource_types property_types : list (string * ospec)) (intrinsic_types : list (string * list string)) (template : val),
  wf template -> plain_sections template -> text_types template -> (forall parent, In parent (keys resource_types) -> complete resource_types property_types parent) ->
  (forall name rt props, described_resource resource_types template name rt props -> judgeable template props) ->
  exists ms, properties_match resource_types property_types intrinsic_types template = Ok ms.
Proof. exact c65_total. Qed.
Print Assumptions expected_objects_answered_partial.

(** A Fn::GetAtt of a resource that is not there raises an exception. *)
Theorem missing_resource_refuted : exists props, run_tree props = Err EAttribute.
Proof. exact c65_getatt_refuted. Qed.
Print Assumptions missing_resource_refuted.

(** A text as a branch of a condition is accepted where a text alone is reported. *)
Theorem branch_texts_refuted : exists c a b, run_tree [("Code", alt c a b)] = Ok [] /\ (exists m, run_tree [("Code", a)] = Ok [m]) /\ exists m, run_tree [("Code", b)] = Ok [m].
Proof. exact c65_branch_refuted. Qed.
Print Assumptions branch_texts_refuted.

(** What is found in a condition inside a condition is reported at a place that is not in the template. *)
Theorem nested_place_refuted : exists m, run_tree nested_tags = Ok [m] /\ at_path (rm_path m) (tree_template nested_tags) = None.
Proof. exact c65_place_refuted. Qed.
Print Assumptions nested_place_refuted.

(** A custom resource of the generic type may give a list, but not as a branch of a condition. *)
Theorem generic_custom_refuted : run_tree [("Tags", getatt "Generic.Tags")] = Ok [] /\ exists m, run_tree [("Tags", alt "C" (getatt "Generic.Tags") (VList []))] = Ok [m].
Proof. exact c65_generic_refuted. Qed.
Print Assumptions generic_custom_refuted.

(** A property with part of the word Ref for a name passes for no value. *)
Theorem part_of_ref_refuted : run_tree [("R", VStr "AWS::NoValue")] = Ok [] /\ exists m, run_tree [("R", VStr "x")] = Ok [m].
Proof. exact c65_part_refuted. Qed.
Print Assumptions part_of_ref_refuted.

(** The branches of a condition that gives a list of texts are not looked at. *)
Theorem conditional_texts_refuted : exists x, (exists m, run_tree [("Zones", x)] = Ok [m]) /\ run_tree [("Zones", alt "C" x x)] = Ok [].
Proof. exact c65_texts_refuted. Qed.
Print Assumptions conditional_texts_refuted.

Example expected_wf_ : wf (tree_template bad_props).
Proof. exact tree_wf. Qed.

Example expected_plain_ : plain_sections (tree_template bad_props).
Proof. exact tree_plain. Qed.

Example expected_types_ : text_types (tree_template bad_props).
Proof. exact tree_types. Qed.

Example expected_complete_ : forall parent,
  In parent (keys tree_resources) -> complete tree_resources tree_properties parent.
Proof. exact tree_complete. Qed.

Example expected_judgeable_ : forall name rt props,
  described_resource tree_resources (tree_template bad_props) name rt props -> judgeable (tree_template bad_props) props.
Proof. exact tree_judgeable. Qed.

Example expected_found_ : run_tree bad_props = Ok bad_found.
Proof. exact bad_run. Qed.

Example expected_good_ : run_tree good_props = Ok [].
Proof. exact good_run. Qed.
