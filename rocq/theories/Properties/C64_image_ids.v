(** C64 Image ids. *)
From Coq Require Import List ZArith.
Import ListNotations.
From Verif.Model Require Import Base Locate Helpers Node Conditions Search Resolve Rules Refs Relationship Limits Parameters JsonDump PropertyRules Functions ValueRules.
From Verif.Spec Require Import Paths Branches Required References ConditionUse Attributes Values ValueRefs Sensitive.
From Verif.Proofs Require Import ValueProofs PrimitiveProofs DynRefProofs ValueRefProofs SensitiveProofs ValueWitness.
Import Verif.Model.Rules.
Local Open Scope string_scope.

(** Exactly the image ids are reported that are odd objects or refer to something that is no image.  Missing for the full property: references to numbers, and names that begin with the name of a module. *)
Theorem image_ids_judged_partial : forall template globals : val, wf template -> wf globals -> plain_sections template ->
  image_parameters_only template ->
  (forall p y, occurs "ImageId" template globals p (VDict [("Ref", y)]) -> into_resources p -> exists n, y = VStr n /\ (unambiguous template n \/ unknown template n)) ->
  exists ms, image_match template globals = Ok ms /\
    forall m, In m ms <-> exists p v at_ words, occurs "ImageId" template globals p v /\ into_resources p /\ image_fault template (p ++ [PKey "ImageId"])%list v at_ words /\ m = mkRM at_ words.
Proof. exact c64_images. Qed.
Print Assumptions image_ids_judged_partial.

(** An image id that refers to a resource is reported at a place that does not exist. *)
Theorem image_place_refuted : exists template m, wf template /\ plain_sections template /\ image_match template (VDict []) = Ok [m] /\ at_path (rm_path m) template = None.
Proof. exact c64_place_refuted. Qed.
Print Assumptions image_place_refuted.

(** An image id that refers to a number raises an exception. *)
Theorem image_number_refuted : exists template, wf template /\ image_match template (VDict []) = Err ETypeErr.
Proof. exact c64_number_refuted. Qed.
Print Assumptions image_number_refuted.

Example images_wf_ : wf value_template /\ wf (VDict []).
Proof. exact value_wf. Qed.

Example images_plain_ : plain_sections value_template.
Proof. exact value_plain. Qed.

Example images_only_ : image_parameters_only value_template.
Proof. exact image_only. Qed.

Example images_refs_ : forall p y, occurs "ImageId" value_template (VDict []) p (VDict [("Ref", y)]) -> into_resources p ->
  exists n, y = VStr n /\ (unambiguous value_template n \/ unknown value_template n).
Proof. exact image_refs. Qed.

Example images_found_ : image_match value_template (VDict []) =
  Ok [mkRM [PKey "Parameters"; PKey "One"] "Parameter One should be of type [AWS::EC2::Image::Id, AWS::SSM::Parameter::Value<AWS::EC2::Image::Id>]";
      mkRM (at_server ++ [PKey "More"; PKey "ImageId"])%list "Inappropriate map found for ImageId on Resources/Server/Properties/More/ImageId"].
Proof. exact images_found. Qed.
