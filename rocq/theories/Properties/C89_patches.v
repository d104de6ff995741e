(** C89 Patches and references in specifications. *)
From Coq Require Import List String Arith Bool Permutation.
Import ListNotations.
From Verif.Model Require Import Base Helpers Rules Config Maintenance.
From Verif.Spec Require Import Paths Files Maintenance.
From Verif.Proofs Require Import PatchProofs PatchWitness.
Import Verif.Model.Rules.
Local Open Scope string_scope.
Local Open Scope nat_scope.

(** The patches of a region are applied folder by folder and file by file in the order of the names; those that are refused are passed over. *)
Theorem patches_in_order : forall (walk : string -> list (string * list string)) (load : string -> string -> res (list val)) (apply_patch : val -> val -> outcome),
  forall region c c',
  patch_spec walk load apply_patch c region = Ok c' <-> exists ps, in_order load (walk region) ps /\ patched apply_patch ps c c'.
Proof. exact c89_patches. Qed.
Print Assumptions patches_in_order.

(** The order in which the system lists the files of a folder does not matter. *)
Theorem patches_any_listing : forall walk walk' load apply_patch region c,
  Forall2 (fun a b => fst a = fst b /\ Permutation (snd a) (snd b)) (walk region) (walk' region) ->
  patch_spec walk load apply_patch c region = patch_spec walk' load apply_patch c region.
Proof. exact c89_listing. Qed.
Print Assumptions patches_any_listing.

(** References to types of botocore are replaced by the values of their enumerations, the rest stays; each service is downloaded at most once, and only if it is mentioned. *)
Theorem references_replaced : forall fetch : string -> res shapes,
  forall v v' c',
  wf v -> replace_types fetch v [] = Ok (v', c') ->
  replaced fetch v v' /\ NoDup (map fst c') /\ (forall s, In s (map fst c') -> mentions s v).
Proof. exact c89_types. Qed.
Print Assumptions references_replaced.

(** This succeeds exactly when each reference is a text that refers to an enumeration. *)
Theorem references_when : forall fetch : string -> res shapes,
  forall v,
  wf v -> ((exists r, replace_types fetch v [] = Ok r) <-> forall r, reference_in r v -> exists s l, r = VStr s /\ enumeration fetch s l).
Proof. exact c89_when. Qed.
Print Assumptions references_when.

(** No reference is left. *)
Theorem references_gone : forall fetch : string -> res shapes,
  forall v,
  forall c v' c', replace_types fetch v c = Ok (v', c') -> ~ key_in "botocore" v'.
Proof. exact c89_clean. Qed.
Print Assumptions references_gone.

(** A specification without references stays as it is. *)
Theorem references_none : forall fetch : string -> res shapes,
  forall v,
  wf v -> ~ key_in "botocore" v -> forall c, replace_types fetch v c = Ok (v, c).
Proof. exact c89_plain. Qed.
Print Assumptions references_none.

(** The specification that is written is made of the one sent: the patches for all regions are applied first, then those of the region, and then the references are replaced. *)
Theorem specification_made : forall walk load apply_patch region fetch spec v,
  processed walk load apply_patch region fetch spec = Ok v <->
  exists for_all for_region s c, in_order load (walk "all") for_all /\ in_order load (walk region) for_region /\ patched apply_patch (for_all ++ for_region) spec s /\
    replace_types fetch s [] = Ok (v, c).
Proof. exact c89_made. Qed.
Print Assumptions specification_made.

(** Values written after the reference in the same object win over those of the type. *)
Theorem own_values_refuted : replace_types sample_fetch (VDict [("botocore", VStr "ec2/2016-11-15/State"); ("AllowedValues", VList [VStr "x"])]) [] =
  Ok (VDict [("AllowedValues", VList [VStr "x"])], [("ec2/2016-11-15", [("State", Some ["running"; "pending"]); ("Text", None)])]).
Proof. exact own_values_witness. Qed.
Print Assumptions own_values_refuted.

(** A member that has the name of the word stops the update. *)
Theorem word_refuted : exists v, wf v /\ replace_types sample_fetch v [] = Err EAttribute.
Proof. exact word_witness. Qed.
Print Assumptions word_refuted.

(** So does a type that has no enumeration. *)
Theorem no_enum_refuted : replace_types sample_fetch (VDict [("botocore", VStr "ec2/2016-11-15/Text")]) [] = Err EKey.
Proof. exact no_enum_witness. Qed.
Print Assumptions no_enum_refuted.

Example patch_example_ : patch_spec sample_walk sample_load set_patch (VDict [("A", VStr "zero")]) "all" = Ok (VDict [("A", VDict [("botocore", VStr "ec2/2016-11-15/State")])]) /\
  processed sample_walk sample_load set_patch "us" sample_fetch (VDict [("A", VStr "zero")]) = Ok (VDict [("A", VDict [("AllowedValues", VList [VStr "pending"; VStr "running"])])]).
Proof. exact patch_example. Qed.

Example replaced_example_ : wf (VDict [("A", VDict [("botocore", VStr "ec2/2016-11-15/State")])]) /\ enumeration sample_fetch "ec2/2016-11-15/State" ["pending"; "running"].
Proof. exact replaced_example. Qed.
