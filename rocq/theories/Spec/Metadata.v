(** Well-formed cfn-lint Metadata (C41). *)
From Coq Require Import List String.
From Verif.Model Require Import Base Locate.
From Verif.Spec Require Import Pipeline.
Import ListNotations.

Definition is_object (v : val) : Prop := exists d, v = VDict d.
Definition string_list_value (v : val) : Prop := exists l, v = VList (map VStr l).

(** Metadata, Metadata.cfn-lint and Metadata.cfn-lint.config are objects where present and ignore_checks is a list of
    strings where present. *)
Definition metadata_ok (owner : val) : Prop :=
  forall m, member "Metadata" owner m -> is_object m /\
  forall l, member "cfn-lint" m l -> is_object l /\
  forall c, member "config" l c -> is_object c /\
  forall i, member "ignore_checks" c i -> string_list_value i.

(** What decoding guarantees of the marks: a resource that is an object carries a position, and so does its logical id. *)
Definition resources_ok (t : mval) : Prop :=
  exists m0 d, t = MDict m0 d /\
  forall m1 rs name nm r, massoc "Resources" d = Some (MDict m1 rs) -> In ((name, nm), r) rs ->
    metadata_ok (erase r) /\ nm <> None /\ (is_object (erase r) -> loc_of r <> None).
