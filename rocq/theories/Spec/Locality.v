(** What is said about one part of a template (C110). *)
From Coq Require Import List String.
From Verif.Model Require Import Base Locate Helpers Rules Runner Config Core Resolve Standard.
From Verif.Spec Require Import Paths Pipeline Walk Shipped ShippedPlaces.
Import ListNotations.
Local Open Scope string_scope.

(** The place [q] is in the part of the template at [p]. *)
Definition part_of (p q : path) : Prop := exists r, q = (p ++ r)%list.

(** The reports [l] on the template of [c] and [l'] on that of [c'] tell, under the id [id], of the same faults in the part at [p]:
    there are faults of which they tell exactly, and those in that part are the same. *)
Definition same_about (p : path) (c c' : cfn) (mandatory : list string) (ds ds' : list directive) (l l' : list finding) (id : string) : Prop :=
  exists P P', tells_exactly c mandatory ds l id P /\ tells_exactly c' mandatory ds' l' id P' /\
    forall q words, part_of p q -> (P q words <-> P' q words).
(** The same about the places only. *)
Definition same_places_about (p : path) (c c' : cfn) (mandatory : list string) (ds ds' : list directive) (l l' : list finding) (id : string) : Prop :=
  exists P P', tells_places c mandatory ds l id P /\ tells_places c' mandatory ds' l' id P' /\ forall q, part_of p q -> (P q <-> P' q).

(** What a table describes are objects, and each of them is good. *)
Definition each_object {A} (sp : spec) (rts pts : list (string * A)) (t : val) (good : list (string * val) -> path -> A -> Prop) : Prop :=
  objects_nested sp pts t /\ forall n d p a, object_with sp rts pts t n d p a -> good d p a.
