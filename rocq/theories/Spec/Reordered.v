(** Templates that differ only in the order in which members are written, and reports about them (C109). *)
From Coq Require Import List String Permutation.
From Verif.Model Require Import Base Locate Helpers Rules Runner Config Core Standard.
From Verif.Spec Require Import Pipeline Shipped ShippedPlaces.
Import ListNotations.
Local Open Scope string_scope.

Definition single_value (v : val) : Prop := match v with VList _ | VDict _ => False | _ => True end.
(** The same value, but for the order of the members of objects, at every depth. *)
Inductive reordered : val -> val -> Prop :=
| ro_value : forall v, single_value v -> reordered v v
| ro_list : forall l l', Forall2 reordered l l' -> reordered (VList l) (VList l')
| ro_object : forall d e d', Permutation d e -> Forall2 (fun a b => fst a = fst b /\ reordered (snd a) (snd b)) e d' -> reordered (VDict d) (VDict d').

(** What the report [l] on the template of [c] says under the id [id], the report [l'] on that of [c'] says as well: about the same
    place in the template and in the same words, unless the template of [c'] suppresses it. *)
Definition repeated (c c' : cfn) (mandatory : list string) (ds' : list directive) (l l' : list finding) (id : string) : Prop :=
  forall fi, In fi l -> f_rule fi = id ->
    exists q words fi', finding_of c id q words fi /\ finding_of c' id q words fi' /\ heard mandatory ds' l' fi'.
Definition same_reports (c c' : cfn) (mandatory : list string) (ds ds' : list directive) (l l' : list finding) (id : string) : Prop :=
  repeated c c' mandatory ds' l l' id /\ repeated c' c mandatory ds l' l id.

(** The same about the places only. *)
Definition repeated_places (c c' : cfn) (mandatory : list string) (ds' : list directive) (l l' : list finding) (id : string) : Prop :=
  forall fi, In fi l -> f_rule fi = id ->
    exists q words words' fi', finding_of c id q words fi /\ finding_of c' id q words' fi' /\ heard mandatory ds' l' fi'.
Definition same_places (c c' : cfn) (mandatory : list string) (ds ds' : list directive) (l l' : list finding) (id : string) : Prop :=
  repeated_places c c' mandatory ds' l l' id /\ repeated_places c' c mandatory ds l' l id.
