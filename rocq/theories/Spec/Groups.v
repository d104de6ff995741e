(** Which properties an object has in a deployment, and groups of properties (C28). *)
From Coq Require Import List String.
From Verif.Model Require Import Base.
From Verif.Spec Require Import Resolved.
Import ListNotations.
Local Open Scope string_scope.

(** An object with distinct member names that is no Fn::If itself and whose Fn::Ifs have a name and two branches. *)
Definition plain_object (d : list (string * val)) : Prop :=
  NoDup (keys d) /\ (forall x, d <> [("Fn::If", x)]) /\ (forall k x, In (k, x) d -> plain_ifs x).
(** No member is null (decoding rejects null members). *)
Definition no_null (d : list (string * val)) : Prop := forall k, ~ In (k, VNull) d.

(** [d'] is what is left of [d] when the conditions have the values [b]. *)
Definition deployed (b : string -> bool) (d d' : list (string * val)) : Prop := resolved_members (fun n => Some (b n)) d d'.

(** The conditions of the members in [group]. *)
Definition group_looks_at (d : list (string * val)) (group : list string) (n : string) : Prop :=
  exists k x, In (k, x) d /\ In k group /\ looks_at x n.

(** Exactly one, or none, of a group of names is among [names]. *)
Definition exactly_one (group names : list string) : Prop :=
  exists k, In k group /\ In k names /\ forall k', In k' group -> In k' names -> k' = k.
(** A group of different property names. *)
Definition proper_group (group : list string) : Prop := group <> [] /\ NoDup group /\ ~ In "Fn::If" group.
Definition none_of (group names : list string) : Prop := forall k, In k group -> ~ In k names.

(** For the name [k] the table lists [k']. *)
Definition lists (table : list (string * list string)) (k k' : string) : Prop :=
  exists l, assoc k table = Some l /\ In k' l.
(** Both, or only the first, of [k] and [k'] are among [names]. *)
Definition both (names : list string) (k k' : string) : Prop := In k names /\ In k' names.
Definition only_first (names : list string) (k k' : string) : Prop := In k names /\ ~ In k' names.

(** A list, or a choice between lists (or nothing) by conditions. *)
Inductive conditional_list : val -> Prop :=
| cl_list : forall l, (forall x, In x l -> plain_ifs x) -> conditional_list (VList l)
| cl_none : conditional_list no_value
| cl_if : forall c t e, conditional_list t -> conditional_list e -> conditional_list (if_ c t e).
(** The conditions that choose between the lists; those of items count only when their list is in an inner Fn::If. *)
Inductive chosen_by : val -> string -> Prop :=
| cb_here : forall c t e, chosen_by (if_ c t e) c
| cb_then : forall c c' t e e' n, looks_at (if_ c' t e) n -> chosen_by (if_ c (if_ c' t e) e') n
| cb_else : forall c c' t e e' n, looks_at (if_ c' t e) n -> chosen_by (if_ c e' (if_ c' t e)) n.
(** The values of the conditions in [names]. *)
Definition known (names : list string) (b : string -> bool) (n : string) : option bool := if smem n names then Some (b n) else None.
