(** The attributes that tables define and those that their keys use (C82). *)
From Coq Require Import List Sorted.
From Verif.Model Require Import Base.
From Verif.Spec Require Import Paths Branches Files.
Import ListNotations.
Local Open Scope string_scope.

(** [names v n]: [v] is an object with the AttributeName [n]. *)
Definition names_attribute (v : val) (n : string) : Prop := exists d, v = VDict d /\ assoc "AttributeName" d = Some (VStr n).
Definition defines (d : list (string * val)) (n : string) : Prop :=
  exists l x, assoc "AttributeDefinitions" d = Some (VList l) /\ In x l /\ names_attribute x n.
(** [can_be x l]: choosing branches of the Fn::Ifs around [x] leads to the list [l]. *)
Definition can_be (x : val) (l : list val) : Prop := exists p q, branch x p (VList l) q.
(** The keys of a table or an index. *)
Definition keyed_by (d : list (string * val)) (n : string) : Prop :=
  exists x l k, assoc "KeySchema" d = Some x /\ can_be x l /\ In k l /\ names_attribute k n.
Definition index_of (d i : list (string * val)) : Prop :=
  exists key x l, (key = "GlobalSecondaryIndexes" \/ key = "LocalSecondaryIndexes") /\ assoc key d = Some x /\ can_be x l /\ In (VDict i) l.
Definition uses_attribute (d : list (string * val)) (n : string) : Prop := keyed_by d n \/ exists i, index_of d i /\ keyed_by i n.
(** The members of a set, in order. *)
Definition in_sequence (P : string -> Prop) (l : list string) : Prop := NoDup l /\ StronglySorted text_le l /\ forall n, In n l <-> P n.
(** [table_fault d a]: the table defines the attributes [fst a] and uses others, [snd a]. *)
Definition table_fault (d : list (string * val)) (a : list string * list string) : Prop :=
  (forall l x, assoc "AttributeDefinitions" d = Some (VList l) -> In x l -> exists n, names_attribute x n) /\
  in_sequence (defines d) (fst a) /\ in_sequence (uses_attribute d) (snd a) /\ fst a <> snd a.
(** Tables of the usual shape: definitions, indexes and keys are lists of objects, and no name of a key is an Fn::If with texts. *)
Definition keys_shaped (d : list (string * val)) : Prop :=
  forall x l k, assoc "KeySchema" d = Some x -> can_be x l -> In k l ->
    exists kd, k = VDict kd /\ forall y s p q, assoc "AttributeName" kd = Some y -> branch y p (VStr s) q -> y = VStr s.
Definition table_shaped (d : list (string * val)) : Prop :=
  (forall x, assoc "AttributeDefinitions" d = Some x -> exists l, x = VList l /\ forall y, In y l -> exists e, y = VDict e) /\
  keys_shaped d /\
  (forall key x l y, key = "GlobalSecondaryIndexes" \/ key = "LocalSecondaryIndexes" -> assoc key d = Some x -> can_be x l -> In y l -> exists i, y = VDict i /\ keys_shaped i).
(** The properties that are looked at. *)
Definition table_part : list string := ["AttributeDefinitions"; "KeySchema"; "GlobalSecondaryIndexes"; "LocalSecondaryIndexes"].
