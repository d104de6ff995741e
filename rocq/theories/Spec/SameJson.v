(** Equality of values as JSON, ignoring the order of members (C30). *)
From Coq Require Import List String Ascii ZArith QArith.
From Verif.Model Require Import Base.
Import ListNotations.

Inductive same_json : val -> val -> Prop :=
| sj_null : same_json VNull VNull
| sj_bool : forall b, same_json (VBool b) (VBool b)
| sj_int : forall z, same_json (VInt z) (VInt z)
| sj_float : forall q q', (q == q')%Q -> same_json (VFloat q) (VFloat q')
| sj_str : forall s, same_json (VStr s) (VStr s)
| sj_list : forall l l', Forall2 same_json l l' -> same_json (VList l) (VList l')
| sj_dict : forall d d', (forall k, In k (keys d) <-> In k (keys d')) ->
    (forall k x y, In (k, x) d -> In (k, y) d' -> same_json x y) -> same_json (VDict d) (VDict d').

(** What is used of the text of floats: it has the characters of numbers, begins with a digit or a minus sign, is no
    integer, and tells different floats apart. *)
Definition number_char (a : ascii) : Prop := is_digit a = true \/ In a ["-"; "+"; "."; "e"]%char.
Definition float_texts (text : Q -> string) : Prop :=
  (forall q, exists a s, text q = String a s /\ (is_digit a = true \/ a = "-"%char)) /\
  (forall q a, has_char a (text q) = true -> number_char a) /\
  (forall q z, text q <> str_of_Z z) /\
  (forall q q', text q = text q' <-> (q == q')%Q).

(** Item number [i] of the list is the same as an earlier one. *)
Definition repeats (l : list val) (i : nat) : Prop :=
  exists j x y, j < i /\ nth_error l j = Some x /\ nth_error l i = Some y /\ same_json x y.

(** A digest that tells the given texts apart. *)
Definition no_collision (digest : string -> string) (texts : list string) : Prop :=
  forall x y, In x texts -> In y texts -> digest x = digest y -> x = y.
