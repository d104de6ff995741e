(** Which files are linted (C51), and where. *)
From Coq Require Import List Arith.
From Verif.Model Require Import Base Config.
Import ListNotations.
Local Open Scope string_scope.

(** The order of code points. *)
Inductive text_le : string -> string -> Prop :=
| tl_nil : forall s, text_le "" s
| tl_less : forall a b s t, nat_of_ascii a < nat_of_ascii b -> text_le (String a s) (String b t)
| tl_same : forall a s t, text_le s t -> text_le (String a s) (String a t).
(** An option that names files: one text or a list of texts. *)
Inductive file_names : val -> list string -> Prop :=
| fn_one : forall s, file_names (VStr s) [s]
| fn_list : forall l, file_names (VList (map VStr l)) l.
(** A name stands for the files it matches, or for itself if it matches none. *)
Definition stands_for (glob : string -> list string) (name file : string) : Prop := In file (glob name) \/ glob name = [] /\ file = name.
Definition some_stand_for (glob : string -> list string) (names : list string) (file : string) : Prop := exists n, In n names /\ stands_for glob n file.
(** Options that are not given read as None, or as an empty list. *)
Definition given (v : val) : Prop := v <> VNull /\ v <> VList [] /\ v <> VStr "".
