(** Patterns with stars (C34). *)
From Coq Require Import List String Ascii.
From Verif.Model Require Import Base Helpers.
Import ListNotations.

(** [fits pattern name]: [name] is [pattern] with every star replaced by some text. *)
Inductive fits : string -> string -> Prop :=
| ft_end : fits "" ""
| ft_char : forall c p s, c <> "*"%char -> fits p s -> fits (String c p) (String c s)
| ft_star : forall p t s, fits p s -> fits (String "*" p) (t ++ s)%string.

(** Available after an override with these include and exclude lists. *)
Definition available (includes excludes : list string) (name : string) : Prop :=
  (includes = [] \/ exists i, In i includes /\ fits i name) /\ (forall e, In e excludes -> ~ fits e name).

(** The texts listed under one key of an override document. *)
Definition names_of (k : string) (override : list (string * val)) : list string :=
  match assoc k override with Some v => str_list v | None => [] end.
