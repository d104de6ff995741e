(** What the options about rules mean for the report of the whole program (C105). *)
From Coq Require Import List String Ascii Bool.
From Verif.Model Require Import Base Config CommandLine.
From Verif.Spec Require Import Pipeline Options CommandLine.
Import ListNotations.
Local Open Scope string_scope.

(** The values given for an option on a command line, where commas may separate them. *)
Definition comma_said (l : list (opt * list string)) (n : string) (values : list string) : Prop :=
  exists parts, Forall2 (fun x ps => ps <> [] /\ x = join_str "," ps /\ Forall (free_of ",") ps) (List.concat (under l n)) parts /\ values = List.concat parts.
(** A value of a document is a list with this text in it. *)
Definition has_text (v : val) (x : string) : Prop := exists vs, v = VList vs /\ In (VStr x) vs.
(** No text of such a list is the beginning of the id. *)
Definition unnamed (id : string) (v : val) : Prop := forall x, has_text v x -> x <> "" -> ~ is_prefix x id.
