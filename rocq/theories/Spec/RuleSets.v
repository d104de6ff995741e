(** When two collections run the same rules, and when two reports say the same (C91).  Uses only the data types of the
    model and the specification of selected rules and equal findings. *)
From Coq Require Import List ZArith String.
From Verif.Model Require Import Base Rules Config Core.
From Verif.Spec Require Import Pipeline.
Import ListNotations.
Local Open Scope string_scope.

(** The rule is loaded and selected. *)
Definition runs (k : collection) (r : rule) : Prop :=
  In r (k_all k) /\
  selected (r_id r) (r_experimental r) (s_experimental (k_set k)) (s_ignore (k_set k)) (s_include (k_set k)) (s_mandatory (k_set k)).

(** The two collections run the same rules among those whose ids are in [who]; how often a rule is loaded, and in which
    order, is left open. *)
Definition same_rules (who : string -> bool) (k k' : collection) : Prop :=
  forall r, who (r_id r) = true -> (runs k r <-> runs k' r).
Definition everyone (id : string) : bool := true.
(** No two different rules have one id. *)
Definition one_per_id (who : string -> bool) (k : collection) : Prop :=
  forall r r', runs k r -> runs k r' -> who (r_id r) = true -> r_id r = r_id r' -> r = r'.
(** The check on the given id (one of the built-in ones) is selected in both or in neither. *)
Definition both_select (id : string) (s s' : settings) : Prop :=
  selected id false (s_experimental s) (s_ignore s) (s_include s) (s_mandatory s) <->
  selected id false (s_experimental s') (s_ignore s') (s_include s') (s_mandatory s').

(** The part of a report that is about the given rules, in its order. *)
Definition about (who : string -> bool) (l : list finding) : list finding := filter (fun m => who (f_rule m)) l.
(** The id of the findings on crashed rules is E0002. *)
Definition not_crash (id : string) : bool := negb (String.eqb id "E0002").

(** Each finding of [l] is in [l'], as far as a user can tell. *)
Definition tells (l l' : list finding) : Prop :=
  forall m, In m l -> exists m', In m' l' /\ f_file m = f_file m' /\ same_finding m m'.
(** Two reports with the same findings. *)
Definition same_findings (l l' : list finding) : Prop := tells l l' /\ tells l' l.
(** ... which are also in the same order, apart from those on crashed rules. *)
Definition alike (l l' : list finding) : Prop := about not_crash l = about not_crash l' /\ same_findings l l'.

Definition alike_outcome (o o' : outcome) : Prop :=
  match o, o' with
  | Findings l, Findings l' => alike l l'
  | Exit c, Exit c' => c = c'
  | _, _ => False
  end.
(** What a run of the tool ends with: a report, an exit code, or an exception. *)
Definition alike_end (r r' : res outcome) : Prop :=
  match r, r' with
  | Ok o, Ok o' => alike_outcome o o'
  | Err _, Err _ => True
  | _, _ => False
  end.

(** Two lists of loaded rules with the same members, no two of which share an id. *)
Definition same_loaded (l l' : list rule) : Prop :=
  (forall r, In r l <-> In r l') /\ (forall r r', In r l -> In r' l -> r_id r = r_id r' -> r = r').
