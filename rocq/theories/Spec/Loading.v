(** Which rules a directory holds (C92).  Uses only the data types of the model. *)
From Coq Require Import List String Ascii.
From Verif.Model Require Import Base Rules Loading.
Import ListNotations.
Local Open Scope string_scope.

(** The file [n] with what it holds is in the directory with entries [l], at any depth; [sibs] are the entries of its own
    directory. *)
Inductive file_in : list entry -> list entry -> string -> module -> Prop :=
| file_here : forall l n m, In (FileE n m) l -> file_in l l n m
| file_below : forall l d r sub sibs n m, In (DirE d r sub) l -> file_in sub sibs n m -> file_in l sibs n m.
(** Some directory in it cannot be listed. *)
Inductive closed_in : list entry -> Prop :=
| closed_here : forall l d sub, In (DirE d false sub) l -> closed_in l
| closed_below : forall l d r sub, In (DirE d r sub) l -> closed_in sub -> closed_in l.

Definition letter (c : ascii) : Prop :=
  (65 <= nat_of_ascii c <= 90 \/ 97 <= nat_of_ascii c <= 122)%nat.
(** The names that are looked at: a letter first, .py last. *)
Definition rule_name (n : string) : Prop := exists c mid, letter c /\ n = String c (mid ++ ".py").
(** A name without further dots. *)
Fixpoint free_of (c : ascii) (s : string) : Prop :=
  match s with EmptyString => True | String a s' => a <> c /\ free_of c s' end.
Definition plain (n stem : string) : Prop := n = stem ++ ".py" /\ free_of "." stem.

Definition entry_name (e : entry) : string := match e with FileE n _ => n | DirE n _ _ => n end.
(** No directory lists a name twice. *)
Inductive names_once : list entry -> Prop :=
| once : forall l, NoDup (map entry_name l) -> (forall d r sub, In (DirE d r sub) l -> names_once sub) -> names_once l.
(** A package with the name of the module. *)
Definition package (sibs : list entry) (stem : string) : Prop :=
  exists r sub m, In (DirE stem r sub) sibs /\ In (FileE "__init__.py" m) sub.
(** A directory in which each file that is looked at is found under its name. *)
Definition regular (l : list entry) : Prop :=
  names_once l /\
  forall sibs n m, file_in l sibs n m -> rule_name n -> exists stem, plain n stem /\ ~ package sibs stem.

(** The class derives from the class of rules. *)
Definition rule_class (c : cls) : Prop :=
  In ("cfnlint", "CloudFormationLintRule") (cl_bases c) \/ In ("cfnlint.rules", "CloudFormationLintRule") (cl_bases c).
(** [r] is an instance of a rule class among the members. *)
Definition made_by (members : list (string * cls)) (r : rule) : Prop :=
  exists name c, In (name, c) members /\ rule_class c /\ cl_new c = Ok r.
(** [r] is made by some file of the directory. *)
Definition held_in (l : list entry) (r : rule) : Prop :=
  exists sibs n members, file_in l sibs n (Ok members) /\ rule_name n /\ made_by members r.
(** The module can be executed and its rule classes instantiated. *)
Definition sound (m : module) : Prop :=
  exists members, m = Ok members /\ forall name c, In (name, c) members -> rule_class c -> exists r, cl_new c = Ok r.

(** The same files are looked at, wherever they are and in whatever order they are listed. *)
Definition same_files (l l' : list entry) : Prop :=
  forall n m, rule_name n -> ((exists sibs, file_in l sibs n m) <-> (exists sibs, file_in l' sibs n m)).
