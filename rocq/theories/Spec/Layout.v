(** The same document, laid out differently (C112). *)
From Coq Require Import List String ZArith.
From Verif.Model Require Import Base Locate Helpers Rules Runner Config Core Standard.
From Verif.Spec Require Import Pipeline Paths Shipped.
Import ListNotations.
Local Open Scope string_scope.

(** Two decoded documents with the same contents and any marks: another indentation, other line breaks, comments, JSON or YAML. *)
Inductive same_document : mval -> mval -> Prop :=
| sd_scalar : forall v, same_document (MScalar v) (MScalar v)
| sd_text : forall m m' s, same_document (MStr m s) (MStr m' s)
| sd_list : forall m m' l l', Forall2 same_document l l' -> same_document (MList m l) (MList m' l')
| sd_object : forall m m' d d', Forall2 (fun kv kv' => fst (fst kv) = fst (fst kv') /\ same_document (snd kv) (snd kv')) d d' -> same_document (MDict m d) (MDict m' d').

(** The rule does not look at the layout: its checks say the same on both. *)
Definition blind (r : rule) (c c' : cfn) : Prop :=
  r_init r c = r_init r c' /\ (forall f cfg, r_match r = Some f -> f cfg c = f cfg c') /\
  (forall f cfg v t p, r_match_props r = Some f -> f cfg c v t p = f cfg c' v t p) /\ (forall f cfg v t p, r_match_subs r = Some f -> f cfg c v t p = f cfg c' v t p).

(** The finding is what the linter makes of a message about the path, and is placed where the path leads (for paths that go on below a
    character of a text only the former is said). *)
Definition placed_at (c : cfn) (q : path) (fi : finding) : Prop :=
  locate_match c (f_rule fi) (mkRM q (f_msg fi)) = Ok fi /\
  ((forall before i after x, q = (before ++ PIdx i :: after)%list -> leads (c_tmpl c) before x -> (exists m s, x = MStr m s) \/ (exists s, x = MScalar (VStr s)) -> after = []) ->
  placed c q fi).
(** Findings on the two files about the same thing: the same rule, words and place in the document; or the report of a failed rule, which has no place. *)
Definition twins (c c' : cfn) (fi fi' : finding) : Prop :=
  f_rule fi = f_rule fi' /\ f_msg fi = f_msg fi' /\ f_file fi = c_file c /\ f_file fi' = c_file c' /\
  ((exists q, placed_at c q fi /\ placed_at c' q fi') \/
   f_rule fi = "E0002" /\ f_line fi = 1%Z /\ f_col fi = 1%Z /\ f_line fi' = 1%Z /\ f_col fi' = 1%Z).
(** Each finding of [l] has its twin in [l'], unless that one is suppressed. *)
Definition answered (c c' : cfn) (mandatory : list string) (ds' : list directive) (l l' : list finding) : Prop :=
  forall fi, In fi l -> exists fi', twins c c' fi fi' /\ (suppressed mandatory ds' fi' \/ exists u, In u l' /\ same_finding fi' u).
