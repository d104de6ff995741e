(** Runs of rules of which the places of the findings are known, and of rules that fail (C96). *)
From Coq Require Import ZArith.
From Verif.Model Require Import Base Locate Helpers Rules Runner Config Core Standard.
From Verif.Spec Require Import Pipeline Paths ConditionUse Shipped.
Local Open Scope string_scope.

(** The finding is in the report, or suppressed in the template; one finding stands for several with the same text and place. *)
Definition heard (mandatory : list string) (ds : list directive) (l : list finding) (fi : finding) : Prop :=
  suppressed mandatory ds fi \/ exists u, In u l /\ same_finding fi u.
(** The report tells, under the id [id], of a fault at exactly the places in [P], except for what is suppressed. *)
Definition tells_places (c : cfn) (mandatory : list string) (ds : list directive) (l : list finding) (id : string) (P : path -> Prop) : Prop :=
  (forall fi, In fi l -> f_rule fi = id -> ~ suppressed mandatory ds fi /\ exists q words, P q /\ finding_of c id q words fi) /\
  (forall q, P q -> exists words fi, finding_of c id q words fi /\ heard mandatory ds l fi).
(** The report tells of exactly the faults in [fault]; a fault is shown by a place and a text. *)
Definition tells_each {A} (c : cfn) (mandatory : list string) (ds : list directive) (l : list finding) (id : string)
  (fault : A -> Prop) (shown : A -> path -> string -> Prop) : Prop :=
  (forall fi, In fi l -> f_rule fi = id -> ~ suppressed mandatory ds fi /\ exists a q words, fault a /\ shown a q words /\ finding_of c id q words fi) /\
  (forall a, fault a -> exists q words fi, shown a q words /\ finding_of c id q words fi /\ heard mandatory ds l fi).
(** The report tells that the rule [id] could not be run: an E0002 at the beginning of the file (unless suppressed). *)
Definition tells_crash (c : cfn) (mandatory : list string) (ds : list directive) (l : list finding) (id : string) : Prop :=
  exists why fi, f_rule fi = "E0002" /\ f_file fi = c_file c /\ f_msg fi = "Unknown exception while processing rule " ++ id ++ ": " ++ why /\
    f_line fi = 1%Z /\ f_col fi = 1%Z /\ f_line_end fi = 1%Z /\ f_col_end fi = 1%Z /\ heard mandatory ds l fi.

(** The places of what is wrong with the uses of a function. *)
Definition faults_at (f : string) (t : val) (fault : path -> val -> path -> Prop) (q : path) : Prop :=
  exists p v r, occurs f t (VDict []) p v /\ fault p v r /\ q = (p ++ PKey f :: r)%list.

(** The report tells exactly of what is wrong with the uses of the function [f]. *)
Definition tells_uses (c : cfn) (mandatory : list string) (ds : list directive) (l : list finding) (id f : string) (fault : path -> val -> path -> Prop) : Prop :=
  tells_places c mandatory ds l id (faults_at f (template c) fault).

(** What is wrong with the argument of Fn::And, Fn::Or and Fn::Not, where and in which words. *)
Inductive list_fault (f : string) : val -> path -> string -> Prop :=
| lf_list : forall v, (forall l, v <> VList l) -> list_fault f v [] (f ++ " must be a condition list")
| lf_one : forall l, f = "Fn::Not" -> List.length l <> 1 -> list_fault f (VList l) [] (f ++ " must be a list of exactly 1 condition")
| lf_many : forall l, f <> "Fn::Not" -> ~ (2 <= List.length l <= 10) -> list_fault f (VList l) [] (f ++ " must be a list of between 2 to 10 conditions")
| lf_item : forall l i x, (f = "Fn::Not" /\ List.length l = 1 \/ f <> "Fn::Not" /\ 2 <= List.length l <= 10) -> nth_error l i = Some x ->
    (forall k y, x <> VDict [(k, y)]) -> list_fault f (VList l) [PIdx i] (f ++ " list must be another valid condition")
| lf_key : forall l i k y, (f = "Fn::Not" /\ List.length l = 1 \/ f <> "Fn::Not" /\ 2 <= List.length l <= 10) -> nth_error l i = Some (VDict [(k, y)]) ->
    ~ In k ["Fn::And"; "Fn::Or"; "Fn::Not"; "Condition"; "Fn::Equals"] -> list_fault f (VList l) [PIdx i; PKey k] (f ++ " list must be another valid condition").
(** What is wrong with the argument of Fn::If. *)
Inductive if_fault : val -> path -> string -> Prop :=
| if_list : forall v, (forall a b c, v <> VList [a; b; c]) -> if_fault v [] "Fn::If must be a list of 3 elements."
| if_name : forall x rest, (forall s, x <> VStr s) -> if_fault (VList (x :: rest)) [PIdx 0] "Fn::If first element must be a condition and a string.".
(** What is wrong with a member of the Conditions section. *)
Inductive condition_fault (n : string) : val -> path -> string -> Prop :=
| cn_key : forall k y, ~ In k ["Condition"; "Fn::And"; "Fn::Equals"; "Fn::Not"; "Fn::Or"] ->
    condition_fault n (VDict [(k, y)]) [PKey k] ("Condition " ++ n ++ " has invalid property " ++ k)
| cn_count : forall d, List.length d <> 1 -> condition_fault n (VDict d) [] ("Condition " ++ n ++ " has too many intrinsic conditions")
| cn_value : forall x, (forall d, x <> VDict d) -> condition_fault n x [] ("Condition " ++ n ++ " has invalid property").
(** What is wrong with the conditions in lists: where, and in which words. *)
Definition condition_faults (f : string) (t : val) (q : path) (words : string) : Prop :=
  exists p v r, occurs f t (VDict []) (PKey "Conditions" :: p) v /\ list_fault f v r words /\ q = (PKey "Conditions" :: p ++ PKey f :: r)%list.
Definition if_faults (t : val) (q : path) (words : string) : Prop :=
  exists p v r, occurs "Fn::If" t (VDict []) p v /\ if_fault v r words /\ q = (p ++ PKey "Fn::If" :: r)%list.
Definition conditions_faults (cs : list (string * val)) (q : path) (words : string) : Prop :=
  exists n x r, In (n, x) cs /\ condition_fault n x r words /\ q = (PKey "Conditions" :: PKey n :: r)%list.
