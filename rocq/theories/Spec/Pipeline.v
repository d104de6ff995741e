(** Specifications for rule selection, exit code, filtering and ordering of findings.  They use only the data types of
    the model (strings, [finding], [directive]), none of its functions. *)
From Coq Require Import List ZArith String Ascii Sorted.
From Verif.Model Require Import Base Locate Rules Runner.
Import ListNotations.

(** [p] is a prefix of [s]. *)
Definition is_prefix (p s : string) : Prop := exists t, s = (p ++ t)%string.

(** When a rule is to run (C01). *)
Definition selected (id : string) (experimental want_experimental : bool) (ignored included mandatory : list string) : Prop :=
  (experimental = false \/ want_experimental = true) /\
  (exists p, In p included /\ is_prefix p id) /\
  ((exists p, In p mandatory /\ is_prefix p id) \/
   ~ (exists p, In p ignored /\ p <> ""%string /\ is_prefix p id)).

(** The severity of a rule id is its first letter, in either case (C02). *)
Definition first_letter (lo up : ascii) (id : string) : Prop :=
  exists c rest, id = String c rest /\ (c = lo \/ c = up).
Definition is_error (m : finding) : Prop := first_letter "e" "E" (f_rule m).
Definition is_warning (m : finding) : Prop := first_letter "w" "W" (f_rule m).
Definition is_info (m : finding) : Prop := first_letter "i" "I" (f_rule m).

(** Two findings the user cannot tell apart (C03). *)
Definition same_finding (a b : finding) : Prop :=
  f_line a = f_line b /\ f_col a = f_col b /\ f_rule a = f_rule b /\ f_msg a = f_msg b.

(** No two findings of a report are alike, and a report keeps the order of its input. *)
Definition distinct (l : list finding) : Prop := ForallOrdPairs (fun a b => ~ same_finding a b) l.
Inductive subseq {A} : list A -> list A -> Prop :=
| sub_nil : forall l, subseq [] l
| sub_take : forall x l l', subseq l l' -> subseq (x :: l) (x :: l')
| sub_skip : forall x l l', subseq l l' -> subseq l (x :: l').

(** A suppression covers a finding (C04, as the tool implements it): the finding starts on a line strictly inside the
    resource, or on its first line at or after its first column, or on its last line ending at or before its last
    column. *)
Definition covers (d : directive) (m : finding) : Prop :=
  d_rule d = f_rule m /\
  ((d_sl d < f_line m < d_el d)%Z \/
   (f_line m = d_sl d /\ (d_sc d <= f_col m)%Z) \/
   (f_line m = d_el d /\ (f_col_end m <= d_ec d)%Z)).
Definition suppressed (mandatory : list string) (ds : list directive) (m : finding) : Prop :=
  (exists d, In d ds /\ covers d m) /\ ~ (exists p, In p mandatory /\ is_prefix p (f_rule m)).

(** What the user means by "inside the resource": the finding starts no earlier than the resource and, if it is on the
    last line, ends no later. *)
Definition inside (d : directive) (m : finding) : Prop :=
  ((d_sl d < f_line m)%Z \/ (d_sl d = f_line m /\ (d_sc d <= f_col m)%Z)) /\
  ((f_line m < d_el d)%Z \/ (f_line m = d_el d /\ (f_col_end m <= d_ec d)%Z)).

(** A member of an object. *)
Definition member (name : string) (v w : val) : Prop :=
  exists d, v = VDict d /\ exists l1 l2, d = l1 ++ (name, w) :: l2 /\ ~ In name (map fst l1).
(** The rule ids an ignore_checks value stands for: the strings of a list (also accepted by the tool: the keys of an
    object, the characters of a string). *)
Definition names (v : val) (id : string) : Prop :=
  match v with
  | VList l => In (VStr id) l
  | VDict d => In id (map fst d)
  | VStr s => exists a b c, s = (a ++ String c b)%string /\ id = String c EmptyString
  | _ => False
  end.
Definition ignores (resource : val) (id : string) : Prop :=
  exists m l c v, member "Metadata" resource m /\ member "cfn-lint" m l /\ member "config" l c /\
                  member "ignore_checks" c v /\ names v id.
(** [d] is the suppression a resource asks for: it is an object with a Type, its Metadata names the rule, and the span
    runs from the start of its logical id (mark [nm]) to its end; positions are printed from 1. *)
Definition directive_of (nm : option mark) (r : mval) (d : directive) : Prop :=
  (exists ty, member "Type" (erase r) ty /\ ty <> VNull) /\
  ignores (erase r) (d_rule d) /\
  exists n v, nm = Some n /\ loc_of r = Some v /\
    d_sl d = (sl n + 1)%Z /\ d_sc d = (sc n + 1)%Z /\ d_el d = (el v + 1)%Z /\ d_ec d = (ec v + 1)%Z.

(** The order of a report (C05): by file name, then line, then rule id; strings in code point order. *)
Inductive str_lt : string -> string -> Prop :=
| lt_empty : forall c s, str_lt EmptyString (String c s)
| lt_head : forall a b s t, (nat_of_ascii a < nat_of_ascii b)%nat -> str_lt (String a s) (String b t)
| lt_tail : forall a s t, str_lt s t -> str_lt (String a s) (String a t).
Definition before (a b : finding) : Prop :=
  str_lt (f_file a) (f_file b) \/
  (f_file a = f_file b /\ ((f_line a < f_line b)%Z \/
     (f_line a = f_line b /\ str_lt (f_rule a) (f_rule b)))).
Definition tied (a b : finding) : Prop :=
  f_file a = f_file b /\ f_line a = f_line b /\ f_rule a = f_rule b.
Definition tiedb (a b : finding) : bool :=
  String.eqb (f_file a) (f_file b) && Z.eqb (f_line a) (f_line b) && String.eqb (f_rule a) (f_rule b).
Definition in_order (l : list finding) : Prop := StronglySorted (fun a b => before a b \/ tied a b) l.

(** Assumptions on the environment used by the pipeline properties. *)
(** The check that reports crashed rules is selected. *)
Definition e0002_selected (s : settings) : Prop :=
  selected "E0002" false (s_experimental s) (s_ignore s) (s_include s) (s_mandatory s).
(** Every resource type of the specification has a Properties table (true of all shipped specifications). *)
Definition spec_ok (sp : spec) : Prop :=
  forall rt ts, In (rt, ts) (sp_resource_types sp) -> ts_props ts <> None.
(** The collection without the rules whose id is [bad]. *)
Definition other_rules (bad : string) (k : collection) : collection :=
  mkColl (filter (fun r => negb (String.eqb (r_id r) bad)) (k_all k)) (k_set k).
