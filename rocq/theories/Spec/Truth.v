(** Truth values of CloudFormation conditions (C15, C16, C17), stated on the template itself. *)
From Coq Require Import List String Ascii ZArith.
From Verif.Model Require Import Base.
Import ListNotations.

(** A SHA-1 digest in hexadecimal. *)
Definition hex_digit (a : ascii) : Prop := is_digit a = true \/ (97 <= code a <= 102).
Fixpoint all_hex (s : string) : Prop := match s with EmptyString => True | String a s' => hex_digit a /\ all_hex s' end.
Definition digest (s : string) : Prop := String.length s = 40 /\ all_hex s.

(** A literal operand of Fn::Equals and the text it stands for.  A text that looks like a digest is not covered. *)
Inductive literal : val -> string -> Prop :=
| lit_str : forall s, ~ digest s -> literal (VStr s) s
| lit_int : forall z, ~ digest (str_of_Z z) -> literal (VInt z) (str_of_Z z).

(** [truth defs values v b]: the condition [v] has truth value [b] when the function calls have the [values] given
    (None: no value is known) and [defs] is the Conditions section.  Fn::Equals compares one function call with one
    literal; the other functions are as CloudFormation documents them. *)
Inductive truth (defs : list (string * val)) (values : val -> option string) : val -> bool -> Prop :=
| tr_equals_left : forall k a l s x, literal l s -> values (VDict [(k, a)]) = Some x ->
    truth defs values (VDict [("Fn::Equals", VList [VDict [(k, a)]; l])]) (String.eqb x s)
| tr_equals_right : forall k a l s x, literal l s -> values (VDict [(k, a)]) = Some x ->
    truth defs values (VDict [("Fn::Equals", VList [l; VDict [(k, a)]])]) (String.eqb x s)
| tr_and : forall vs bs, vs <> [] -> truths defs values vs bs ->
    truth defs values (VDict [("Fn::And", VList vs)]) (forallb (fun b => b) bs)
| tr_or : forall vs bs, vs <> [] -> truths defs values vs bs ->
    truth defs values (VDict [("Fn::Or", VList vs)]) (existsb (fun b => b) bs)
| tr_not : forall v b, truth defs values v b -> truth defs values (VDict [("Fn::Not", VList [v])]) (negb b)
| tr_condition : forall n v b, assoc n defs = Some v -> truth defs values v b ->
    truth defs values (VDict [("Condition", VStr n)]) b
with truths (defs : list (string * val)) (values : val -> option string) : list val -> list bool -> Prop :=
| trs_nil : truths defs values [] []
| trs_cons : forall v b vs bs, truth defs values v b -> truths defs values vs bs -> truths defs values (v :: vs) (b :: bs).

(** [compares defs v c s]: somewhere in [v], or in the conditions it refers to, the call [c] is compared with [s]. *)
Inductive compares (defs : list (string * val)) : val -> val -> string -> Prop :=
| cp_left : forall k a l s, literal l s -> compares defs (VDict [("Fn::Equals", VList [VDict [(k, a)]; l])]) (VDict [(k, a)]) s
| cp_right : forall k a l s, literal l s -> compares defs (VDict [("Fn::Equals", VList [l; VDict [(k, a)]])]) (VDict [(k, a)]) s
| cp_inside : forall f vs v c s, In f ["Fn::And"; "Fn::Or"; "Fn::Not"] -> In v vs -> compares defs v c s ->
    compares defs (VDict [(f, VList vs)]) c s
| cp_condition : forall n v c s, assoc n defs = Some v -> compares defs v c s ->
    compares defs (VDict [("Condition", VStr n)]) c s.

(** Two conditions that look at the same function call. *)
Definition related (defs : list (string * val)) (v w : val) : Prop :=
  exists c s s', compares defs v c s /\ compares defs w c s'.

(** The values a deployment gives to the function calls: calls the linter identifies (equal [hash]) have equal values,
    and a parameter with allowed values has one of them. *)
Definition deployment (hash : val -> string) (parameters : list (string * val)) (w : val -> string) : Prop :=
  (forall c c', hash c = hash c' -> w c = w c') /\
  (forall name attrs x xs, In (name, VDict attrs) parameters -> assoc "AllowedValues" attrs = Some (VList (x :: xs)) ->
     exists y, In y (x :: xs) /\ (y = VStr (w (VDict [("Ref", VStr name)])) \/
                                  exists z, y = VInt z /\ w (VDict [("Ref", VStr name)]) = str_of_Z z)).

(** The scenario in which the conditions [names] have the truth values [b]. *)
Definition scenario_of (names : list string) (b : string -> bool) : list (string * option bool) :=
  map (fun n => (n, Some (b n))) names.

(** The Conditions and Parameters sections of a template. *)
Definition section_of (name : string) (template : val) (members : list (string * val)) : Prop :=
  exists d, template = VDict d /\
    (assoc name d = Some (VDict members) \/ assoc name d = None /\ members = []).

(** A condition that always has a truth value, whatever the values of the calls are. *)
Definition well_formed (defs : list (string * val)) (v : val) : Prop :=
  exists values b, truth defs values v b.

(** A parameter whose allowed values, if any, are texts and integers. *)
Definition plain_parameter (p : val) : Prop :=
  exists attrs, p = VDict attrs /\ forall l, assoc "AllowedValues" attrs = Some (VList l) ->
    forall y, In y l -> (exists s, y = VStr s) \/ (exists z, y = VInt z).

(** The digest tells the parameters of the template apart. *)
Definition told_apart (hash : val -> string) (parameters : list (string * val)) : Prop :=
  forall n n', In n (keys parameters) -> In n' (keys parameters) ->
    hash (VDict [("Ref", VStr n)]) = hash (VDict [("Ref", VStr n')]) -> n = n'.

(** Some two of the conditions look at the same function call. *)
Definition some_related (defs : list (string * val)) (names : list string) : Prop :=
  exists n n' v v', In n names /\ In n' names /\ n <> n' /\ assoc n defs = Some v /\ assoc n' defs = Some v' /\
    related defs v v'.

(** Under the values [w] the conditions [names] have the truth values [b]. *)
Definition gives (defs : list (string * val)) (w : val -> string) (names : list string) (b : string -> bool) : Prop :=
  forall n, In n names -> exists v, assoc n defs = Some v /\ truth defs (fun c => Some (w c)) v (b n).
