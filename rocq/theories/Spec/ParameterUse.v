(** Constraints and uses of parameters (C25, C26). *)
From Coq Require Import List String Ascii ZArith.
From Verif.Model Require Import Base.
From Verif.Spec Require Import Limited ConditionUse.
Import ListNotations.
Local Open Scope string_scope.

(** The text of a default value. *)
Inductive text_of : val -> string -> Prop :=
| to_text : forall s, text_of (VStr s) s
| to_int : forall z, text_of (VInt z) (str_of_Z z).

(** [violates re_match def v why]: the default value [v] breaks a constraint of the parameter definition [def]. *)
Inductive violates (re_match : string -> string -> option bool) (def : list (string * val)) (v : val) : string -> Prop :=
| vi_pattern : forall r s, assoc "AllowedPattern" def = Some (VStr r) -> text_of v s -> re_match r s = Some false ->
    violates re_match def v "Default should be allowed by AllowedPattern"
| vi_min : forall z b, v = VInt z -> assoc "MinValue" def = Some (VInt b) -> (z < b)%Z ->
    violates re_match def v "Default should be equal to or higher than MinValue"
| vi_max : forall z b, v = VInt z -> assoc "MaxValue" def = Some (VInt b) -> (b < z)%Z ->
    violates re_match def v "Default should be less than or equal to MaxValue"
| vi_allowed : forall l, assoc "AllowedValues" def = Some (VList l) -> ~ In v l ->
    violates re_match def v "Default should be a value within AllowedValues"
| vi_min_length : forall s b, text_of v s -> assoc "MinLength" def = Some (VInt b) -> (length s < b)%Z ->
    violates re_match def v "Default should have a length above or equal to MinLength"
| vi_max_length : forall s b, text_of v s -> assoc "MaxLength" def = Some (VInt b) -> (b < length s)%Z ->
    violates re_match def v "Default should have a length below or equal to MaxLength".

(** A definition whose default is a text or an integer, whose bounds are integers and whose allowed values are texts and
    integers. *)
Definition scalar (v : val) : Prop := (exists s, v = VStr s) \/ exists z, v = VInt z.
Definition plain_constraints (def : list (string * val)) : Prop :=
  (forall v, assoc "Default" def = Some v -> scalar v) /\
  (forall v, assoc "AllowedPattern" def = Some v -> exists r, v = VStr r /\ r <> "") /\
  (forall k v, In k ["MinValue"; "MaxValue"; "MinLength"; "MaxLength"] -> assoc k def = Some v -> exists z, v = VInt z) /\
  (forall v, assoc "AllowedValues" def = Some v -> exists l, v = VList l /\ l <> [] /\ Forall scalar l).

(** White space, and a text in which the placeholder ${n} occurs. *)
Definition white (s : string) : Prop :=
  forall a, In a (list_ascii_of_string s) -> In a (map ascii_of_nat [9; 10; 11; 12; 13; 28; 29; 30; 31; 32]).
Definition placeholder_in (n s : string) : Prop :=
  exists before w1 w2 after, white w1 /\ white w2 /\ s = before ++ "${" ++ w1 ++ n ++ w2 ++ "}" ++ after.
(** Every placeholder is closed before another one begins and before the line ends, and none is empty. *)
Definition closed (s : string) : Prop :=
  forall before rest, s = before ++ "${" ++ rest -> exists x after, rest = x ++ "}" ++ after /\ x <> "" /\
    forall a, In a (list_ascii_of_string x) -> a <> "$"%char /\ a <> "}"%char /\ a <> "010"%char.
(** The text of a Fn::Sub. *)
Inductive sub_text : val -> string -> Prop :=
| st_text : forall s, sub_text (VStr s) s
| st_list : forall s rest, sub_text (VList (VStr s :: rest)) s.

(** [uses_parameter template n]: some Ref or placeholder names [n]. *)
Inductive uses_parameter (template : val) (n : string) : Prop :=
| up_ref : forall p, occurs "Ref" template (VDict []) p (VStr n) -> uses_parameter template n
| up_sub : forall p v s, occurs "Fn::Sub" template (VDict []) p v -> sub_text v s -> placeholder_in n s -> uses_parameter template n.
