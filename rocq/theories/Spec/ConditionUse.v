(** Uses of conditions and the forms of the condition functions (C22, C31, C43). *)
From Coq Require Import List String.
From Verif.Model Require Import Base Helpers.
From Verif.Spec Require Import Paths References.
Import ListNotations.
Local Open Scope string_scope.

(** [occurs f template globals p v]: the function [f] is used at the place [p] with the argument [v]. *)
Definition occurs (f : string) (template globals : val) (p : path) (v : val) : Prop :=
  at_path (p ++ [PKey f])%list template = Some v \/ at_path (p ++ [PKey f])%list globals = Some v.

(** [uses_condition template globals n]: some Fn::If, resource, condition or output names the condition [n]. *)
Inductive uses_condition (template globals : val) (n : string) : Prop :=
| uc_if : forall p rest, occurs "Fn::If" template globals p (VList (VStr n :: rest)) -> uses_condition template globals n
| uc_resource : forall r o t, defined_in "Resources" template r o -> assoc "Type" o = Some t -> t <> VNull ->
    assoc "Condition" o = Some (VStr n) -> uses_condition template globals n
| uc_reference : forall p, at_path (PKey "Conditions" :: p ++ [PKey "Condition"])%list template = Some (VStr n) ->
    uses_condition template globals n
| uc_output : forall r o, defined_in "Outputs" template r o -> assoc "Condition" o = Some (VStr n) ->
    uses_condition template globals n.

Definition condition_defined (template : val) (n : string) : Prop :=
  exists d cs, template = VDict d /\ assoc "Conditions" d = Some (VDict cs) /\ In n (map fst cs).

(** The sections are objects, outputs are objects whose Condition is a text, and no Fn::If has an empty list. *)
Definition plain_uses (template globals : val) : Prop :=
  (exists d, template = VDict d /\
     (forall s, assoc "Conditions" d = Some s -> exists m, s = VDict m) /\
     (forall s, assoc "Outputs" d = Some s -> exists m, s = VDict m /\ forall n x, In (n, x) m -> exists o, x = VDict o /\
        forall c, assoc "Condition" o = Some c -> exists t, c = VStr t)) /\
  at_path [PKey "Conditions"] globals = None /\
  (forall p, ~ occurs "Fn::If" template globals p (VList [])).

(** A condition: an object with one of five members. *)
Definition condition_object (x : val) : Prop :=
  exists k y, x = VDict [(k, y)] /\ In k ["Fn::And"; "Fn::Or"; "Fn::Not"; "Condition"; "Fn::Equals"].
(** Fn::And and Fn::Or take two to ten conditions, Fn::Not one. *)
Definition valid_condition_list (f : string) (v : val) : Prop :=
  exists l, v = VList l /\ (f = "Fn::Not" /\ List.length l = 1 \/ f <> "Fn::Not" /\ 2 <= List.length l <= 10) /\ Forall condition_object l.

(** A parameter that holds a list. *)
Definition list_parameter (template : val) (n : string) : Prop :=
  exists o t, defined_in "Parameters" template n o /\ assoc "Type" o = Some (VStr t) /\ In t VALID_PARAMETER_TYPES_LIST.
(** Fn::Equals compares two literals or calls of functions that give a text. *)
Inductive valid_operand (template : val) : val -> Prop :=
| vo_text : forall s, valid_operand template (VStr s)
| vo_bool : forall b, valid_operand template (VBool b)
| vo_int : forall z, valid_operand template (VInt z)
| vo_float : forall q, valid_operand template (VFloat q)
| vo_ref : forall n, ~ list_parameter template n -> valid_operand template (VDict [("Ref", VStr n)])
| vo_call : forall k y, In k ["Fn::FindInMap"; "Fn::Sub"; "Fn::Join"; "Fn::Select"; "Fn::Split"] -> valid_operand template (VDict [(k, y)]).
Definition valid_equals (template v : val) : Prop := exists a b, v = VList [a; b] /\ valid_operand template a /\ valid_operand template b.

Definition valid_if (v : val) : Prop := exists c a b, v = VList [VStr c; a; b].

(** [n] is unambiguous: it is defined, the name of only one thing, and does not begin with a module's name. *)
Definition unambiguous (template : val) (n : string) : Prop :=
  names template n /\
  (forall o o', ~ (defined_in "Parameters" template n o /\ defined_in "Resources" template n o')) /\
  (forall o, In n PSEUDOPARAMS -> ~ defined_in "Parameters" template n o) /\
  (forall m rest, module template m -> n <> m ++ rest).

(** The Refs that are operands name something, unambiguously. *)
Definition plain_operand (template x : val) : Prop := forall y, x = VDict [("Ref", y)] -> exists n, y = VStr n /\ unambiguous template n.

(** A report is placed at the use of the function, at one of its arguments, or at the function used there. *)
Definition at_or_below (p q : path) : Prop :=
  exists r, q = (p ++ r)%list /\ (r = [] \/ (exists i, r = [PIdx i]) \/ exists i k, r = [PIdx i; PKey k]).
