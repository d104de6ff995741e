(** Resources of types in a registry (C87). *)
From Coq Require Import List String QArith.
From Verif.Model Require Import Base Helpers Locate Rules.
Import ListNotations.
Local Open Scope string_scope.

(** [holds_text v s]: the text [s] is a value or the name of a member somewhere in [v]. *)
Inductive holds_text : val -> string -> Prop :=
| ht_text : forall s, holds_text (VStr s) s
| ht_item : forall l x s, In x l -> holds_text x s -> holds_text (VList l) s
| ht_name : forall d k x, In (k, x) d -> holds_text (VDict d) k
| ht_member : forall d k x s, In (k, x) d -> holds_text x s -> holds_text (VDict d) s.
Definition part_of (w s : string) : Prop := exists a b, s = a ++ w ++ b.
(** The words by which properties with template syntax are known. *)
Definition syntax_words : list string :=
  ["AWS::AccountId"; "AWS::NotificationARNs"; "AWS::NoValue"; "AWS::Partition"; "AWS::Region"; "AWS::StackId"; "AWS::StackName";
   "AWS::URLSuffix"; "Ref"; "Condition"; "Fn::"].
Definition with_syntax (v : val) : Prop := exists w s, In w syntax_words /\ holds_text v s /\ part_of w s.
(** A dynamic reference, and one that is not closed. *)
Definition dynamic (s : string) : Prop := exists a b c, b <> "" /\ s = a ++ "{{resolve:" ++ b ++ "}}" ++ c.
Definition with_dynamic (v : val) : Prop := exists s, holds_text v s /\ dynamic s.
Definition closed_references (v : val) : Prop := forall s, holds_text v s -> part_of "{{resolve:" s -> dynamic s.
(** How numbers with a fraction are written: with digits, signs, a dot and the letter e. *)
Definition plain_float (float_text : Q -> string) : Prop :=
  forall q a, In a (list_ascii_of_string (float_text q)) -> In a (list_ascii_of_string "0123456789+-.e").
(** The resource [name] of type [ty] has the properties [props], which are an empty object where there are none. *)
Definition typed_resource (template : val) (name ty : string) (props : val) : Prop :=
  exists d rs attrs, template = VDict d /\ assoc "Resources" d = Some (VDict rs) /\ In (name, VDict attrs) rs /\ assoc "Type" attrs = Some (VStr ty) /\
    props = match assoc "Properties" attrs with Some v => v | None => VDict [] end.
(** The schema of the type [ty]. *)
Definition schema_of (schema : val) (ty : string) : Prop := exists d, schema = VDict d /\ assoc "typeName" d = Some (VStr ty).
