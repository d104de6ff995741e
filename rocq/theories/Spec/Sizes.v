(** Bounds of lists, texts and numbers (C29). *)
From Coq Require Import List String ZArith QArith.
From Verif.Model Require Import Base PropertyRules.
Import ListNotations.
Local Open Scope string_scope.

(** The specification [ps] of a property names, under [key], the value type [vs]. *)
Definition names_type (rs : rspec) (key : string) (ps : pspec) (vs : vspec) : Prop :=
  exists t, assoc key (ps_value ps) = Some t /\ assoc t (rs_value_types rs) = Some vs.
(** The bounds that the specification gives for the property. *)
Definition list_bounds (rs : rspec) (ps : pspec) (lo hi : Z) : Prop :=
  ps_type ps = Some "List" /\ exists vs, names_type rs "ListValueType" ps vs /\ v_list_min vs = Some lo /\ v_list_max vs = Some hi.
Definition of_texts (ps : pspec) : Prop :=
  (ps_type ps = Some "List" /\ ps_primitive_item ps = Some "String") \/ (ps_type ps <> Some "List" /\ ps_primitive ps = Some "String").
Definition string_bounds (rs : rspec) (ps : pspec) (lo hi : Z) : Prop :=
  of_texts ps /\ exists vs, names_type rs "ValueType" ps vs /\ v_string_min vs = Some lo /\ v_string_max vs = Some hi.
Definition number_bounds (rs : rspec) (ps : pspec) (lo hi : Q * string) : Prop :=
  (exists k, ps_primitive ps = Some k /\ In k ["Integer"; "Double"; "Long"; "String"]) /\
  exists vs, names_type rs "ValueType" ps vs /\ v_number_min vs = Some lo /\ v_number_max vs = Some hi.

Definition within (lo hi : Z) (n : nat) : Prop := (lo <= Z.of_nat n <= hi)%Z.

(** Values that are no number between the bounds.  [reads]: the number a text stands for; [Some None] for nan and the
    infinities.  Booleans are the numbers 0 and 1. *)
Inductive out_of_range (reads : string -> option (option Q)) (lo hi : Q) : val -> Prop :=
| or_no_number : forall s, reads s = None -> out_of_range reads lo hi (VStr s)
| or_infinite : forall s, reads s = Some None -> out_of_range reads lo hi (VStr s)
| or_text : forall s q, reads s = Some (Some q) -> ~ (lo <= q <= hi)%Q -> out_of_range reads lo hi (VStr s)
| or_bool : forall b : bool, ~ (lo <= (if b then 1 else 0) <= hi)%Q -> out_of_range reads lo hi (VBool b)
| or_int : forall z, ~ (lo <= inject_Z z <= hi)%Q -> out_of_range reads lo hi (VInt z)
| or_float : forall q, ~ (lo <= q <= hi)%Q -> out_of_range reads lo hi (VFloat q).
