(** C36 Boolean and string conversions. *)
From Verif.Model Require Import Base Helpers.
From Verif.Spec Require Import Booleans.
From Verif.Proofs Require Import BooleanProofs.

Theorem boolean_compares_by_equality : forall a b, bool_compare (VBool a) (VBool b) = true <-> a = b.
Proof. exact c36_bool. Qed.
(** A text compares equal to true exactly when it spells true, and to false exactly when it does not. *)
Theorem text_compares_by_spelling : forall s b, bool_compare (VStr s) (VBool b) = true <-> (spells_true s <-> b = true).
Proof. exact c36_string. Qed.
Theorem other_values_compare_to_neither : forall v b,
  is_bool v = false -> is_str v = false -> bool_compare v (VBool b) = false.
Proof. exact c36_other. Qed.

Example spelling_example : spells_true "tRuE" /\ bool_compare (VStr "tRuE") (VBool true) = true /\
  bool_compare (VStr "yes") (VBool false) = true /\ bool_compare (VInt 1) (VBool true) = false.
Proof.
  split; [|repeat split; reflexivity].
  exists "t"%char, "R"%char, "u"%char, "E"%char. split; [reflexivity|]. auto 10.
Qed.

Print Assumptions boolean_compares_by_equality.
Print Assumptions text_compares_by_spelling.
Print Assumptions other_values_compare_to_neither.
