(** C02 Exit code. *)
From Coq Require Import Permutation.
From Verif.Model Require Import Base Rules Core.
From Verif.Spec Require Import Pipeline.
From Verif.Proofs Require Import PipelineProofs.

(** Bit 1 (value 2) for errors, bit 2 (value 4) for warnings, bit 3 (value 8) for informational findings, no other. *)
Theorem exit_code_bit_per_severity : forall findings,
  (Z.testbit (get_exit_code findings) 1 = true <-> exists m, In m findings /\ is_error m) /\
  (Z.testbit (get_exit_code findings) 2 = true <-> exists m, In m findings /\ is_warning m) /\
  (Z.testbit (get_exit_code findings) 3 = true <-> exists m, In m findings /\ is_info m) /\
  (forall n, n <> 1%Z -> n <> 2%Z -> n <> 3%Z -> Z.testbit (get_exit_code findings) n = false).
Proof. exact exit_code_bits. Qed.

Theorem exit_code_zero_iff_clean : forall findings,
  get_exit_code findings = 0%Z <-> forall m, In m findings -> ~ is_error m /\ ~ is_warning m /\ ~ is_info m.
Proof. exact exit_code_zero. Qed.

(** Neither order nor repetition matters. *)
Theorem exit_code_depends_on_the_set : forall findings findings',
  (forall m, In m findings <-> In m findings') -> get_exit_code findings = get_exit_code findings'.
Proof. exact exit_code_set. Qed.

Example exit_code_example :
  let e := mkFinding 1 1 1 1 "f" "E3012" "m" in let w := mkFinding 1 1 1 1 "f" "W3012" "m" in
  get_exit_code [e; w; e] = 6%Z /\ is_error e /\ is_warning w.
Proof.
  split; [reflexivity|]. split; [exists "E"%char, "3012"; auto | exists "W"%char, "3012"; auto].
Qed.

Print Assumptions exit_code_bit_per_severity.
Print Assumptions exit_code_zero_iff_clean.
Print Assumptions exit_code_depends_on_the_set.
