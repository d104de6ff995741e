(** C11 JSON decoding. *)
From Coq Require Import List NArith ZArith.
Import ListNotations.
From Verif.Model Require Import Base Json.
From Verif.Spec Require Import JsonText.
From Verif.Proofs Require Import JsonProofs JsonWitness.

Local Open Scope N_scope.

(** A JSON text (RFC 8259) without null or repeated members decodes to the value it denotes, if it is not nested deeper than calls may be. *)
Theorem json_documents_decode : forall int16 other, reads_hex int16 -> forall d s v,
  denotes s v -> (forall m, ~ faulty v m) -> (nesting v <= d)%nat -> decode int16 other d s = JOk v.
Proof. exact denotes_decode. Qed.
Print Assumptions json_documents_decode.

(** Every value that can be written has such a text. *)
Theorem every_value_has_a_text : forall x,
  writable x -> exists s v, denotes s v /\ without_positions v = x.
Proof. exact document_exists. Qed.
Print Assumptions every_value_has_a_text.

(** What decodes, exactly: the texts of the wider grammar, and to what they denote there. *)
Theorem decoded_texts_exactly : forall int16 other, forall d s v,
  decode int16 other d s = JOk v <-> accepted int16 other s v /\ (forall m, ~ faulty v m) /\ (nesting v <= d)%nat.
Proof. exact decode_iff. Qed.
Print Assumptions decoded_texts_exactly.

(** A text has one value. *)
Theorem texts_have_one_value : forall int16 other, forall s v v',
  accepted int16 other s v -> accepted int16 other s v' -> (forall m, ~ faulty v m) -> v' = v.
Proof. exact one_value. Qed.
Print Assumptions texts_have_one_value.

(** The fuel of the model does not run out. *)
Theorem decoding_does_not_run_out : forall int16 other, forall d s,
  decode int16 other d s <> JErr JFuel.
Proof. exact decode_fuel. Qed.
Print Assumptions decoding_does_not_run_out.

(** Marks are the line, from 0, and the column, from 1, of a position. *)
Theorem positions_are_lines_and_columns : forall s a b,
  s = a ++ b -> exists l c, line_column a l c /\ position_mark s (List.length a) = (l, c).
Proof. exact position_mark_spec. Qed.
Print Assumptions positions_are_lines_and_columns.

(** Some texts decode that are not JSON. *)
Theorem only_json_decodes_refuted : exists s v, decode int_hex no_other 1 s = JOk v /\ forall v', ~ denotes s v'.
Proof. exact c11_constants. Qed.
Print Assumptions only_json_decodes_refuted.

(** However deep calls may be nested, some JSON text exceeds it. *)
Theorem deep_documents_refuted : forall int16 other d,
  exists s v, denotes s v /\ (forall m, ~ faulty v m) /\ decode int16 other d s = JErr JRec.
Proof. exact c11_deep. Qed.
Print Assumptions deep_documents_refuted.

(** A member without a value raises TypeError, not a decode error. *)
Theorem malformed_text_is_decode_error_refuted : forall d int16 other,
  decode int16 other (S (S d)) [123; 34; 97; 34; 58; 125] = JErr JType.
Proof. exact c11_type_error. Qed.
Print Assumptions malformed_text_is_decode_error_refuted.

Example hexadecimal_is_read : reads_hex int_hex.
Proof. exact int_hex_reads. Qed.

Example document_denotes : denotes doc doc_value.
Proof. exact doc_denotes. Qed.

Example document_decodes : decode int_hex no_other 4 doc = JOk doc_value.
Proof. exact doc_decodes. Qed.

Example document_accepted : accepted int_hex no_other doc doc_value /\ (forall m, ~ faulty doc_value m) /\ (nesting doc_value <= 4)%nat.
Proof. exact doc_accepted. Qed.
