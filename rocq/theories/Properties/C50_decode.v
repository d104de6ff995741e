(** C50 Every file is decoded or reported. *)
From Coq Require Import List NArith ZArith.
Import ListNotations.
From Verif.Model Require Import Base Json Yaml Decode.
From Verif.Spec Require Import JsonText YamlNodes Decoding.
From Verif.Proofs Require Import DecodeProofs YamlProofs JsonWitness.

Local Open Scope Z_scope.

(** A file gives an object and no finding, or no object and one finding that names the file.  Missing for the full property: files on which PyYAML or a constructor raises another exception (refuted below). *)
Theorem decoded_or_one_finding_partial : forall parse scalar int16 other depth, forall file r,
  (forall s, r = Content s -> (forall e, parse s <> ParseExn e) /\ forall n, parse s = Document (Some n) -> ordinary scalar n) ->
  exists t fs, decode_file parse scalar int16 other depth file r = Ok (t, fs) /\ ((object t /\ fs = []) \/ (~ object t /\ exists f, fs = [f] /\ d_file f = file)).
Proof. exact c50_outcome. Qed.
Print Assumptions decoded_or_one_finding_partial.

(** The template is what the YAML document means. *)
Theorem yaml_template_is_its_meaning : forall parse scalar int16 other depth, forall file s n d,
  parse s = Document (Some n) -> ordinary scalar n ->
  (decode_file parse scalar int16 other depth file (Content s) = Ok (Some (TYaml (YDict d)), []) <-> means scalar n (YDict d) /\ forall e, ~ wrong n e).
Proof. exact c50_yaml. Qed.
Print Assumptions yaml_template_is_its_meaning.

(** A null or repeated key is reported where it is. *)
Theorem yaml_faults_are_reported_in_place : forall parse scalar int16 other depth, forall file s n,
  parse s = Document (Some n) -> ordinary scalar n -> (exists e, wrong n e) ->
  exists e f, wrong n e /\ tells file e f /\ decode_file parse scalar int16 other depth file (Content s) = Ok (None, [f]).
Proof. exact c50_yaml_wrong. Qed.
Print Assumptions yaml_faults_are_reported_in_place.

(** After the scanner's problems with tabs and escapes, the template is what the JSON text means. *)
Theorem json_template_is_its_meaning : forall parse scalar int16 other depth, forall file s p m v,
  parse s = ScannerErr p m -> maybe_json p ->
  (decode_file parse scalar int16 other depth file (Content s) = Ok (Some (TJson v), []) <-> accepted int16 other s v /\ (forall x, ~ faulty v x) /\ (nesting v <= depth)%nat /\ exists b e ms, v = JObj b e ms).
Proof. exact c50_json. Qed.
Print Assumptions json_template_is_its_meaning.

(** A null or repeated member of such a text is reported. *)
Theorem json_faults_are_reported : forall parse scalar int16 other depth, forall file s p m v x,
  parse s = ScannerErr p m -> maybe_json p -> accepted int16 other s v -> (nesting v <= depth)%nat -> faulty v x ->
  exists y f, faulty v y /\ d_msg f = DJson y /\ d_file f = file /\ decode_file parse scalar int16 other depth file (Content s) = Ok (None, [f]).
Proof. exact c50_json_wrong. Qed.
Print Assumptions json_faults_are_reported.

(** Missing files, directories, files without permission and files that are not text are reported as such. *)
Theorem unreadable_files_are_reported : forall parse scalar int16 other depth, forall file r msg,
  unreadable file r msg -> decode_file parse scalar int16 other depth file r = Ok (None, [mkD 1 1 1 2 file msg]).
Proof. exact c50_unreadable. Qed.
Print Assumptions unreadable_files_are_reported.

(** Other errors on reading are reported as a template that is no object. *)
Theorem other_read_errors_refuted : forall parse scalar int16 other depth, forall file errno,
  errno <> 2 -> errno <> 21 -> errno <> 13 -> decode_file parse scalar int16 other depth file (IOErr errno) = Ok (None, [mkD 1 1 1 1 file DNotObject]).
Proof. exact c50_other_errors. Qed.
Print Assumptions other_read_errors_refuted.

(** A file without a document is an empty object, and not reported. *)
Theorem empty_file_is_not_reported_refuted : forall parse scalar int16 other depth, forall file s,
  parse s = Document None -> decode_file parse scalar int16 other depth file (Content s) = Ok (Some (TYaml (YDict [])), []).
Proof. exact c50_empty. Qed.
Print Assumptions empty_file_is_not_reported_refuted.

(** A mapping whose only key is a short form raises TypeError. *)
Theorem key_is_function_raises_refuted : forall parse scalar int16 other depth, forall file s m k,
  parse s = Document (Some (NMap m [k])) -> (exists mk t x mv v, k = (NTagS mk t x, NStr mv v)) -> decode_file parse scalar int16 other depth file (Content s) = Err ETypeErr.
Proof. exact c50_raises. Qed.
Print Assumptions key_is_function_raises_refuted.

(** An exception of a scalar's constructor, such as ValueError for the date 2020-13-45, is raised. *)
Theorem unreadable_scalar_raises_refuted : forall parse scalar int16 other depth, forall file s m mk k mv t x e,
  parse s = Document (Some (NMap m [(NStr mk k, NScalar mv t x)])) -> scalar t x = inr e -> decode_file parse scalar int16 other depth file (Content s) = Err e.
Proof. exact c50_raises_scalar. Qed.
Print Assumptions unreadable_scalar_raises_refuted.

Example parser_meets_the_hypotheses : forall s,
  (forall e, parse1 s <> ParseExn e) /\ forall n, parse1 s = Document (Some n) -> ordinary ints n.
Proof. exact parse1_ordinary. Qed.

Example yaml_example : exists d, decode_file parse1 ints int_hex no_other 9 "a.yaml" (Content [121%N]) = Ok (Some (TYaml (YDict d)), []).
Proof. exact c50_yaml_example. Qed.

Example yaml_bad_example : decode_file parse1 ints int_hex no_other 9 "a.yaml" (Content [98%N]) = Ok (None, [mkD 6 5 6 6 "a.yaml" (DRepeated "x" 6)]).
Proof. exact c50_bad_example. Qed.

Example json_example : decode_file parse1 ints int_hex no_other 9 "a.json" (Content doc) = Ok (Some (TJson doc_value), []).
Proof. exact c50_json_example. Qed.

(** The error is for the second member but at the third, and one column to the right. *)
Example json_bad_example : decode_file parse1 ints int_hex no_other 9 "a.json" (Content doc2) = Ok (None, [mkD 1 15 1 16 "a.json" (DJson (MDuplicate [97%N]))]).
Proof. exact c50_json_bad_example. Qed.
