(** C12 Duplicate and null members are rejected. *)
From Coq Require Import List NArith ZArith.
Import ListNotations.
From Verif.Model Require Import Base Json Yaml.
From Verif.Spec Require Import JsonText YamlNodes.
From Verif.Proofs Require Import JsonProofs JsonWitness YamlProofs.

Local Open Scope N_scope.

(** A JSON text with a null or repeated member at any depth is rejected, with an error that names such a member. *)
Theorem json_faults_are_rejected : forall int16 other, reads_hex int16 -> forall d s v m,
  denotes s v -> (nesting v <= d)%nat -> faulty v m -> exists m' p k, decode int16 other d s = JErr (JE m' p k) /\ faulty v m'.
Proof. exact denotes_faulty. Qed.
Print Assumptions json_faults_are_rejected.

(** A YAML node is accepted exactly when nothing in it is null or repeated, and unchanged.  Missing for the full property: keys that are no texts, short forms with mappings and !GetAtt with lists (refuted below), and merge keys. *)
Theorem yaml_accepts_exactly_partial : forall scalar, forall n v,
  ordinary scalar n -> (construct scalar n = YOk v <-> means scalar n v /\ forall e, ~ wrong n e).
Proof. exact c12_accepts. Qed.
Print Assumptions yaml_accepts_exactly_partial.

(** Otherwise it is rejected, with an error for a null or repeated key in it.  Missing: as above. *)
Theorem yaml_rejects_exactly_partial : forall scalar, forall n,
  ordinary scalar n -> ((exists e, wrong n e) <-> exists e, construct scalar n = YErr e) /\ forall e, construct scalar n = YErr e -> wrong n e.
Proof. exact c12_rejects. Qed.
Print Assumptions yaml_rejects_exactly_partial.

(** The error for the repeated member a has the position and text of the last member, b. *)
Theorem json_error_position_refuted : forall int16 other,
  decode int16 other 2 doc2 = JErr (JE (MDuplicate [97]) 13 [98]).
Proof. exact c12_position. Qed.
Print Assumptions json_error_position_refuted.

(** In a mapping given to a short form, the last of the repeated members wins. *)
Theorem repeated_keys_in_short_forms_refuted : forall scalar m t k a b m1 m2 ma mb,
  t <> "GetAtt" ->
  construct scalar (NTagM m t [(NStr m1 k, NStr ma a); (NStr m2 k, NStr mb b)]) = YOk (YDict [(YText (function_name t), YDict [(YText k, YText b)])]).
Proof. exact c12_tagged. Qed.
Print Assumptions repeated_keys_in_short_forms_refuted.

(** A null in a list given to !GetAtt is taken for text. *)
Theorem null_in_getatt_list_refuted : forall scalar m m1 m2 s a,
  construct scalar (NTagL m "GetAtt" [NNull m1 s; NStr m2 a]) = YOk (YDict [(YText "Fn::GetAtt", YList [YText s; YText a])]).
Proof. exact c12_getatt_null. Qed.
Print Assumptions null_in_getatt_list_refuted.

(** A repeated key that is no text raises TypeError. *)
Theorem repeated_number_keys_refuted : forall scalar m m1 m2 t s t' s' v v' a b ma mb,
  scalar t s = inl v -> scalar t' s' = inl v' -> py_eq v' v = true ->
  construct scalar (NMap m [(NScalar m1 t s, NStr ma a); (NScalar m2 t' s', NStr mb b)]) = YErr (YExn ETypeErr).
Proof. exact c12_number_key. Qed.
Print Assumptions repeated_number_keys_refuted.

(** A key that is a short form raises TypeError. *)
Theorem function_keys_refuted : forall scalar m mk mv suffix s x,
  construct scalar (NMap m [(NTagS mk suffix s, NStr mv x)]) = YErr (YExn ETypeErr).
Proof. exact c12_unhashable. Qed.
Print Assumptions function_keys_refuted.

Example json_example : denotes doc2 doc2_value /\ faulty doc2_value (MDuplicate [97]).
Proof. exact doc2_denotes. Qed.

Example yaml_good_meets_the_hypotheses : ordinary ints good_node.
Proof. exact good_node_ordinary. Qed.

Example yaml_good_is_accepted : construct ints good_node = YOk (YDict [(YText "Resources", YDict [(YText "A", YDict [(YText "Type", YText "AWS::SNS::Topic"); (YText "N", YScalar (VInt 1))]);
  (YText "B", YDict [(YText "Fn::Join", YList [YText ","; YList [YDict [(YText "Ref", YText "A")]; YDict [(YText "Fn::GetAtt", YList [YText "A"; YText "B.C"])]]])])])]).
Proof. exact good_node_value. Qed.

Example yaml_bad_meets_the_hypotheses : ordinary ints bad_node.
Proof. exact bad_node_ordinary. Qed.

Example yaml_bad_is_rejected : construct ints bad_node = YErr (YDuplicate "x" (mkY 5 4)).
Proof. exact bad_node_error. Qed.
