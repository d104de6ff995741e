(** C32 Intrinsic function arguments. *)
From Coq Require Import List Permutation QArith ZArith.
Import ListNotations.
From Verif.Model Require Import Base Helpers Rules Search Refs ConditionRules Relationship Limits Parameters Policies Functions.
From Verif.Spec Require Import Paths References ParameterUse ConditionUse FunctionArguments Attributes.
From Verif.Proofs Require Import PlaceholderProofs FunctionProofs CidrProofs MapProofs AttributeProofs JoinProofs SubProofs FunctionWitness.
Import Verif.Model.Rules.
Local Open Scope string_scope.

(** Fn::Base64 takes a text, or an object with one member that is not Fn::Split; anything else is reported, at the call, and nothing else is. *)
Theorem base64_arguments_judged : forall template globals,
  wf template -> wf globals -> exists ms, base64_match template globals = Ok ms /\ judged "Fn::Base64" template globals (unless base64_ok) ms.
Proof. exact c32_base64. Qed.
Print Assumptions base64_arguments_judged.

(** Fn::Not takes a list. *)
Theorem not_arguments_judged : forall template globals,
  wf template -> wf globals -> exists ms, not_match template globals = Ok ms /\ judged "Fn::Not" template globals (unless list_ok) ms.
Proof. exact c32_not. Qed.
Print Assumptions not_arguments_judged.

(** Ref takes a text. *)
Theorem ref_arguments_judged : forall template globals,
  wf template -> wf globals -> exists ms, ref_text_match template globals = Ok ms /\ judged "Ref" template globals (unless text) ms.
Proof. exact c32_ref. Qed.
Print Assumptions ref_arguments_judged.

(** Texts and objects that are no region are reported as arguments of Fn::GetAZs.  Missing for the full property: other values, which are refuted below. *)
Theorem getazs_arguments_judged_partial : forall template globals regions,
  wf template -> wf globals -> exists ms, getaz_match template globals regions = Ok ms /\
  judged "Fn::GetAZs" template globals (fun p v r => r = [] /\ (text v \/ object v) /\ ~ getaz_ok regions v) ms.
Proof. exact c32_getaz. Qed.
Print Assumptions getazs_arguments_judged_partial.

(** Fn::ImportValue takes a text or a call of one of eight functions, and is wrong in Conditions. *)
Theorem import_arguments_judged : forall template globals,
  wf template -> wf globals -> exists ms, import_match template globals = Ok ms /\ judged "Fn::ImportValue" template globals import_fault ms.
Proof. exact c32_import. Qed.
Print Assumptions import_arguments_judged.

(** Fn::Split takes a delimiter and a text or a call. *)
Theorem split_arguments_judged : forall template globals,
  wf template -> wf globals -> exists ms, split_match template globals = Ok ms /\ judged "Fn::Split" template globals split_fault ms.
Proof. exact c32_split. Qed.
Print Assumptions split_arguments_judged.

(** Fn::Select takes an index and a list, or calls that give them ... *)
Theorem select_arguments_judged : forall template globals py_int ms,
  wf template -> wf globals -> select_match template globals py_int = Ok ms ->
  judged "Fn::Select" template globals (unless (select_ok py_int)) ms.
Proof. exact c32_select. Qed.
Print Assumptions select_arguments_judged.

(** ... unless the index is a list or null, in which case the rule fails. *)
Theorem select_rule_fails_iff : forall template globals py_int,
  wf template -> wf globals ->
  ((exists ms, select_match template globals py_int = Ok ms) <->
   forall p i l, occurs "Fn::Select" template globals p (VList [i; l]) -> i <> VNull /\ ~ list_ok i).
Proof. exact c32_select_fails. Qed.
Print Assumptions select_rule_fails_iff.

(** Fn::FindInMap takes the name of a map and two keys ... *)
Theorem map_arguments_judged : forall template globals ms,
  wf template -> wf globals -> plain_mappings template -> find_in_map_match template globals = Ok ms ->
  judged "Fn::FindInMap" template globals (map_fault template) ms.
Proof. exact c32_map. Qed.
Print Assumptions map_arguments_judged.

(** ... and the rule fails exactly when it finds something that is no list inside a list. *)
Theorem map_rule_fails_iff : forall template globals,
  wf template -> wf globals -> plain_mappings template ->
  ((exists ms, find_in_map_match template globals = Ok ms) <->
   forall p v, occurs "Fn::FindInMap" template globals p v -> list_ok v \/ forall i, ~ In (PIdx i) p).
Proof. exact c32_map_fails. Qed.
Print Assumptions map_rule_fails_iff.

(** Fn::Cidr takes a block, a count and a size; the parameters given as count and size are judged by their Type, MinValue, MaxValue and AllowedValues. *)
Theorem cidr_arguments_judged : forall template globals str_of order ms,
  wf template -> wf globals -> plain_parameters template -> (forall l, Permutation (order l) l) ->
  cidr_match template globals str_of order = Ok ms ->
  exists a b, ms = (a ++ b)%list /\ judged "Fn::Cidr" template globals cidr_fault a /\
    forall q, In q (map rm_path b) <-> exists i n, (i = 1 \/ i = 2) /\ cidr_uses template globals i n /\ cidr_parameter_fault template n q.
Proof. exact c32_cidr. Qed.
Print Assumptions cidr_arguments_judged.

(** Fn::Join takes a delimiter and a list of texts, or calls that give them: references to parameters and attributes are judged by whether they are lists. *)
Theorem join_arguments_judged : forall template globals types ms,
  wf template -> wf globals -> plain_sections template -> plain_types types ->
  join_match template globals types = Ok ms -> judged "Fn::Join" template globals (unless (join_ok types template)) ms.
Proof. exact c32_join. Qed.
Print Assumptions join_arguments_judged.

(** A Fn::Join with the empty text is reported in favour of Fn::Sub. *)
Theorem empty_joins_reported : forall template globals ms,
  wf template -> wf globals -> sub_not_join_match template globals = Ok ms ->
  judged "Fn::Join" template globals (fun p v r => r = [] /\ exists rest, v = VList (VStr "" :: rest)) ms.
Proof. exact c32_not_join. Qed.
Print Assumptions empty_joins_reported.

(** Fn::Cidr with two arguments is well formed and is reported, at a place that does not exist. *)
Theorem two_cidr_arguments_refuted : exists p v ms q, wf v /\ occurs "Fn::Cidr" v nothing p (VList [VStr "10.0.0.0/16"; VInt 2]) /\
  cidr_match v nothing show (fun l => l) = Ok ms /\ map rm_path ms = [q] /\ at_path q v = None.
Proof. exact c32_cidr_refuted. Qed.
Print Assumptions two_cidr_arguments_refuted.

(** Objects that call no function are accepted as arguments of Fn::Cidr, and so is a line feed behind the block. *)
Theorem cidr_arguments_refuted : exists t, wf t /\ (exists p, occurs "Fn::Cidr" t nothing p (VList [VStr ("10.0.0.0/16" ++ String "010" ""); VDict []; VDict []])) /\
  cidr_match t nothing show (fun l => l) = Ok [].
Proof. exact c32_cidr_lax_refuted. Qed.
Print Assumptions cidr_arguments_refuted.

(** A list is accepted as the argument of Fn::GetAZs. *)
Theorem getazs_arguments_refuted : exists t, wf t /\ (exists p v, occurs "Fn::GetAZs" t nothing p v /\ list_ok v) /\ getaz_match t nothing ["us-east-1"] = Ok [].
Proof. exact c32_getaz_refuted. Qed.
Print Assumptions getazs_arguments_refuted.

(** A list as the index of Fn::Select raises an exception. *)
Theorem select_index_refuted : exists t, wf t /\ select_match t nothing digits = Err ETypeErr.
Proof. exact c32_select_refuted. Qed.
Print Assumptions select_index_refuted.

(** A Fn::FindInMap with one argument is reported at its second one, which does not exist. *)
Theorem short_map_arguments_refuted : exists t ms q, wf t /\ find_in_map_match t nothing = Ok ms /\ map rm_path ms = [q] /\ at_path q t = None.
Proof. exact c32_map_short_refuted. Qed.
Print Assumptions short_map_arguments_refuted.

(** A text as the argument of Fn::FindInMap raises an exception inside a list. *)
Theorem map_text_refuted : exists t, wf t /\ find_in_map_match t nothing = Err ETypeErr.
Proof. exact c32_map_crash_refuted. Qed.
Print Assumptions map_text_refuted.

Example shapes_wf_ : wf shapes.
Proof. exact shapes_wf. Qed.

Example nothing_wf_ : wf nothing.
Proof. exact nothing_wf. Qed.

Example shop_types_plain_ : plain_types shop_types.
Proof. exact shop_types_plain. Qed.

Example shop_plain_ : forall ps,
  plain_sections (shop ps).
Proof. exact shop_plain. Qed.

Example shop_mappings_ : forall ps,
  plain_maps (shop ps) /\ plain_mappings (shop ps) /\ plain_parameters (shop ps).
Proof. exact shop_mappings. Qed.

Example joins_wf_ : wf joins.
Proof. exact joins_wf. Qed.

Example shapes_found_ : finds (base64_match shapes nothing) [at_topic [PKey "A"; PKey "Fn::Base64"]] /\
  finds (not_match shapes nothing) [at_topic [PKey "C"; PKey "Fn::Not"]] /\
  finds (ref_text_match shapes nothing) [ref_fault] /\
  finds (getaz_match shapes nothing ["us-east-1"]) [at_topic [PKey "E"; PKey "Fn::GetAZs"]] /\
  finds (import_match shapes nothing) [at_topic [PKey "G"; PKey "Fn::ImportValue"]] /\
  finds (select_match shapes nothing digits) [at_topic [PKey "I"; PKey "Fn::Select"]] /\
  finds (split_match shapes nothing) [at_topic [PKey "K"; PKey "Fn::Split"; PIdx 0]; at_topic [PKey "K"; PKey "Fn::Split"; PKey "Fn::Nope"]] /\
  finds (cidr_match shapes nothing show (fun l => l)) [at_topic [PKey "N"; PKey "Fn::Cidr"; PIdx 0]; [PKey "Parameters"; PKey "Count"; PKey "MaxValue"]] /\
  finds (find_in_map_match shapes nothing) [at_topic [PKey "P"; PKey "Fn::FindInMap"; PIdx 0]; at_topic [PKey "P"; PKey "Fn::FindInMap"; PIdx 2]].
Proof. exact shapes_found. Qed.

Example joins_found_ : finds (join_match joins nothing shop_types) [at_topic [PKey "E"; PKey "Fn::Join"]; at_topic [PKey "F"; PKey "Fn::Join"]; at_topic [PKey "G"; PKey "Fn::Join"]] /\
  finds (sub_not_join_match joins nothing) [at_topic [PKey "F"; PKey "Fn::Join"]].
Proof. exact joins_found. Qed.
