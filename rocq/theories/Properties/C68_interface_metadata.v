(** C68 The interface described in the metadata. *)
From Coq Require Import List.
Import ListNotations.
From Verif.Model Require Import Base Helpers Locate Node Conditions Rules Interface.
From Verif.Spec Require Import Paths Interface.
From Verif.Proofs Require Import Samples PropertyWitness InterfaceProofs.
Import Verif.Model.Rules.
Local Open Scope string_scope.

(** When the interface, its groups and their parameters are objects and lists as they should be, E4001 reports exactly the keys of the interface other than ParameterGroups and ParameterLabels, and the keys of its groups other than Label and Parameters. *)
Theorem interface_keys_judged : forall (str_other : val -> string), forall t i,
  interface_shaped t i -> exists ms, interface_configuration_match str_other t = Ok ms /\
  forall m, In m ms <-> exists p k, stray_key t p k /\ m = stray_match p k.
Proof. exact c68_keys. Qed.
Print Assumptions interface_keys_judged.

(** Then also W4001 reports exactly the parameters of groups and the keys of the labels that are no parameter of the template. *)
Theorem interface_parameters_judged : forall (str_other : val -> string), forall t i,
  interface_shaped t i -> exists ms, interface_parameters_match str_other t = Ok ms /\
  forall m, In m ms <-> exists p v, stray_name t p v /\ m = absent_match str_other p v.
Proof. exact c68_names. Qed.
Print Assumptions interface_parameters_judged.

(** In a run, each such key leads to a finding of E4001 at its place. *)
Theorem interface_key_findings : forall (str_other : val -> string), forall sp k c raw m0 d0 i p key,
  snd (coll_run sp k c) = Ok raw -> In (interface_configuration_rule str_other) (k_all k) -> enabled (k_set k) (interface_configuration_rule str_other) = true ->
  c_tmpl c = MDict m0 d0 -> interface_shaped (template c) i -> stray_key (template c) p key ->
  exists fi, locate_match c "E4001" (stray_match p key) = Ok fi /\ In fi raw.
Proof. exact c68_keys_run. Qed.
Print Assumptions interface_key_findings.

(** In a run, each such name leads to a finding of W4001 at its place. *)
Theorem interface_parameter_findings : forall (str_other : val -> string), forall sp k c raw m0 d0 i p v,
  snd (coll_run sp k c) = Ok raw -> In (interface_parameters_rule str_other) (k_all k) -> enabled (k_set k) (interface_parameters_rule str_other) = true ->
  c_tmpl c = MDict m0 d0 -> interface_shaped (template c) i -> stray_name (template c) p v ->
  exists fi, locate_match c "W4001" (absent_match str_other p v) = Ok fi /\ In fi raw.
Proof. exact c68_names_run. Qed.
Print Assumptions interface_parameter_findings.

(** Without an interface neither rule says anything. *)
Theorem no_interface_no_findings : forall (str_other : val -> string), forall d md,
  (assoc "Metadata" d = None \/ assoc "Metadata" d = Some (VDict md) /\ assoc interface_key md = None) ->
  interface_configuration_match str_other (VDict d) = Ok [] /\ interface_parameters_match str_other (VDict d) = Ok [].
Proof. exact c68_nothing. Qed.
Print Assumptions no_interface_no_findings.

(** Groups given as null end E4001 with an exception, not with a finding. *)
Theorem null_groups_refuted : exists i, wf (with_interface i) /\ interface_configuration_match no_str (with_interface i) = Err ETypeErr.
Proof. exact c68_null_witness. Qed.
Print Assumptions null_groups_refuted.

(** A group given as a text is not reported, but each of its letters is, at a place not in the template. *)
Theorem text_group_refuted : exists i, wf (with_interface i) /\ interface_configuration_match no_str (with_interface i) =
  Ok [stray_match (groups_place ++ [PIdx 0; PKey "o"])%list "o"; stray_match (groups_place ++ [PIdx 0; PKey "k"])%list "k"] /\
  at_path (groups_place ++ [PIdx 0; PKey "o"])%list (with_interface i) = None.
Proof. exact c68_text_witness. Qed.
Print Assumptions text_group_refuted.

(** A group given as a text with the word Parameters in it ends W4001 with an exception. *)
Theorem text_group_parameters_refuted : exists i, wf (with_interface i) /\ interface_parameters_match no_str (with_interface i) = Err ETypeErr.
Proof. exact c68_list_witness. Qed.
Print Assumptions text_group_parameters_refuted.

Example interface_example_ : interface_shaped (template interface_cfn) sample_interface /\
  stray_key (template interface_cfn) (interface_place ++ [PKey "Groups"])%list "Groups" /\
  stray_key (template interface_cfn) (groups_place ++ [PIdx 1; PKey "Labels"])%list "Labels" /\
  stray_name (template interface_cfn) (groups_place ++ [PIdx 0; PKey "Parameters"; PIdx 1])%list (VStr "Gone") /\
  stray_name (template interface_cfn) (labels_place ++ [PKey "Lost"])%list (VStr "Lost") /\
  let k := mkColl [interface_configuration_rule no_str; interface_parameters_rule no_str] default_settings in
  exists raw, snd (coll_run sample_sp k interface_cfn) = Ok raw /\
    map f_msg raw = ["Metadata Interface has invalid property Groups"; "Metadata Interface has invalid property Labels";
                     "Metadata Interface parameter doesn't exist Gone"; "Metadata Interface parameter doesn't exist Lost"].
Proof. exact interface_example. Qed.
