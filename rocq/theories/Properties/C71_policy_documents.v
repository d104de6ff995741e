(** C71 Policy documents are well formed and of the current version. *)
From Coq Require Import List.
Import ListNotations.
From Verif.Model Require Import Base Helpers Locate Node Rules Refs PropertyRules Iam.
From Verif.Spec Require Import Paths Branches Required References Walk Values Iam.
From Verif.Proofs Require Import Samples PropertyWitness PropertyRuleProofs IamProofs IamWitness.
Import Verif.Model.Rules.
Local Open Scope string_scope.

(** E2507 reports exactly the faults of the policy documents among the properties of a resource: documents that are neither objects nor JSON, keys that do not exist, wrong versions, statements without effect, action or resource, principals that are missing or out of place; in every branch of conditions.  Missing for the full property: documents that can be null, single statements with choices that are not objects, and the refutations below. *)
Theorem documents_judged_partial : forall json rt props p,
  NoDup (keys props) -> documents_shaped json all_document_names props p ->
  exists ms, policy_check json rt (VDict props) p = Ok ms /\ forall m, In m ms <->
    exists x q w r place shown words, document_at all_document_names props p x q /\ single x q w r /\ ~ is_call w /\
      document_fault json (of_identity rt) (of_repository rt) w r place shown words /\ m = mkRM shown words.
Proof. exact c71_documents. Qed.
Print Assumptions documents_judged_partial.

(** A fault is reported at its place, unless it is a key of the document that does not exist. *)
Theorem document_fault_places : forall json identity exempt w r place shown words,
  document_fault json identity exempt w r place shown words ->
  shown = place \/ exists k, ~ In k document_keys /\ shown = (r ++ place)%list /\ words = "IAM Policy key " ++ k ++ " doesn't exist.".
Proof. exact c71_places. Qed.
Print Assumptions document_fault_places.

(** In a run, each fault leads to a finding of E2507, provided no document has a member named Resources. *)
Theorem document_findings : forall json sp k c raw name rt attrs pd m0 d0 x q w r place shown words,
  snd (coll_run sp k c) = Ok raw -> In (policy_rule json) (k_all k) -> enabled (k_set k) (policy_rule json) = true ->
  wf (template c) -> c_tmpl c = MDict m0 d0 -> resource_of (template c) name rt attrs -> assoc "Properties" attrs = Some (VDict pd) -> In rt (resource_policy_types ++ identity_types)%list ->
  documents_shaped json all_document_names pd (props_path name) ->
  (forall x q d r, document_at all_document_names pd (props_path name) x q -> single x q (VDict d) r -> assoc "Resources" d = None) ->
  document_at all_document_names pd (props_path name) x q -> single x q w r -> ~ is_call w -> document_fault json (of_identity rt) (of_repository rt) w r place shown words ->
  exists f, locate_match c "E2507" (mkRM shown words) = Ok f /\ In f raw.
Proof. exact c71_run. Qed.
Print Assumptions document_findings.

(** W2511 reports exactly the documents of the old version among those given as objects by the properties it looks at.  Missing: documents that become conditions when members without a value are left out, policies that cannot be gone through, and the refutations below. *)
Theorem versions_judged_partial : forall rt props p,
  version_type rt -> versions_shaped rt props p ->
  exists ms, version_check rt (VDict props) p = Ok ms /\ forall m, In m ms <->
    exists x q w r d s, versioned rt props p x q /\ single x q w r /\ ~ is_call w /\ is_dict w = true /\ branch w r (VDict d) s /\ assoc "Version" d = Some (VStr "2008-10-17") /\
      m = mkRM (s ++ [PKey "Version"])%list version_words.
Proof. exact c71_versions. Qed.
Print Assumptions versions_judged_partial.

(** In a run, each of them leads to a finding of W2511. *)
Theorem version_findings : forall sp k c raw name rt attrs pd m0 d0 x q w r d s,
  snd (coll_run sp k c) = Ok raw -> In version_rule (k_all k) -> enabled (k_set k) version_rule = true ->
  wf (template c) -> c_tmpl c = MDict m0 d0 -> resource_of (template c) name rt attrs -> assoc "Properties" attrs = Some (VDict pd) -> version_type rt ->
  versions_shaped rt pd (props_path name) ->
  versioned rt pd (props_path name) x q -> single x q w r -> ~ is_call w -> is_dict w = true -> branch w r (VDict d) s -> assoc "Version" d = Some (VStr "2008-10-17") ->
  exists f, locate_match c "W2511" (mkRM (s ++ [PKey "Version"])%list version_words) = Ok f /\ In f raw.
Proof. exact c71_versions_run. Qed.
Print Assumptions version_findings.

(** A key that does not exist is reported at a place that is not in the template. *)
Theorem document_key_place_refuted : exists pd m, wf (VDict pd) /\ policy_check no_json "AWS::KMS::Key" (VDict pd) (props_path "R") = Ok [m] /\ at_path (rm_path m) (with_resource "AWS::KMS::Key" pd) = None.
Proof. exact key_place_witness. Qed.
Print Assumptions document_key_place_refuted.

(** A policy that depends on a condition is not looked at, if it is an item of the list of policies. *)
Theorem conditional_policy_refuted : exists d pd, policy_check no_json role (VDict pd) (props_path "R") = Ok [] /\ wf (VDict pd) /\
  assoc "Policies" pd = Some (VList [If_of (VList [VStr "c"; VDict [("PolicyDocument", VDict d)]; NoValue])]) /\
  exists place shown words, document_fault no_json true false (VDict d) [] place shown words.
Proof. exact conditional_policy_witness. Qed.
Print Assumptions conditional_policy_refuted.

(** A version given by a parameter is reported as wrong. *)
Theorem version_given_by_parameter_refuted : exists d m, wf (VDict d) /\ assoc "Version" d = Some (VDict [("Ref", VStr "Version")]) /\ check_policy_document no_json true false (VDict d) [] = Ok [m] /\
  rm_msg m = "IAM Policy Version needs to be one of (2012-10-17, 2008-10-17).".
Proof. exact version_ref_witness. Qed.
Print Assumptions version_given_by_parameter_refuted.

(** A statement whose choices are not all objects ends the check with an exception, so nothing is reported. *)
Theorem statement_choice_refuted : exists d, wf (VDict d) /\ check_policy_document no_json true false (VDict d) [] = Err ETemplateAttribute.
Proof. exact statement_text_witness. Qed.
Print Assumptions statement_choice_refuted.

(** The policy that says who may assume a role is looked at by neither rule. *)
Theorem trust_policy_refuted : exists pd, wf (VDict pd) /\ assoc "AssumeRolePolicyDocument" pd = Some (VDict [("Version", VStr "2008-10-17"); ("Rules", VList [])]) /\
  policy_check no_json role (VDict pd) (props_path "R") = Ok [] /\ version_check role (VDict pd) (props_path "R") = Ok [].
Proof. exact trust_policy_witness. Qed.
Print Assumptions trust_policy_refuted.

(** The version of a document given as a text is not looked at. *)
Theorem version_in_text_refuted : exists json s d, json s = Some (VDict d) /\ assoc "Version" d = Some (VStr "2008-10-17") /\ policy_check json "AWS::KMS::Key" (VDict [("KeyPolicy", VStr s)]) [] = Ok [] /\
  version_check "AWS::KMS::Key" (VDict [("KeyPolicy", VStr s)]) [] = Ok [].
Proof. exact text_version_witness. Qed.
Print Assumptions version_in_text_refuted.

(** Policies that are null end the check of versions with an exception. *)
Theorem null_policies_refuted : version_check role (VDict [("Policies", VNull)]) [] = Err ETypeErr.
Proof. exact null_policies_witness. Qed.
Print Assumptions null_policies_refuted.

Example document_example_ : wf (template (cfn_of (with_resource role sample_role))) /\ resource_of (template (cfn_of (with_resource role sample_role))) "R" role [("Type", VStr role); ("Properties", VDict sample_role)] /\
  documents_shaped no_json all_document_names sample_role (props_path "R") /\
  (forall x q d r, document_at all_document_names sample_role (props_path "R") x q -> single x q (VDict d) r -> assoc "Resources" d = None) /\
  document_at all_document_names sample_role (props_path "R") (VDict sample_document) document_place0 /\
  single (VDict sample_document) document_place0 (VDict sample_document) document_place0 /\ ~ is_call (VDict sample_document) /\
  document_fault no_json (of_identity role) (of_repository role) (VDict sample_document) document_place0
    (document_place0 ++ [PKey "Statement"; PIdx 0; PKey "Effect"])%list (document_place0 ++ [PKey "Statement"; PIdx 0; PKey "Effect"])%list "IAM Policy Effect should be Allow or Deny" /\
  let k := mkColl [policy_rule no_json] default_settings in
  exists raw, snd (coll_run sample_sp k (cfn_of (with_resource role sample_role))) = Ok raw /\
    map f_msg raw = ["IAM Policy Effect should be Allow or Deny"; "IAM Resource Policy statement shouldn't have Principal or NotPrincipal"; "IAM Policy statement missing Resource or NotResource"; "IAM Policy Documents need to be JSON"].
Proof. exact document_example. Qed.

Example version_example_ : versions_shaped role sample_role (props_path "R") /\ version_type role /\ versioned role sample_role (props_path "R") (VDict sample_document) document_place0 /\
  branch (VDict sample_document) document_place0 (VDict sample_document) document_place0 /\ assoc "Version" sample_document = Some (VStr "2008-10-17") /\
  let k := mkColl [version_rule] default_settings in
  exists raw, snd (coll_run sample_sp k (cfn_of (with_resource role sample_role))) = Ok raw /\ map f_msg raw = ["IAM Policy Version should be updated to '2012-10-17'."].
Proof. exact version_example. Qed.
