(** C71: samples and deviations. *)
From Coq Require Import List.
From Verif.Model Require Import Base Locate Helpers Node Search Rules Refs ConditionRules PropertyRules Iam.
From Verif.Spec Require Import Paths Branches References ConditionUse Required Walk Values Iam.
From Verif.Proofs Require Import BaseFacts WfDecide BranchProofs SizeProofs Samples PropertyWitness ValueWitness PropertyRuleProofs ParameterValueProofs Says Places IamProofs.
Import Verif.Model.Rules.
Import ListNotations.
Local Open Scope string_scope.

Definition with_resource (rt : string) (pd : list (string * val)) : val :=
  VDict [("Resources", VDict [("R", VDict [("Type", VStr rt); ("Properties", VDict pd)])])].
Definition cfn_of (t : val) : cfn := mkCfn "t.yaml" "us-east-1" (marked t).
Definition role : string := "AWS::IAM::Role".
Definition sample_document : list (string * val) :=
  [("Version", VStr "2008-10-17"); ("Statement", VList [VDict [("Effect", VStr "Grant"); ("Action", VStr "s3:*"); ("Principal", VStr "*")]])].
Definition sample_role : list (string * val) := [("Policies", VList [VDict [("PolicyDocument", VDict sample_document)]; VDict [("PolicyDocument", VStr "oops")]])].
Definition document_place0 : path := (props_path "R" ++ [PKey "Policies"; PIdx 0; PKey "PolicyDocument"])%list.
(** Nothing in JSON. *)
Definition no_json (s : string) : option val := None.

Lemma sample_documents x q : document_at all_document_names sample_role (props_path "R") x q -> (x = VDict sample_document /\ q = document_place0) \/ x = VStr "oops".
Proof.
  intros [k y Hk Hx|l i o y Hl Hi Hx].
  - cbn in Hk. decompose [or] Hk; try contradiction; subst k; discriminate Hx.
  - injection Hl as <-. destruct i as [|[|i]]; cbn in Hi; [| |destruct i; discriminate Hi]; injection Hi as <-; cbn in Hx; injection Hx as <-; auto.
Qed.
Lemma plain_single d q w r : ~ is_if (VDict d) -> single (VDict d) q w r -> w = VDict d /\ r = q.
Proof.
  intros Hi H. assert (A : forall w r, alternative (VDict d) q w r -> w = VDict d /\ r = q).
  { intros w' r' K. inversion K; subst; try (exfalso; apply Hi; eexists; reflexivity). auto. }
  inversion H as [v p w' q' K _|v p l q' i x w' r' K _ _]; subst; [now apply A|]. apply A in K as [K _]. discriminate K.
Qed.
Lemma document_example : wf (template (cfn_of (with_resource role sample_role))) /\ resource_of (template (cfn_of (with_resource role sample_role))) "R" role [("Type", VStr role); ("Properties", VDict sample_role)] /\
  documents_shaped no_json all_document_names sample_role (props_path "R") /\
  (forall x q d r, document_at all_document_names sample_role (props_path "R") x q -> single x q (VDict d) r -> assoc "Resources" d = None) /\
  document_at all_document_names sample_role (props_path "R") (VDict sample_document) document_place0 /\
  single (VDict sample_document) document_place0 (VDict sample_document) document_place0 /\ ~ is_call (VDict sample_document) /\
  document_fault no_json (of_identity role) (of_repository role) (VDict sample_document) document_place0
    (document_place0 ++ [PKey "Statement"; PIdx 0; PKey "Effect"])%list (document_place0 ++ [PKey "Statement"; PIdx 0; PKey "Effect"])%list "IAM Policy Effect should be Allow or Deny" /\
  let k := mkColl [policy_rule no_json] default_settings in
  exists raw, snd (coll_run sample_sp k (cfn_of (with_resource role sample_role))) = Ok raw /\
    map f_msg raw = ["IAM Policy Effect should be Allow or Deny"; "IAM Resource Policy statement shouldn't have Principal or NotPrincipal"; "IAM Policy statement missing Resource or NotResource"; "IAM Policy Documents need to be JSON"].
Proof.
  assert (H0 : ~ is_if (VDict sample_document)) by (intros [y E]; discriminate E).
  assert (B0 : branch (VDict sample_document) document_place0 (VDict sample_document) document_place0) by (apply items_safe_spec; now left).
  split; [apply wfb_sound; reflexivity|]. split; [|split; [|split; [|split; [|split; [|split; [|split]]]]]].
  - do 2 eexists. split; [reflexivity|]. split; [reflexivity|]. split; [now left | reflexivity].
  - intros x q Hx. destruct (sample_documents x q Hx) as [[-> ->]| ->].
    + split.
      * intros r K. apply (alternative_sub _ _ _ _) in K. revert K. apply nulls_sound. reflexivity.
      * intros w r Hw _. apply plain_single in Hw as [-> ->]; [|exact H0]. intros v d q x Hd _ Hb Hx' Hk. inversion Hd; subst.
        destruct (branch_plain _ _ _ _ H0 Hb) as [-> E]. injection E as ->. destruct Hx' as [K|[K|[]]]; [discriminate K|]. injection K as <-. discriminate Hk.
    + split; [intros r K; inversion K|]. intros w r Hw _ v d q' x' Hd Hk Hb Hx' Hkx.
      assert (w = VStr "oops") as -> by (inversion Hw as [v0 p0 w0 q0 K _|v0 p0 l0 q0 i0 x0 w0 r0 K _ _]; subst; inversion K; subst; reflexivity).
      inversion Hd as [s v' E|v' E]; subst; [discriminate E | discriminate Hk].
  - intros x q d r Hx Hs. destruct (sample_documents x q Hx) as [[-> ->]| ->].
    + apply plain_single in Hs as [E _]; [|exact H0]. injection E as ->. reflexivity.
    + exfalso. inversion Hs as [v0 p0 w0 q0 K _|v0 p0 l0 q0 i0 x0 w0 r0 K _ _]; inversion K.
  - exact (da_policy all_document_names sample_role (props_path "R") _ 0 _ _ eq_refl eq_refl eq_refl).
  - apply sg_value; [apply alt_leaf; [exact H0 | discriminate] | reflexivity].
  - intros [fn [y [E _]]]. discriminate E.
  - eapply (df_statement no_json _ _ _ _ (VDict sample_document)); [apply doc_value; discriminate | reflexivity | exact B0 | right; now left | eapply si_item with (i := 0); [reflexivity | reflexivity|] |].
    + apply items_safe_spec. now left.
    + eapply (sf_effect _ _ _ _ _ "Grant"); [reflexivity | | discriminate | discriminate]. apply br_leaf; [intros [y E]; discriminate E | discriminate | now apply st_other].
  - eexists. split; [vm_compute; reflexivity | reflexivity].
Qed.
Lemma version_example : versions_shaped role sample_role (props_path "R") /\ version_type role /\ versioned role sample_role (props_path "R") (VDict sample_document) document_place0 /\
  branch (VDict sample_document) document_place0 (VDict sample_document) document_place0 /\ assoc "Version" sample_document = Some (VStr "2008-10-17") /\
  let k := mkColl [version_rule] default_settings in
  exists raw, snd (coll_run sample_sp k (cfn_of (with_resource role sample_role))) = Ok raw /\ map f_msg raw = ["IAM Policy Version should be updated to '2012-10-17'."].
Proof.
  assert (H0 : ~ is_if (VDict sample_document)) by (intros [y E]; discriminate E).
  split; [split|split; [|split; [|split; [|split]]]].
  - intros x q Hx. assert (Hd : document_at all_document_names sample_role (props_path "R") x q).
    { destruct Hx as [k x Hk _|l i o x _ Hl Hi Hx]; [apply policies_types in Hk; [destruct Hk | right; now left]|]. exact (da_policy _ _ _ l i o x Hl Hi Hx). }
    destruct (sample_documents x q Hd) as [[-> ->]| ->].
    + split; [intros r K; apply (alternative_sub _ _ _ _) in K; revert K; apply nulls_sound; reflexivity|]. intros d r d' r' Hs Hb. apply plain_single in Hs as [E ->]; [|exact H0]. injection E as ->.
      destruct (branch_plain _ _ _ _ H0 Hb) as [_ E]. injection E as ->. exact H0.
    + split; [intros r K; inversion K|]. intros d r d' r' Hs. exfalso. inversion Hs as [v0 p0 w0 q0 K _|v0 p0 l0 q0 i0 x0 w0 r0 K _ _]; inversion K.
  - intros _ v [= <-]. now left.
  - left. right. now left.
  - exact (ve_policy role sample_role (props_path "R") _ 0 _ _ ltac:(right; now left) eq_refl eq_refl eq_refl).
  - apply items_safe_spec. now left.
  - reflexivity.
  - eexists. split; [vm_compute; reflexivity | reflexivity].
Qed.

(** A key that does not exist is reported at a place that is not in the template. *)
Lemma key_place_witness : exists pd m, wf (VDict pd) /\ policy_check no_json "AWS::KMS::Key" (VDict pd) (props_path "R") = Ok [m] /\ at_path (rm_path m) (with_resource "AWS::KMS::Key" pd) = None.
Proof. exists [("KeyPolicy", VDict [("Sid", VStr "x")])]. eexists. split; [apply wfb_sound; reflexivity|]. split; [vm_compute; reflexivity | reflexivity]. Qed.
(** A policy that depends on a condition is not looked at, if it is an item of the list of policies. *)
Lemma conditional_policy_witness : exists d pd, policy_check no_json role (VDict pd) (props_path "R") = Ok [] /\ wf (VDict pd) /\
  assoc "Policies" pd = Some (VList [If_of (VList [VStr "c"; VDict [("PolicyDocument", VDict d)]; NoValue])]) /\
  exists place shown words, document_fault no_json true false (VDict d) [] place shown words.
Proof.
  exists [("Rules", VList [])], [("Policies", VList [If_of (VList [VStr "c"; VDict [("PolicyDocument", VDict [("Rules", VList [])])]; NoValue])])].
  split; [vm_compute; reflexivity|]. split; [apply wfb_sound; reflexivity|]. split; [reflexivity|]. do 3 eexists.
  apply (df_key _ _ _ _ _ (VDict [("Rules", VList [])]) [("Rules", VList [])] [] "Rules" (VList [])); [apply doc_value; discriminate | reflexivity | apply items_safe_spec; now left | now left | cbn; intuition discriminate].
Qed.
(** A version given by a parameter is reported. *)
Lemma version_ref_witness : exists d m, wf (VDict d) /\ assoc "Version" d = Some (VDict [("Ref", VStr "Version")]) /\ check_policy_document no_json true false (VDict d) [] = Ok [m] /\
  rm_msg m = "IAM Policy Version needs to be one of (2012-10-17, 2008-10-17).".
Proof. exists [("Version", VDict [("Ref", VStr "Version")])]. eexists. split; [apply wfb_sound; reflexivity|]. split; [reflexivity|]. split; [vm_compute; reflexivity | reflexivity]. Qed.
(** A statement whose choices are not all objects ends the check with an exception. *)
Lemma statement_text_witness : exists d, wf (VDict d) /\ check_policy_document no_json true false (VDict d) [] = Err ETemplateAttribute.
Proof. exists [("Statement", If_of (VList [VStr "c"; VStr "text"; VDict []]))]. split; [apply wfb_sound; reflexivity | vm_compute; reflexivity]. Qed.
(** The policy that says who may use a role is looked at by neither. *)
Lemma trust_policy_witness : exists pd, wf (VDict pd) /\ assoc "AssumeRolePolicyDocument" pd = Some (VDict [("Version", VStr "2008-10-17"); ("Rules", VList [])]) /\
  policy_check no_json role (VDict pd) (props_path "R") = Ok [] /\ version_check role (VDict pd) (props_path "R") = Ok [].
Proof. exists [("AssumeRolePolicyDocument", VDict [("Version", VStr "2008-10-17"); ("Rules", VList [])])]. split; [apply wfb_sound; reflexivity|]. split; [reflexivity|]. split; vm_compute; reflexivity. Qed.
(** The version of a document in a text is not looked at. *)
Lemma text_version_witness : exists json s d, json s = Some (VDict d) /\ assoc "Version" d = Some (VStr "2008-10-17") /\ policy_check json "AWS::KMS::Key" (VDict [("KeyPolicy", VStr s)]) [] = Ok [] /\
  version_check "AWS::KMS::Key" (VDict [("KeyPolicy", VStr s)]) [] = Ok [].
Proof. exists (fun _ => Some (VDict [("Version", VStr "2008-10-17")])), "text", [("Version", VStr "2008-10-17")]. split; [reflexivity|]. split; [reflexivity|]. split; vm_compute; reflexivity. Qed.
(** Policies that are null end the check with an exception. *)
Lemma null_policies_witness : version_check role (VDict [("Policies", VNull)]) [] = Err ETypeErr.
Proof. reflexivity. Qed.
