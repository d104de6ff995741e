(** C72 Policies name actions that exist; references to roles lead to roles without a path. *)
From Coq Require Import List.
Import ListNotations.
From Verif.Model Require Import Base Helpers Locate Node Rules Refs PropertyRules Iam.
From Verif.Spec Require Import Paths Branches Required References Walk Values Iam Permissions.
From Verif.Proofs Require Import Samples PropertyWitness PropertyRuleProofs IamProofs IamWitness PermissionProofs PermissionWitness.
Import Verif.Model.Rules.
Local Open Scope string_scope.

(** W3037 reports exactly the actions in the policy documents of a resource that name no service of the list of services, or no permission of that service, in any case of letters.  Missing for the full property: actions that are no texts or have no colon, statements below conditions, and the refutations below. *)
Theorem permissions_judged_partial : forall json services props p,
  NoDup (keys props) -> permissions_shaped json props p ->
  exists ms, permission_check json (load_service_map services) (VDict props) p = Ok ms /\ forall m, In m ms <->
    exists x q w r shown words, document_at permission_document_names props p x q /\ single x q w r /\ ~ is_call w /\ permission_fault json services w r shown words /\ m = mkRM shown words.
Proof. exact c72_permissions. Qed.
Print Assumptions permissions_judged_partial.

(** In a run, each of them leads to a finding of W3037. *)
Theorem permission_findings : forall json services sp k c raw name rt attrs pd m0 d0 x q w r shown words,
  snd (coll_run sp k c) = Ok raw -> In (permission_rule json (load_service_map services)) (k_all k) -> enabled (k_set k) (permission_rule json (load_service_map services)) = true ->
  wf (template c) -> c_tmpl c = MDict m0 d0 -> resource_of (template c) name rt attrs -> assoc "Properties" attrs = Some (VDict pd) -> In rt permission_rule_types ->
  permissions_shaped json pd (props_path name) ->
  document_at permission_document_names pd (props_path name) x q -> single x q w r -> ~ is_call w -> permission_fault json services w r shown words ->
  exists f, locate_match c "W3037" (mkRM shown words) = Ok f /\ In f raw.
Proof. exact c72_permissions_run. Qed.
Print Assumptions permission_findings.

(** E3050 reports exactly the references of a service role to resources with a path other than the root. *)
Theorem role_references_judged : forall str_other t props p,
  wf t -> is_dict t = true -> role_refs_shaped t props p ->
  exists ms, path_check str_other t (VDict props) p = Ok ms /\ forall m, In m ms <->
    exists x n r y, assoc "ServiceRole" props = Some x /\ single x (p ++ [PKey "ServiceRole"])%list (VDict [("Ref", VStr n)]) r /\ pathed t n y /\ m = mkRM (r ++ [PKey "Ref"])%list (path_words str_other y).
Proof. exact c72_roles. Qed.
Print Assumptions role_references_judged.

(** In a run, each of them leads to a finding of E3050. *)
Theorem role_reference_findings : forall str_other sp k c raw name attrs pd m0 d0 x n r y,
  snd (coll_run sp k c) = Ok raw -> In (path_rule str_other) (k_all k) -> enabled (k_set k) (path_rule str_other) = true ->
  wf (template c) -> c_tmpl c = MDict m0 d0 -> resource_of (template c) name "AWS::CodeBuild::Project" attrs -> assoc "Properties" attrs = Some (VDict pd) ->
  role_refs_shaped (template c) pd (props_path name) -> assoc "ServiceRole" pd = Some x -> single x (props_path name ++ [PKey "ServiceRole"])%list (VDict [("Ref", VStr n)]) r -> pathed (template c) n y ->
  exists f, locate_match c "E3050" (mkRM (r ++ [PKey "Ref"])%list (path_words str_other y)) = Ok f /\ In f raw.
Proof. exact c72_roles_run. Qed.
Print Assumptions role_reference_findings.

(** The actions of a single statement are reported at a place that is not in the template. *)
Theorem single_statement_place_refuted : exists pd m, wf (VDict pd) /\ permission_check no_json (load_service_map sample_services) (VDict pd) (props_path "R") = Ok [m] /\ at_path (rm_path m) (with_resource key_type pd) = None.
Proof. exact single_statement_witness. Qed.
Print Assumptions single_statement_place_refuted.

(** A list of excepted actions is looked at only beside a list of actions. *)
Theorem excepted_actions_refuted : exists s l, wf (VDict s) /\ assoc "NotAction" s = Some (VList l) /\ In (VStr "nope:x") l /\ judge_actions s = Ok [].
Proof. exact excepted_witness. Qed.
Print Assumptions excepted_actions_refuted.

(** An action without a colon ends the check with an exception. *)
Theorem action_without_colon_refuted : exists s, wf (VDict s) /\ assoc "Action" s = Some (VStr "s3") /\ judge_actions s = Err EValue.
Proof. exact no_colon_witness. Qed.
Print Assumptions action_without_colon_refuted.

(** So does one given by a reference, and wrong actions beside it are not reported. *)
Theorem action_by_reference_refuted : exists s, wf (VDict s) /\ assoc "Action" s = Some (VList [VStr "nope:x"; VDict [("Ref", VStr "P")]]) /\ judge_actions s = Err ETemplateAttribute.
Proof. exact action_ref_witness. Qed.
Print Assumptions action_by_reference_refuted.

(** A permission with a star at its end is accepted if some action contains it, though none begins with it. *)
Theorem star_at_the_end_refuted : (forall s l a, In (s, l) sample_services -> In a l -> ~ exists rest, lower a = "object" ++ rest) /\ judge_actions [("Action", VStr "s3:Object*")] = Ok [].
Proof. exact star_inside_witness. Qed.
Print Assumptions star_at_the_end_refuted.

(** One with a star in the middle is reported, though it stands for actions that exist. *)
Theorem star_in_the_middle_refuted : exists m, has_action sample_services "s3" "getobject" /\ "getobject" = "get" ++ "o" ++ "bject" /\ judge_actions [("Action", VStr "s3:Get*bject")] = Ok [m] /\
  rm_msg m = "Invalid permission ""Get*bject"" for ""s3"" found in permissions".
Proof. exact star_middle_witness. Qed.
Print Assumptions star_in_the_middle_refuted.

(** A statement below a condition is not looked at. *)
Theorem conditional_statement_refuted : exists s, action_fault sample_services "nope:x" "Invalid service ""nope"" found in permissions" /\
  permission_check no_json (load_service_map sample_services) (VDict [("KeyPolicy", VDict [("Statement", VList [If_of (VList [VStr "c"; VDict s; NoValue])])])]) (props_path "R") = Ok [] /\ names_action s (VStr "nope:x").
Proof. exact conditional_statement_witness. Qed.
Print Assumptions conditional_statement_refuted.

(** A Ref of a service role to any resource with a path is reported, even if the path is given by a parameter and may be the root. *)
Theorem path_of_any_resource_refuted : exists t m, wf t /\ path_check (fun _ => "{'Ref': 'P'}") t (VDict [("ServiceRole", VDict [("Ref", VStr "Other")])]) (props_path "R") = Ok [m] /\
  rm_msg m = "When using a Ref to IAM resource the Path must be '/'.  Switch to GetAtt if the Path has to be '{'Ref': 'P'}'.".
Proof. exact any_path_witness. Qed.
Print Assumptions path_of_any_resource_refuted.

Example permission_example_ : wf (template (cfn_of (with_resource key_type key_props))) /\ permissions_shaped no_json key_props (props_path "R") /\
  document_at permission_document_names key_props (props_path "R") (VDict action_document) key_place /\ single (VDict action_document) key_place (VDict action_document) key_place /\
  permission_fault no_json sample_services (VDict action_document) key_place (key_place ++ [PKey "Statement"; PIdx 0])%list "Invalid service ""nope"" found in permissions" /\
  let k := mkColl [permission_rule no_json (load_service_map sample_services)] (mkSettings true [] ["W"; "E"] [] []) in
  exists raw, snd (coll_run sample_sp k (cfn_of (with_resource key_type key_props))) = Ok raw /\
    map f_msg raw = ["Invalid permission ""Delete"" for ""s3"" found in permissions"; "Invalid service ""nope"" found in permissions"].
Proof. exact permission_example. Qed.

Example role_example_ : wf role_template /\ role_refs_shaped role_template [("ServiceRole", VDict [("Ref", VStr "Role")])] (props_path "R") /\ pathed role_template "Role" (VStr "/service/") /\
  resource_of (template (cfn_of role_template)) "R" "AWS::CodeBuild::Project" [("Type", VStr "AWS::CodeBuild::Project"); ("Properties", VDict [("ServiceRole", VDict [("Ref", VStr "Role")])])] /\
  let k := mkColl [path_rule (fun _ => "")] default_settings in
  exists raw, snd (coll_run sample_sp k (cfn_of role_template)) = Ok raw /\
    map f_msg raw = ["When using a Ref to IAM resource the Path must be '/'.  Switch to GetAtt if the Path has to be '/service/'."].
Proof. exact role_example. Qed.
