(** C72: samples and deviations. *)
From Coq Require Import List.
From Verif.Model Require Import Base Locate Helpers Node Search Rules Refs ConditionRules PropertyRules Iam.
From Verif.Spec Require Import Paths Branches References ConditionUse Required Walk Values Iam Permissions.
From Verif.Proofs Require Import BaseFacts WfDecide BranchProofs SizeProofs Samples PropertyWitness ValueWitness PropertyRuleProofs ParameterValueProofs Says Places IamProofs IamWitness PermissionProofs.
Import Verif.Model.Rules.
Import ListNotations.
Local Open Scope string_scope.

Definition sample_services : list (string * list string) := [("s3", ["GetObject"; "PutObject"]); ("S3", ["ListBucket"]); ("Logs", ["PutLogEvents"])].
Definition sample_actions : list (string * val) := [("Effect", VStr "Allow"); ("Action", VList [VStr "s3:Get*"; VStr "S3:listBucket"; VStr "s3:Delete"; VStr "*"; VStr "nope:x"])].
Definition action_document : list (string * val) := [("Statement", VList [VDict sample_actions])].
Definition key_props : list (string * val) := [("KeyPolicy", VDict action_document)].
Definition key_type : string := "AWS::KMS::Key".
Definition key_place : path := (props_path "R" ++ [PKey "KeyPolicy"])%list.
Lemma sample_action_texts x : names_action sample_actions x -> x = VStr "*" \/ exists a service permission, x = VStr a /\ two_parts a service permission.
Proof.
  assert (T : forall a s p, split_colon a = Some (s, p) -> exists a' service permission, VStr a = VStr a' /\ two_parts a' service permission).
  { intros a s p H. exists a, s, p. split; [reflexivity | now apply split_colon_some]. }
  intros [t E|l y E H|t E|l y E _ H]; try discriminate E. injection E as <-. cbn in H. destruct H as [<-|[<-|[<-|[<-|[<-|[]]]]]]; try (right; eapply T; reflexivity). now left.
Qed.
Lemma permission_example : wf (template (cfn_of (with_resource key_type key_props))) /\ permissions_shaped no_json key_props (props_path "R") /\
  document_at permission_document_names key_props (props_path "R") (VDict action_document) key_place /\ single (VDict action_document) key_place (VDict action_document) key_place /\
  permission_fault no_json sample_services (VDict action_document) key_place (key_place ++ [PKey "Statement"; PIdx 0])%list "Invalid service ""nope"" found in permissions" /\
  let k := mkColl [permission_rule no_json (load_service_map sample_services)] (mkSettings true [] ["W"; "E"] [] []) in
  exists raw, snd (coll_run sample_sp k (cfn_of (with_resource key_type key_props))) = Ok raw /\
    map f_msg raw = ["Invalid permission ""Delete"" for ""s3"" found in permissions"; "Invalid service ""nope"" found in permissions"].
Proof.
  assert (H0 : ~ is_if (VDict action_document)) by (intros [y E]; discriminate E).
  split; [apply wfb_sound; reflexivity|]. split; [|split; [|split; [|split]]].
  - intros x q Hx. assert (x = VDict action_document /\ q = key_place) as [-> ->].
    { destruct Hx as [k y Hk E|l i o y E]; [|discriminate E]. cbn in Hk. destruct Hk as [<-|[<-|[<-|[<-|[]]]]]; try discriminate E. injection E as <-. auto. }
    split; [intros r K; apply (alternative_sub _ _ _ _) in K; revert K; apply nulls_sound; reflexivity|].
    intros w r Hw _. apply plain_single in Hw as [-> ->]; [|exact H0]. intros v d q x Hd _ Hb Hx'. inversion Hd; subst. destruct (branch_plain _ _ _ _ H0 Hb) as [-> E]. injection E as ->. injection Hx' as <-. split.
    + intros i s Hs. destruct Hs as [l i s El Hi|l i inner s El Hi _|s El]; [|injection El as <-; destruct i as [|[|i]]; discriminate Hi|discriminate El]. injection El as <-. destruct i as [|[|i]]; try discriminate Hi. injection Hi as <-. split; [exact sample_action_texts | discriminate].
    + intros l i inner y [= <-] Hi. destruct i as [|[|i]]; discriminate Hi.
  - apply (da_property permission_document_names key_props (props_path "R") "KeyPolicy"); [right; now left | reflexivity].
  - apply sg_value; [apply alt_leaf; [exact H0 | discriminate] | reflexivity].
  - apply (pf_action no_json sample_services _ _ (VDict action_document) action_document key_place (VList [VDict sample_actions]) 0 sample_actions "nope:x"); try reflexivity.
    + apply doc_value. discriminate.
    + apply items_safe_spec. now left.
    + eapply sn_item; reflexivity.
    + eapply nm_item; [reflexivity|]. cbn. auto 6.
    + apply (af_service _ _ "nope" "x"); [discriminate | split; [reflexivity | apply without_iff; reflexivity]|]. intros [s [l [[E|[E|[E|[]]]] H]]]; injection E as <- <-; vm_compute in H; discriminate H.
  - eexists. split; [vm_compute; reflexivity | reflexivity].
Qed.
Definition role_template : val :=
  VDict [("Resources", VDict [("R", VDict [("Type", VStr "AWS::CodeBuild::Project"); ("Properties", VDict [("ServiceRole", VDict [("Ref", VStr "Role")])])]);
                              ("Role", VDict [("Type", VStr "AWS::IAM::Role"); ("Properties", VDict [("Path", VStr "/service/")])])])].
Lemma role_example : wf role_template /\ role_refs_shaped role_template [("ServiceRole", VDict [("Ref", VStr "Role")])] (props_path "R") /\ pathed role_template "Role" (VStr "/service/") /\
  resource_of (template (cfn_of role_template)) "R" "AWS::CodeBuild::Project" [("Type", VStr "AWS::CodeBuild::Project"); ("Properties", VDict [("ServiceRole", VDict [("Ref", VStr "Role")])])] /\
  let k := mkColl [path_rule (fun _ => "")] default_settings in
  exists raw, snd (coll_run sample_sp k (cfn_of role_template)) = Ok raw /\
    map f_msg raw = ["When using a Ref to IAM resource the Path must be '/'.  Switch to GetAtt if the Path has to be '/service/'."].
Proof.
  assert (H0 : ~ is_if (VDict [("Ref", VStr "Role")])) by (intros [y E]; discriminate E).
  split; [apply wfb_sound; reflexivity|]. split; [|split; [|split]].
  - intros x [= <-]. split; [intros r K; apply (alternative_sub _ _ _ _) in K; revert K; apply nulls_sound; reflexivity|].
    intros v r Hs. apply plain_single in Hs as [E _]; [|exact H0]. injection E as ->. split; [reflexivity|]. split; [reflexivity|].
    intros n o y [= <-] [d [s [Ed [Es En]]]] Hy. injection Ed as <-. injection Es as <-. injection En as <-. injection Hy as <-. reflexivity.
  - do 3 eexists. split; [do 2 eexists; split; [reflexivity|]; split; reflexivity|]. split; [reflexivity|]. split; [discriminate|]. split; [reflexivity|]. split; [reflexivity|]. split; [reflexivity | discriminate].
  - do 2 eexists. split; [reflexivity|]. split; [reflexivity|]. split; [now left | reflexivity].
  - eexists. split; [vm_compute; reflexivity | reflexivity].
Qed.

Definition judge_actions (s : list (string * val)) : res (list rulematch) :=
  permission_check no_json (load_service_map sample_services) (VDict [("KeyPolicy", VDict [("Statement", VList [VDict s])])]) (props_path "R").
(** The actions of a single statement are reported at a place that is not in the template. *)
Lemma single_statement_witness : exists pd m, wf (VDict pd) /\ permission_check no_json (load_service_map sample_services) (VDict pd) (props_path "R") = Ok [m] /\ at_path (rm_path m) (with_resource key_type pd) = None.
Proof. exists [("KeyPolicy", VDict [("Statement", VDict [("Action", VStr "nope:x")])])]. eexists. split; [apply wfb_sound; reflexivity|]. split; [vm_compute; reflexivity | reflexivity]. Qed.
(** A list of excepted actions is looked at only beside a list of actions. *)
Lemma excepted_witness : exists s l, wf (VDict s) /\ assoc "NotAction" s = Some (VList l) /\ In (VStr "nope:x") l /\ judge_actions s = Ok [].
Proof. exists [("NotAction", VList [VStr "nope:x"])]. eexists. split; [apply wfb_sound; reflexivity|]. split; [reflexivity|]. split; [now left | vm_compute; reflexivity]. Qed.
(** An action without a colon ends the check with an exception; one given by a reference does too. *)
Lemma no_colon_witness : exists s, wf (VDict s) /\ assoc "Action" s = Some (VStr "s3") /\ judge_actions s = Err EValue.
Proof. exists [("Action", VStr "s3")]. split; [apply wfb_sound; reflexivity|]. split; [reflexivity | vm_compute; reflexivity]. Qed.
Lemma action_ref_witness : exists s, wf (VDict s) /\ assoc "Action" s = Some (VList [VStr "nope:x"; VDict [("Ref", VStr "P")]]) /\ judge_actions s = Err ETemplateAttribute.
Proof. exists [("Action", VList [VStr "nope:x"; VDict [("Ref", VStr "P")]])]. split; [apply wfb_sound; reflexivity|]. split; [reflexivity | vm_compute; reflexivity]. Qed.
(** A permission with a star at its end is accepted if some action contains it, though none begins with it. *)
Lemma star_inside_witness : (forall s l a, In (s, l) sample_services -> In a l -> ~ exists rest, lower a = "object" ++ rest) /\ judge_actions [("Action", VStr "s3:Object*")] = Ok [].
Proof.
  split; [|vm_compute; reflexivity]. intros s l a [E|[E|[E|[]]]] Ha [rest H]; injection E as <- <-; cbn in Ha; decompose [or] Ha; try contradiction; subst a; cbn in H; discriminate H.
Qed.
(** One with a star in the middle is reported, though it stands for actions that exist. *)
Lemma star_middle_witness : exists m, has_action sample_services "s3" "getobject" /\ "getobject" = "get" ++ "o" ++ "bject" /\ judge_actions [("Action", VStr "s3:Get*bject")] = Ok [m] /\
  rm_msg m = "Invalid permission ""Get*bject"" for ""s3"" found in permissions".
Proof.
  eexists. split; [exists "s3", ["GetObject"; "PutObject"], "GetObject"; split; [now left|]; split; [reflexivity|]; split; [now left | reflexivity]|]. split; [reflexivity|]. split; [vm_compute; reflexivity | reflexivity].
Qed.
(** A statement below a condition is not looked at. *)
Lemma conditional_statement_witness : exists s, action_fault sample_services "nope:x" "Invalid service ""nope"" found in permissions" /\
  permission_check no_json (load_service_map sample_services) (VDict [("KeyPolicy", VDict [("Statement", VList [If_of (VList [VStr "c"; VDict s; NoValue])])])]) (props_path "R") = Ok [] /\ names_action s (VStr "nope:x").
Proof.
  exists [("Action", VStr "nope:x")]. split; [|split; [vm_compute; reflexivity | now apply nm_text]].
  apply (af_service _ _ "nope" "x"); [discriminate | split; [reflexivity | apply without_iff; reflexivity]|]. intros [s [l [[E|[E|[E|[]]]] H]]]; injection E as <- <-; vm_compute in H; discriminate H.
Qed.
(** A Ref of a service role to any resource with a path is reported, even if the path is given by a parameter. *)
Lemma any_path_witness : exists t m, wf t /\ path_check (fun _ => "{'Ref': 'P'}") t (VDict [("ServiceRole", VDict [("Ref", VStr "Other")])]) (props_path "R") = Ok [m] /\
  rm_msg m = "When using a Ref to IAM resource the Path must be '/'.  Switch to GetAtt if the Path has to be '{'Ref': 'P'}'.".
Proof.
  exists (VDict [("Resources", VDict [("Other", VDict [("Type", VStr "AWS::X::Other"); ("Properties", VDict [("Path", VDict [("Ref", VStr "P")])])])])]). eexists.
  split; [apply wfb_sound; reflexivity|]. split; [vm_compute; reflexivity | reflexivity].
Qed.
