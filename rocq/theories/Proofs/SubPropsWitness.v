(** C75: samples and deviations. *)
From Coq Require Import List ZArith QArith Lia.
From Verif.Model Require Import Base Locate Helpers Node Search Rules PropertyRules SubProps.
From Verif.Spec Require Import Paths Branches References Required Walk Values Permissions SubProps.
From Verif.Proofs Require Import BaseFacts WfDecide BranchProofs Samples PropertyWitness ValueWitness PropertyRuleProofs PermissionProofs Says IamWitness SubPropsProofs DeviceProofs AliasProofs.
Import Verif.Model.Rules.
Import ListNotations.
Local Open Scope string_scope.

Definition instance : string := "AWS::EC2::Instance".
Definition launch : string := "AWS::AutoScaling::LaunchConfiguration".
Definition distribution : string := "AWS::CloudFront::Distribution".
Definition task : string := "AWS::ECS::TaskDefinition".
Definition place_of (key : string) : path := [PKey "Resources"; PKey "R"; PKey "Properties"; PKey key].
(** The one resource of a template. *)
Lemma only_resource rt pd n rt' attrs : resource_of (with_resource rt pd) n rt' attrs -> n = "R" /\ rt' = rt /\ attrs = [("Type", VStr rt); ("Properties", VDict pd)].
Proof. intros [top [rs [E1 [E2 [E3 E4]]]]]. injection E1 as <-. injection E2 as <-. destruct E3 as [E3|[]]. injection E3 as <- <-. injection E4 as <-. auto. Qed.
Lemma the_resource rt pd : resource_of (with_resource rt pd) "R" rt [("Type", VStr rt); ("Properties", VDict pd)].
Proof. do 2 eexists. split; [reflexivity|]. split; [reflexivity|]. split; [now left | reflexivity]. Qed.
Lemma only_unlisted rt pd rt' : unlisted (with_resource rt pd) rt'.
Proof. intros n attrs l H. apply only_resource in H as [_ [_ ->]]. discriminate. Qed.
Lemma only_property rt pd rt' key x q : property_at (with_resource rt pd) rt' key x q <-> rt' = rt /\ assoc key pd = Some x /\ q = place_of key.
Proof.
  split.
  - intros [n [attrs [pd' [Hr [Hp [Hk ->]]]]]]. apply only_resource in Hr as [-> [-> ->]]. injection Hp as <-. auto.
  - intros [-> [Hk ->]]. exists "R". do 2 eexists. split; [apply the_resource|]. split; [reflexivity|]. auto.
Qed.

(** * Following names *)
Definition nested_list : list val := [VDict [("B", VStr "x"); ("C", VStr "y")]; If_of (VList [VStr "Prod"; VDict [("B", VStr "z")]; VDict [("Ref", VStr "AWS::NoValue")]])].
Definition nested_props : list (string * val) := [("A", VList nested_list)].
Lemma reached_example : wf (with_resource instance nested_props) /\ roomy (VDict nested_props) /\
  reached ["A"; "B"] (VDict nested_props) (props_path "R") (VStr "x") (props_path "R" ++ [PKey "A"; PIdx 0; PKey "B"])%list /\
  reached ["A"; "B"] (VDict nested_props) (props_path "R") (VStr "z") (props_path "R" ++ [PKey "A"; PIdx 1; PKey "Fn::If"; PIdx 1; PKey "B"])%list /\
  get_resource_properties instance ["A"; "B"] (with_resource instance nested_props) =
    Ok [((props_path "R" ++ [PKey "A"; PIdx 0; PKey "B"])%list, VStr "x"); ((props_path "R" ++ [PKey "A"; PIdx 1; PKey "Fn::If"; PIdx 1; PKey "B"])%list, VStr "z")].
Proof.
  split; [apply wfb_sound; reflexivity|]. split; [|split; [|split; [|reflexivity]]].
  - assert (P : forall y, part_of (VDict nested_props) y -> y = VDict nested_props \/ y = VList nested_list \/ y = VDict [("B", VStr "x"); ("C", VStr "y")] \/ y = VDict [("B", VStr "z")] \/ exists s, y = VStr s).
    { induction 1 as [|l x _ IH Hx Hf|l x p y r _ IH Hx Hf Ha|d k x _ IH Hx Hf]; [now left| | |].
      - destruct IH as [E|[E|[E|[E|[s E]]]]]; try discriminate E. injection E as ->. destruct Hx as [<-|[<-|[]]]; [auto | elim Hf; eexists; reflexivity].
      - destruct IH as [E|[E|[E|[E|[s E]]]]]; try discriminate E. injection E as ->. destruct Hx as [<-|[<-|[]]]; [destruct Hf as [z E]; discriminate E|].
        inversion Ha as [c a b p' w q K|c a b p' w q K|v p' Hi Hn]; subst.
        + inversion K; subst. auto.
        + inversion K as [| |v p' Hi Hn]; subst. now elim Hn.
        + elim Hf. contradiction.
      - destruct IH as [E|[E|[E|[E|[s E]]]]]; try discriminate E; injection E as ->.
        + destruct Hx as [Hx|[]]. injection Hx as <- <-. auto.
        + destruct Hx as [Hx|[Hx|[]]]; injection Hx as <- <-; do 4 right; eauto.
        + destruct Hx as [Hx|[]]. injection Hx as <- <-. do 4 right. eauto. }
    intros l k x Hl Hi. destruct (P _ Hl) as [E|[E|[E|[E|[s E]]]]]; try discriminate E. injection E as ->. destruct Hi as [E|[E|[]]]; [discriminate E|]. injection E as <- _. now left.
  - eapply re_member; [reflexivity|]. eapply re_item with (i := 0); [reflexivity | intros [y E]; discriminate E|]. eapply re_member; [reflexivity|]. constructor.
  - eapply re_member; [reflexivity|]. eapply re_branch with (i := 1); [reflexivity | eexists; reflexivity | eapply alt_then; apply alt_leaf; [intros [y E]; discriminate E | discriminate]|]. eapply re_member; [reflexivity|]. constructor.
Qed.

(** An item with one member is not looked at but passed through: what is below it is taken for the item, at a place that does not exist. *)
Lemma one_member_witness : exists pd w q, reached ["A"; "B"] (VDict pd) (props_path "R") w q /\ get_resource_properties instance ["A"; "B"] (with_resource instance pd) = Ok [].
Proof.
  exists [("A", VList [VDict [("B", VStr "x")]])]. do 2 eexists. split; [|reflexivity]. eapply re_member; [reflexivity|]. eapply re_item with (i := 0); [reflexivity | intros [y E]; discriminate E|].
  eapply re_member; [reflexivity|]. constructor.
Qed.
Lemma through_member_witness : exists pd w q, get_resource_properties instance ["A"; "B"] (with_resource instance pd) = Ok [(q, w)] /\ at_path q (with_resource instance pd) = None /\
  ~ exists w' q', reached ["A"; "B"] (VDict pd) (props_path "R") w' q'.
Proof.
  exists [("A", VList [VDict [("C", VDict [("B", VStr "x")])]])]. do 2 eexists. split; [reflexivity|]. split; [reflexivity|]. intros [w [q H]].
  inversion H as [|k ks d p x w' q' Hx H1| |]; subst. injection Hx as <-. inversion H1 as [| |k ks l p i d w' q' Hi Hf H2|k ks l p i x y r w' q' Hi Hf Ha H2]; subst; (destruct i as [|[|i]]; [injection Hi as <-|discriminate Hi|discriminate Hi]).
  - inversion H2 as [|k ks d p x w' q' Hx H3| |]; subst. discriminate Hx.
  - destruct Hf as [z E]. discriminate E.
Qed.
(** Properties under a condition are not found. *)
Lemma conditional_props_witness : exists c a, get_resource_properties instance ["BlockDeviceMappings"]
  (VDict [("Resources", VDict [("R", VDict [("Type", VStr instance); ("Properties", If_of (VList [VStr c; VDict [("BlockDeviceMappings", a)]; VDict []]))])])]) = Ok [].
Proof. exists "Prod", (VList []). reflexivity. Qed.

(** * Block devices *)
Definition sample_device (name kind iops : val) : val := VDict [("DeviceName", VStr "/dev/sda1"); ("VirtualName", name); ("Ebs", VDict [("VolumeType", kind); ("Iops", iops)])].
Definition sample_devices : list val := [sample_device (VStr "ephemeral24") VNull VNull; sample_device VNull (VStr "io1") VNull; sample_device VNull (VStr "gp2") (VInt 100); sample_device (VStr "ephemeral23") VNull VNull].
Definition device_props : list (string * val) := [("BlockDeviceMappings", VList sample_devices)].
Lemma device_example : let t := with_resource instance device_props in
  wf (template (cfn_of t)) /\ (forall rt, In rt device_types -> unlisted (template (cfn_of t)) rt) /\ devices_shaped (template (cfn_of t)) /\
  property_at (template (cfn_of t)) instance "BlockDeviceMappings" (VList sample_devices) (place_of "BlockDeviceMappings") /\
  device_fault [("DeviceName", VStr "/dev/sda1"); ("VirtualName", VStr "ephemeral24"); ("Ebs", VDict [("VolumeType", VNull); ("Iops", VNull)])] (place_of "BlockDeviceMappings" ++ [PIdx 0])%list
    ((place_of "BlockDeviceMappings" ++ [PIdx 0]) ++ [PKey "VirtualName"])%list "Property VirtualName should be of type ephemeral(n) for " /\
  ebs_match t = Ok [
    mkRM (place_of "BlockDeviceMappings" ++ [PIdx 0; PKey "VirtualName"])%list "Property VirtualName should be of type ephemeral(n) for Resources/R/Properties/BlockDeviceMappings/0/VirtualName";
    mkRM (place_of "BlockDeviceMappings" ++ [PIdx 1; PKey "Ebs"; PKey "VolumeType"])%list "VolumeType io1 requires Iops to be specified for Resources/R/Properties/BlockDeviceMappings/1/Ebs/VolumeType";
    mkRM (place_of "BlockDeviceMappings" ++ [PIdx 2; PKey "Ebs"; PKey "Iops"])%list "Iops shouldn't be defined for type gp2 for Resources/R/Properties/BlockDeviceMappings/2/Ebs/Iops"] /\
  let k := mkColl [ebs_rule] default_settings in exists raw, snd (coll_run sample_sp k (cfn_of t)) = Ok raw /\ List.length raw = 3.
Proof.
  cbv zeta. assert (Et : template (cfn_of (with_resource instance device_props)) = with_resource instance device_props) by reflexivity. rewrite Et.
  split; [apply wfb_sound; reflexivity|]. split; [intros rt _; apply only_unlisted|]. split; [|split; [|split; [|split]]].
  - intros rt l q _ H. apply only_property in H as [_ [H _]]. injection H as <-. intros x Hx.
    assert (N : forall e key y r, In e [[("VolumeType", VNull); ("Iops", VNull)]; [("VolumeType", VStr "io1"); ("Iops", VNull)]; [("VolumeType", VStr "gp2"); ("Iops", VInt 100)]] -> assoc key e = Some y -> y = VNull \/ ~ alternative y [] VNull r).
    { intros e key y r He Ha. apply assoc_In in Ha. cbn in He. decompose [or] He; try contradiction; subst e; cbn in Ha; decompose [or] Ha; try contradiction;
        match goal with K : (_, _) = (key, y) |- _ => injection K as <- <- end; (left; reflexivity) || (right; intros K; inversion K). }
    cbn in Hx. decompose [or] Hx; try contradiction; subst x; eexists; (split; [reflexivity|]); (split; [|intros e key y r E _ Ha; injection E as <-; revert Ha; apply N; cbn; tauto]);
      (right; eexists; reflexivity) || (left; right; reflexivity).
  - apply only_property. auto.
  - apply (df_name _ _ "ephemeral24"); [reflexivity | discriminate|]. intros H. apply ephemeral_iff in H. discriminate H.
  - vm_compute. reflexivity.
  - eexists. split; [vm_compute; reflexivity | reflexivity].
Qed.
(** A name given by a reference ends the check with an exception. *)
Lemma virtual_ref_witness : ebs_match (with_resource instance [("BlockDeviceMappings", VList [VDict [("DeviceName", VStr "a"); ("VirtualName", VDict [("Ref", VStr "Name")])]])]) = Err ETypeErr.
Proof. reflexivity. Qed.
(** Conditional devices and conditional lists of devices are not looked at. *)
Lemma conditional_device_witness : let bad := VDict [("DeviceName", VStr "a"); ("VirtualName", VStr "b")] in
  ebs_match (with_resource instance [("BlockDeviceMappings", VList [If_of (VList [VStr "Prod"; bad; bad])])]) = Ok [] /\
  ebs_match (with_resource instance [("BlockDeviceMappings", If_of (VList [VStr "Prod"; VList [bad]; VList [bad]]))]) = Ok [].
Proof. split; reflexivity. Qed.
(** The rate of a volume of type io2 is reported. *)
Lemma io2_witness : exists m, ebs_match (with_resource instance [("BlockDeviceMappings", VList [sample_device VNull (VStr "io2") (VInt 100)])]) = Ok [m].
Proof. eexists. vm_compute. reflexivity. Qed.
(** A rate in one branch of a condition is taken for a rate in both. *)
Lemma iops_branch_witness : ebs_match (with_resource instance [("BlockDeviceMappings", VList [sample_device VNull (VStr "io1") (If_of (VList [VStr "Prod"; VInt 100; VDict [("Ref", VStr "AWS::NoValue")]]))])]) = Ok [].
Proof. vm_compute. reflexivity. Qed.

(** * Aliases *)
Definition no_format (m : string) : res string := Err EKey.
Definition config_of (l : list val) : list (string * val) := [("DistributionConfig", VDict [("Aliases", VList l)])].
Definition sample_aliases : list val := [VStr "www.example.com"; VStr "*.example.com"; VStr "a.*.example.com"; VStr "Example.com"; VDict [("Ref", VStr "Alias")]].
Lemma alias_example : let t := with_resource distribution (config_of sample_aliases) in
  wf (template (cfn_of t)) /\ unlisted (template (cfn_of t)) distribution /\ aliases_shaped (template (cfn_of t)) /\
  property_at (template (cfn_of t)) distribution "DistributionConfig" (VDict [("Aliases", VList sample_aliases)]) (place_of "DistributionConfig") /\
  domain_name "www.example.com" /\ domain_name "*.example.com" /\ alias_fault "a.*.example.com" "Invalid use of wildcards: a.*.example.com" /\ alias_fault "Example.com" "Invalid alias found: Example.com" /\
  let k := mkColl [aliases_rule no_format] default_settings in exists raw, snd (coll_run sample_sp k (cfn_of t)) = Ok raw /\
    map f_msg raw = ["Invalid use of wildcards: a.*.example.com"; "Invalid alias found: Example.com"].
Proof.
  cbv zeta. assert (Et : template (cfn_of (with_resource distribution (config_of sample_aliases))) = with_resource distribution (config_of sample_aliases)) by reflexivity. rewrite Et.
  split; [apply wfb_sound; reflexivity|]. split; [apply only_unlisted|]. split; [|split; [|split; [|split; [|split; [|split]]]]].
  - intros x q H. apply only_property in H as [_ [H _]]. injection H as <-. eexists. split; [reflexivity|]. intros a [= <-]. right; right. eexists. split; [reflexivity|].
    intros s Hs. cbn in Hs. decompose [or] Hs; try contradiction; match goal with K : _ = VStr s |- _ => first [discriminate K | injection K as <-] end;
      (split; [intros K; apply smem_iff in K; discriminate K | split; apply without_iff; reflexivity]).
  - apply only_property. auto.
  - apply domain_iff. reflexivity.
  - apply domain_iff. reflexivity.
  - exact (af_star "a.*.example.com" (or_intror (ex_intro _ "a" (ex_intro _ "example.com" eq_refl)))).
  - apply (af_name "Example.com"). intros H. apply domain_iff in H. discriminate H.
  - eexists. split; [vm_compute; reflexivity | reflexivity].
Qed.
(** A bad alias with braces goes through a second formatting, and its failure ends the check. *)
Lemma alias_braces_witness : forall reformat, reformat "Invalid alias found: ${Domain}" = Err EKey -> aliases_match reformat (with_resource distribution (config_of [VStr "${Domain}"])) = Err EKey.
Proof. intros reformat H. cbn. unfold format_again. cbn. now rewrite H. Qed.
(** The letters of an alias that is no list are taken for aliases; a configuration that is null or conditional is not checked properly. *)
Lemma alias_text_witness : exists ms, aliases_match no_format (with_resource distribution [("DistributionConfig", VDict [("Aliases", VStr "a.b")])]) = Ok ms /\
  map rm_msg ms = ["Invalid alias found: a"; "Invalid alias found: ."; "Invalid alias found: b"].
Proof. eexists. split; reflexivity. Qed.
Lemma config_null_witness : aliases_match no_format (with_resource distribution [("DistributionConfig", VNull)]) = Err EAttribute.
Proof. reflexivity. Qed.
Lemma config_condition_witness : let bad := VDict [("Aliases", VList [VStr "BAD"])] in
  aliases_match no_format (with_resource distribution [("DistributionConfig", If_of (VList [VStr "Prod"; bad; bad]))]) = Ok [] /\
  aliases_match no_format (with_resource distribution [("DistributionConfig", VDict [("Aliases", If_of (VList [VStr "Prod"; VList [VStr "BAD"]; VList [VStr "BAD"]]))])]) = Ok [].
Proof. split; reflexivity. Qed.

(** * Containers *)
Definition sample_containers : list val := [VDict [("Name", VStr "a"); ("Essential", VBool false)]; VDict [("Name", VStr "b"); ("Essential", VBool false)]].
Lemma container_example : let t := with_resource task [("ContainerDefinitions", VList sample_containers)] in
  wf (template (cfn_of t)) /\ unlisted (template (cfn_of t)) task /\ containers_shaped (template (cfn_of t)) /\
  property_at (template (cfn_of t)) task "ContainerDefinitions" (VList sample_containers) (place_of "ContainerDefinitions") /\ none_essential sample_containers /\
  let k := mkColl [containers_rule] default_settings in exists raw, snd (coll_run sample_sp k (cfn_of t)) = Ok raw /\
    map f_msg raw = ["No essential containers defined for Resources/R/Properties/ContainerDefinitions"].
Proof.
  cbv zeta. assert (Et : template (cfn_of (with_resource task [("ContainerDefinitions", VList sample_containers)])) = with_resource task [("ContainerDefinitions", VList sample_containers)]) by reflexivity. rewrite Et.
  split; [apply wfb_sound; reflexivity|]. split; [apply only_unlisted|]. split; [|split; [|split]].
  - intros x q H. apply only_property in H as [_ [H _]]. injection H as <-. right. eexists. split; [reflexivity|].
    intros y [<-|[<-|[]]]; eexists; (split; [reflexivity|]; intros e [= <-]; right; eauto).
  - apply only_property. auto.
  - intros y d [<-|[<-|[]]] [= <-]; reflexivity.
  - eexists. split; [vm_compute; reflexivity | reflexivity].
Qed.
(** The text "false" is taken for true, and so is a conditional container all of whose branches are not essential. *)
Lemma essential_text_witness : containers_match (with_resource task [("ContainerDefinitions", VList [VDict [("Essential", VStr "false")]])]) = Ok [].
Proof. reflexivity. Qed.
Lemma essential_condition_witness : let bad := VDict [("Essential", VBool false)] in
  containers_match (with_resource task [("ContainerDefinitions", VList [If_of (VList [VStr "Prod"; bad; bad])])]) = Ok [] /\
  containers_match (with_resource task [("ContainerDefinitions", If_of (VList [VStr "Prod"; VList [bad]; VList [bad]]))]) = Ok [].
Proof. split; reflexivity. Qed.
(** Containers that are null end the check with an exception. *)
Lemma containers_null_witness : containers_match (with_resource task [("ContainerDefinitions", VNull)]) = Err ETypeErr.
Proof. reflexivity. Qed.
