(** C75 Properties are found by name, and the devices, aliases and containers found that way are judged. *)
From Coq Require Import List.
Import ListNotations.
From Verif.Model Require Import Base Helpers Locate Node Search Rules Relationship PropertyRules SubProps.
From Verif.Spec Require Import Paths Branches References Walk Values Permissions SubProps.
From Verif.Proofs Require Import Samples PropertyWitness PropertyRuleProofs IamWitness SubPropsProofs DeviceProofs AliasProofs SubPropsWitness.
Import Verif.Model.Rules.
Local Open Scope string_scope.

(** get_resource_properties gives exactly the values that following the names from the properties leads to, with their places, and does not run on for ever.  Missing for the full property: items of lists with a single member, see below. *)
Theorem properties_found_partial : forall rt ks t,
  wf t -> (forall k, In k ks -> ~ In k FUNCTIONS) -> (forall name attrs props, resource_of t name rt attrs -> assoc "Properties" attrs = Some props -> roomy props) ->
  exists l, get_resource_properties rt ks t = Ok l /\
    forall w q, In (q, w) l <-> exists name attrs props, resource_of t name rt attrs /\ assoc "Properties" attrs = Some props /\ (ks = [] -> truthy props = true) /\
      reached ks props [PKey "Resources"; PKey name; PKey "Properties"] w q.
Proof. exact c75_reached. Qed.
Print Assumptions properties_found_partial.

(** E2504 reports exactly the block devices whose virtual name is not ephemeral0 to ephemeral23, the volumes of type io1 without a rate and those of another type with one.  Missing for the full property: names that are no texts and conditions. *)
Theorem devices_judged_partial : forall t,
  wf t -> (forall rt, In rt device_types -> unlisted t rt) -> devices_shaped t ->
  exists ms, ebs_match t = Ok ms /\
    forall m, In m ms <-> exists rt l q i d p words, In rt device_types /\ property_at t rt "BlockDeviceMappings" (VList l) q /\ nth_error l i = Some (VDict d) /\
      device_fault d (q ++ [PIdx i])%list p words /\ m = mkRM p (words ++ path_text p).
Proof. exact c75_devices. Qed.
Print Assumptions devices_judged_partial.

(** In a run, each of them leads to a finding of E2504. *)
Theorem device_findings : forall sp k c raw m0 d0 rt l q i d p words,
  snd (coll_run sp k c) = Ok raw -> In ebs_rule (k_all k) -> enabled (k_set k) ebs_rule = true -> c_tmpl c = MDict m0 d0 -> wf (template c) ->
  (forall rt, In rt device_types -> unlisted (template c) rt) -> devices_shaped (template c) ->
  In rt device_types -> property_at (template c) rt "BlockDeviceMappings" (VList l) q -> nth_error l i = Some (VDict d) -> device_fault d (q ++ [PIdx i])%list p words ->
  exists f, locate_match c "E2504" (mkRM p (words ++ path_text p)) = Ok f /\ In f raw.
Proof. exact c75_devices_run. Qed.
Print Assumptions device_findings.

(** E3013 reports exactly the aliases that are no domain names, and those with a star for a label that is not the first.  Missing for the full property: aliases with braces, configurations that are no objects, aliases that are no lists. *)
Theorem aliases_judged_partial : forall reformat : string -> res string, forall t,
  wf t -> unlisted t "AWS::CloudFront::Distribution" -> aliases_shaped t ->
  exists ms, aliases_match reformat t = Ok ms /\
    forall m, In m ms <-> exists d q l s words, property_at t "AWS::CloudFront::Distribution" "DistributionConfig" (VDict d) q /\ assoc "Aliases" d = Some (VList l) /\ In (VStr s) l /\
      alias_fault s words /\ m = mkRM (q ++ [PKey "Aliases"])%list words.
Proof. exact c75_aliases. Qed.
Print Assumptions aliases_judged_partial.

(** In a run, each of them leads to a finding of E3013. *)
Theorem alias_findings : forall reformat : string -> res string, forall sp k c raw m0 d0 d q l s words,
  snd (coll_run sp k c) = Ok raw -> In (aliases_rule reformat) (k_all k) -> enabled (k_set k) (aliases_rule reformat) = true -> c_tmpl c = MDict m0 d0 -> wf (template c) ->
  unlisted (template c) "AWS::CloudFront::Distribution" -> aliases_shaped (template c) ->
  property_at (template c) "AWS::CloudFront::Distribution" "DistributionConfig" (VDict d) q -> assoc "Aliases" d = Some (VList l) -> In (VStr s) l -> alias_fault s words ->
  exists f, locate_match c "E3013" (mkRM (q ++ [PKey "Aliases"])%list words) = Ok f /\ In f raw.
Proof. exact c75_aliases_run. Qed.
Print Assumptions alias_findings.

(** E3042 reports exactly the lists of containers each of which says that it is not essential.  Missing for the full property: containers that are conditions and switches that are texts. *)
Theorem containers_judged_partial : forall t,
  wf t -> unlisted t "AWS::ECS::TaskDefinition" -> containers_shaped t ->
  exists ms, containers_match t = Ok ms /\
    forall m, In m ms <-> exists l q, property_at t "AWS::ECS::TaskDefinition" "ContainerDefinitions" (VList l) q /\ none_essential l /\ m = mkRM q ("No essential containers defined for " ++ path_text q).
Proof. exact c75_containers. Qed.
Print Assumptions containers_judged_partial.

(** In a run, each of them leads to a finding of E3042. *)
Theorem container_findings : forall sp k c raw m0 d0 l q,
  snd (coll_run sp k c) = Ok raw -> In containers_rule (k_all k) -> enabled (k_set k) containers_rule = true -> c_tmpl c = MDict m0 d0 -> wf (template c) ->
  unlisted (template c) "AWS::ECS::TaskDefinition" -> containers_shaped (template c) ->
  property_at (template c) "AWS::ECS::TaskDefinition" "ContainerDefinitions" (VList l) q -> none_essential l ->
  exists f, locate_match c "E3042" (mkRM q ("No essential containers defined for " ++ path_text q)) = Ok f /\ In f raw.
Proof. exact c75_containers_run. Qed.
Print Assumptions container_findings.

(** A property of an item that has no other is not found. *)
Theorem one_member_refuted : exists pd w q, reached ["A"; "B"] (VDict pd) (props_path "R") w q /\ get_resource_properties instance ["A"; "B"] (with_resource instance pd) = Ok [].
Proof. exact one_member_witness. Qed.
Print Assumptions one_member_refuted.

(** A property is found where there is none, at a place that does not exist. *)
Theorem through_member_refuted : exists pd w q, get_resource_properties instance ["A"; "B"] (with_resource instance pd) = Ok [(q, w)] /\ at_path q (with_resource instance pd) = None /\
  ~ exists w' q', reached ["A"; "B"] (VDict pd) (props_path "R") w' q'.
Proof. exact through_member_witness. Qed.
Print Assumptions through_member_refuted.

(** Properties that are a condition are not looked into. *)
Theorem conditional_props_refuted : exists c a, get_resource_properties instance ["BlockDeviceMappings"]
  (VDict [("Resources", VDict [("R", VDict [("Type", VStr instance); ("Properties", If_of (VList [VStr c; VDict [("BlockDeviceMappings", a)]; VDict []]))])])]) = Ok [].
Proof. exact conditional_props_witness. Qed.
Print Assumptions conditional_props_refuted.

(** A virtual name given by a reference ends the check with an exception. *)
Theorem virtual_ref_refuted : ebs_match (with_resource instance [("BlockDeviceMappings", VList [VDict [("DeviceName", VStr "a"); ("VirtualName", VDict [("Ref", VStr "Name")])]])]) = Err ETypeErr.
Proof. exact virtual_ref_witness. Qed.
Print Assumptions virtual_ref_refuted.

(** Devices in conditions are not looked at. *)
Theorem conditional_device_refuted : let bad := VDict [("DeviceName", VStr "a"); ("VirtualName", VStr "b")] in
  ebs_match (with_resource instance [("BlockDeviceMappings", VList [If_of (VList [VStr "Prod"; bad; bad])])]) = Ok [] /\
  ebs_match (with_resource instance [("BlockDeviceMappings", If_of (VList [VStr "Prod"; VList [bad]; VList [bad]]))]) = Ok [].
Proof. exact conditional_device_witness. Qed.
Print Assumptions conditional_device_refuted.

(** The rate of a volume of type io2 is reported. *)
Theorem io2_refuted : exists m, ebs_match (with_resource instance [("BlockDeviceMappings", VList [sample_device VNull (VStr "io2") (VInt 100)])]) = Ok [m].
Proof. exact io2_witness. Qed.
Print Assumptions io2_refuted.

(** A rate in one branch of a condition is taken for a rate in both. *)
Theorem iops_branch_refuted : ebs_match (with_resource instance [("BlockDeviceMappings", VList [sample_device VNull (VStr "io1") (If_of (VList [VStr "Prod"; VInt 100; VDict [("Ref", VStr "AWS::NoValue")]]))])]) = Ok [].
Proof. exact iops_branch_witness. Qed.
Print Assumptions iops_branch_refuted.

(** A bad alias with braces is formatted a second time, and the failure of that ends the check. *)
Theorem alias_braces_refuted : forall reformat, reformat "Invalid alias found: ${Domain}" = Err EKey -> aliases_match reformat (with_resource distribution (config_of [VStr "${Domain}"])) = Err EKey.
Proof. exact alias_braces_witness. Qed.
Print Assumptions alias_braces_refuted.

(** The letters of aliases that are a text are taken for aliases. *)
Theorem alias_text_refuted : exists ms, aliases_match no_format (with_resource distribution [("DistributionConfig", VDict [("Aliases", VStr "a.b")])]) = Ok ms /\
  map rm_msg ms = ["Invalid alias found: a"; "Invalid alias found: ."; "Invalid alias found: b"].
Proof. exact alias_text_witness. Qed.
Print Assumptions alias_text_refuted.

(** A configuration that is null ends the check with an exception. *)
Theorem config_null_refuted : aliases_match no_format (with_resource distribution [("DistributionConfig", VNull)]) = Err EAttribute.
Proof. exact config_null_witness. Qed.
Print Assumptions config_null_refuted.

(** Conditions are not followed to configurations and aliases. *)
Theorem config_condition_refuted : let bad := VDict [("Aliases", VList [VStr "BAD"])] in
  aliases_match no_format (with_resource distribution [("DistributionConfig", If_of (VList [VStr "Prod"; bad; bad]))]) = Ok [] /\
  aliases_match no_format (with_resource distribution [("DistributionConfig", VDict [("Aliases", If_of (VList [VStr "Prod"; VList [VStr "BAD"]; VList [VStr "BAD"]]))])]) = Ok [].
Proof. exact config_condition_witness. Qed.
Print Assumptions config_condition_refuted.

(** The text false is taken for true. *)
Theorem essential_text_refuted : containers_match (with_resource task [("ContainerDefinitions", VList [VDict [("Essential", VStr "false")]])]) = Ok [].
Proof. exact essential_text_witness. Qed.
Print Assumptions essential_text_refuted.

(** A container that is a condition is taken for an essential one. *)
Theorem essential_condition_refuted : let bad := VDict [("Essential", VBool false)] in
  containers_match (with_resource task [("ContainerDefinitions", VList [If_of (VList [VStr "Prod"; bad; bad])])]) = Ok [] /\
  containers_match (with_resource task [("ContainerDefinitions", If_of (VList [VStr "Prod"; VList [bad]; VList [bad]]))]) = Ok [].
Proof. exact essential_condition_witness. Qed.
Print Assumptions essential_condition_refuted.

(** Containers that are null end the check with an exception. *)
Theorem containers_null_refuted : containers_match (with_resource task [("ContainerDefinitions", VNull)]) = Err ETypeErr.
Proof. exact containers_null_witness. Qed.
Print Assumptions containers_null_refuted.

Example reached_example_ : wf (with_resource instance nested_props) /\ roomy (VDict nested_props) /\
  reached ["A"; "B"] (VDict nested_props) (props_path "R") (VStr "x") (props_path "R" ++ [PKey "A"; PIdx 0; PKey "B"])%list /\
  reached ["A"; "B"] (VDict nested_props) (props_path "R") (VStr "z") (props_path "R" ++ [PKey "A"; PIdx 1; PKey "Fn::If"; PIdx 1; PKey "B"])%list /\
  get_resource_properties instance ["A"; "B"] (with_resource instance nested_props) =
    Ok [((props_path "R" ++ [PKey "A"; PIdx 0; PKey "B"])%list, VStr "x"); ((props_path "R" ++ [PKey "A"; PIdx 1; PKey "Fn::If"; PIdx 1; PKey "B"])%list, VStr "z")].
Proof. exact reached_example. Qed.

Example device_example_ : let t := with_resource instance device_props in
  wf (template (cfn_of t)) /\ (forall rt, In rt device_types -> unlisted (template (cfn_of t)) rt) /\ devices_shaped (template (cfn_of t)) /\
  property_at (template (cfn_of t)) instance "BlockDeviceMappings" (VList sample_devices) (place_of "BlockDeviceMappings") /\
  device_fault [("DeviceName", VStr "/dev/sda1"); ("VirtualName", VStr "ephemeral24"); ("Ebs", VDict [("VolumeType", VNull); ("Iops", VNull)])] (place_of "BlockDeviceMappings" ++ [PIdx 0])%list
    ((place_of "BlockDeviceMappings" ++ [PIdx 0]) ++ [PKey "VirtualName"])%list "Property VirtualName should be of type ephemeral(n) for " /\
  ebs_match t = Ok [
    mkRM (place_of "BlockDeviceMappings" ++ [PIdx 0; PKey "VirtualName"])%list "Property VirtualName should be of type ephemeral(n) for Resources/R/Properties/BlockDeviceMappings/0/VirtualName";
    mkRM (place_of "BlockDeviceMappings" ++ [PIdx 1; PKey "Ebs"; PKey "VolumeType"])%list "VolumeType io1 requires Iops to be specified for Resources/R/Properties/BlockDeviceMappings/1/Ebs/VolumeType";
    mkRM (place_of "BlockDeviceMappings" ++ [PIdx 2; PKey "Ebs"; PKey "Iops"])%list "Iops shouldn't be defined for type gp2 for Resources/R/Properties/BlockDeviceMappings/2/Ebs/Iops"] /\
  let k := mkColl [ebs_rule] default_settings in exists raw, snd (coll_run sample_sp k (cfn_of t)) = Ok raw /\ List.length raw = 3.
Proof. exact device_example. Qed.

Example alias_example_ : let t := with_resource distribution (config_of sample_aliases) in
  wf (template (cfn_of t)) /\ unlisted (template (cfn_of t)) distribution /\ aliases_shaped (template (cfn_of t)) /\
  property_at (template (cfn_of t)) distribution "DistributionConfig" (VDict [("Aliases", VList sample_aliases)]) (place_of "DistributionConfig") /\
  domain_name "www.example.com" /\ domain_name "*.example.com" /\ alias_fault "a.*.example.com" "Invalid use of wildcards: a.*.example.com" /\ alias_fault "Example.com" "Invalid alias found: Example.com" /\
  let k := mkColl [aliases_rule no_format] default_settings in exists raw, snd (coll_run sample_sp k (cfn_of t)) = Ok raw /\
    map f_msg raw = ["Invalid use of wildcards: a.*.example.com"; "Invalid alias found: Example.com"].
Proof. exact alias_example. Qed.

Example container_example_ : let t := with_resource task [("ContainerDefinitions", VList sample_containers)] in
  wf (template (cfn_of t)) /\ unlisted (template (cfn_of t)) task /\ containers_shaped (template (cfn_of t)) /\
  property_at (template (cfn_of t)) task "ContainerDefinitions" (VList sample_containers) (place_of "ContainerDefinitions") /\ none_essential sample_containers /\
  let k := mkColl [containers_rule] default_settings in exists raw, snd (coll_run sample_sp k (cfn_of t)) = Ok raw /\
    map f_msg raw = ["No essential containers defined for Resources/R/Properties/ContainerDefinitions"].
Proof. exact container_example. Qed.
