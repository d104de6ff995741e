(** C79 A subnet has one route table, and sources of ingress rules fit their group. *)
From Verif.Model Require Import Base Helpers Locate Node Search Rules Relationship PropertyRules SubProps Ec2.
From Verif.Spec Require Import Paths Branches Required Walk Resolved Ec2.
From Verif.Proofs Require Import Samples PropertyWitness PropertyRuleProofs IamWitness SubPropsWitness Ec2Proofs Ec2Witness.
Import Verif.Model.Rules.
Local Open Scope string_scope.

(** E3022 reports exactly the associations of subnets that another association uses under the same conditions, or under none, and names the others.  Missing for the full property: conditions that differ and hold together, and the two branches of one Fn::If (refuted below). *)
Theorem routes_judged_partial : forall t, wf t -> associations_shaped t ->exists ms, associations_match t = Ok ms /\
  (forall m, In m ms -> exists name rc pc s os, uses t name rc pc s /\ os <> [] /\ (forall o, In o os <-> also_uses t name rc pc s o) /\
     m = mkRM [PKey "Resources"; PKey name; PKey "Properties"; PKey "SubnetId"] ("SubnetId in " ++ name ++ " is also associated with " ++ join_str ", " os)) /\
  (forall name rc pc s o, uses t name rc pc s -> also_uses t name rc pc s o -> exists os, (forall o, In o os <-> also_uses t name rc pc s o) /\
     In (mkRM [PKey "Resources"; PKey name; PKey "Properties"; PKey "SubnetId"] ("SubnetId in " ++ name ++ " is also associated with " ++ join_str ", " os)) ms).
Proof. exact c79_routes. Qed.
Print Assumptions routes_judged_partial.

(** In a run, each of these associations leads to a finding of E3022. *)
Theorem route_findings : forall sp k c raw m0 d0 name rc pc s o,
  snd (coll_run sp k c) = Ok raw -> In association_rule (k_all k) -> enabled (k_set k) association_rule = true ->
  wf (template c) -> c_tmpl c = MDict m0 d0 -> associations_shaped (template c) -> uses (template c) name rc pc s -> also_uses (template c) name rc pc s o ->
  exists os f, (forall o, In o os <-> also_uses (template c) name rc pc s o) /\
    locate_match c "E3022" (mkRM [PKey "Resources"; PKey name; PKey "Properties"; PKey "SubnetId"] ("SubnetId in " ++ name ++ " is also associated with " ++ join_str ", " os)) = Ok f /\ In f raw.
Proof. exact c79_routes_run. Qed.
Print Assumptions route_findings.

(** E2506 reports exactly the ingress rules of a group in a VPC with the name of a source group, and those of other groups with the id of one. *)
Theorem ingress_judged : forall t,
  wf t -> ingress_shaped t -> exists ms, ingress_match t = Ok ms /\ forall m, In m ms <-> exists q words, ingress_fault t q words /\ m = mkRM q (words ++ path_text q).
Proof. exact c79_ingress. Qed.
Print Assumptions ingress_judged.

(** In a run, each of these rules leads to a finding of E2506. *)
Theorem ingress_findings : forall sp k c raw m0 d0 q words,
  snd (coll_run sp k c) = Ok raw -> In ingress_rule (k_all k) -> enabled (k_set k) ingress_rule = true ->
  wf (template c) -> c_tmpl c = MDict m0 d0 -> ingress_shaped (template c) -> ingress_fault (template c) q words ->
  exists f, locate_match c "E2506" (mkRM q (words ++ path_text q)) = Ok f /\ In f raw.
Proof. exact c79_ingress_run. Qed.
Print Assumptions ingress_findings.

(** E3022 reports associations that never use the same subnet, because it does not tell the branches of an Fn::If apart. *)
Theorem branches_refuted : let x := if_ "C" (VStr "S") (VStr "T") in let y := if_ "C" (VStr "T") (VStr "S") in
  (forall b u v, resolved (fun n => Some (b n)) x (Some u) -> resolved (fun n => Some (b n)) y (Some v) -> u <> v) /\
  routes_run (two_routes (routed [] x) (routed [] y)) =
    Ok ["SubnetId in A is also associated with B"; "SubnetId in A is also associated with B"; "SubnetId in B is also associated with A"; "SubnetId in B is also associated with A"].
Proof. exact branches_witness. Qed.
Print Assumptions branches_refuted.

(** E3022 does not report two associations of one subnet under two conditions. *)
Theorem conditions_refuted : routes_run (two_routes (routed [("Condition", VStr "C")] (VStr "S")) (routed [("Condition", VStr "D")] (VStr "S"))) = Ok [].
Proof. exact conditions_witness. Qed.
Print Assumptions conditions_refuted.

(** Associations without subnets are said to share one. *)
Theorem no_subnet_refuted : let none := VDict [("Type", VStr association_type); ("Properties", VDict [("RouteTableId", VStr "T")])] in
  routes_run (two_routes none none) = Ok ["SubnetId in A is also associated with B"; "SubnetId in B is also associated with A"].
Proof. exact no_subnet_witness. Qed.
Print Assumptions no_subnet_refuted.

(** An attribute written as one text and the same written as a list are different for E3022. *)
Theorem attribute_text_refuted : routes_run (two_routes (routed [] (VDict [("Fn::GetAtt", VStr "S.Id")])) (routed [] (VDict [("Fn::GetAtt", VList [VStr "S"; VStr "Id"])]))) = Ok [].
Proof. exact attribute_text_witness. Qed.
Print Assumptions attribute_text_refuted.

(** A VpcId that is removed counts as one that is there. *)
Theorem removed_vpc_refuted : routes_run (group_of_rules [("VpcId", no_value)] [VDict [("SourceSecurityGroupName", VStr "n")]]) =
  Ok ["SourceSecurityGroupName shouldn't be specified for Vpc Security Group at Resources/R/Properties/SecurityGroupIngress/0/SourceSecurityGroupName"].
Proof. exact removed_vpc_witness. Qed.
Print Assumptions removed_vpc_refuted.

(** Ingress rules in a condition are not looked at. *)
Theorem conditional_rule_refuted : routes_run (group_of_rules [("VpcId", VStr "v")] [if_ "C" (VDict [("SourceSecurityGroupName", VStr "n")]) no_value]) = Ok [].
Proof. exact conditional_rule_witness. Qed.
Print Assumptions conditional_rule_refuted.

(** A rule that is a text keeps E2506 from reporting anything. *)
Theorem text_rule_refuted : let bad := VDict [("SourceSecurityGroupName", VStr "n")] in
  routes_run (group_of_rules [("VpcId", VStr "v")] [bad]) <> Ok [] /\ routes_run (group_of_rules [("VpcId", VStr "v")] [bad; VStr "x"]) = Ok [].
Proof. exact text_rule_witness. Qed.
Print Assumptions text_rule_refuted.

Example routes_example_ : let t := same_subnet in
  wf (template (cfn_of t)) /\ associations_shaped (template (cfn_of t)) /\ uses (template (cfn_of t)) "B" (Some "C") (Some "D") "S" /\ also_uses (template (cfn_of t)) "B" (Some "C") (Some "D") "S" "A" /\
  (forall o, ~ also_uses (template (cfn_of t)) "B" (Some "C") (Some "D") "T" o) /\
  routes_run t = Ok ["SubnetId in B is also associated with A"].
Proof. exact routes_example. Qed.

Example ingress_example_ : let t := group_of_rules [("VpcId", VStr "v")] [VDict [("SourceSecurityGroupId", VStr "g")]; VDict [("SourceSecurityGroupName", VStr "n")]] in
  wf (template (cfn_of t)) /\ ingress_shaped (template (cfn_of t)) /\
  ingress_fault (template (cfn_of t)) (props_path "R" ++ [PKey "SecurityGroupIngress"; PIdx 1; PKey "SourceSecurityGroupName"])%list "SourceSecurityGroupName shouldn't be specified for Vpc Security Group at " /\
  routes_run t = Ok ["SourceSecurityGroupName shouldn't be specified for Vpc Security Group at Resources/R/Properties/SecurityGroupIngress/1/SourceSecurityGroupName"] /\
  routes_run (group_of_rules [] [VDict [("SourceSecurityGroupId", VStr "g")]]) = Ok ["SourceSecurityGroupId shouldn't be specified for Non-Vpc Security Group at Resources/R/Properties/SecurityGroupIngress/0/SourceSecurityGroupId"] /\
  routes_run (with_resource "AWS::EC2::SecurityGroupIngress" [("GroupId", VStr "g"); ("SourceSecurityGroupName", VStr "n")]) = Ok ["SourceSecurityGroupName shouldn't be specified for Vpc Security Group at Resources/R/Properties/SourceSecurityGroupName"].
Proof. exact ingress_example. Qed.
