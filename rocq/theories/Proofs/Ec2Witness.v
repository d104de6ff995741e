(** C79: samples and deviations. *)
From Coq Require Import List.
From Verif.Model Require Import Base Locate Helpers Node Search Rules Relationship PropertyRules SubProps Ec2.
From Verif.Spec Require Import Paths Required Walk Resolved Ec2.
From Verif.Proofs Require Import BaseFacts WfDecide Samples PropertyWitness PropertyRuleProofs IamWitness SubPropsWitness Ec2Proofs.
Import Verif.Model.Rules.
Import ListNotations.
Local Open Scope string_scope.

Definition routed (cond : list (string * val)) (sid : val) : val :=
  VDict (("Type", VStr association_type) :: cond ++ [("Properties", VDict [("SubnetId", sid)])])%list.
Definition two_routes (a b : val) : val := VDict [("Resources", VDict [("A", a); ("B", b)])].
Definition routes_run (t : val) : res (list string) :=
  rmap (map f_msg) (snd (coll_run sample_sp (mkColl [association_rule; ingress_rule] default_settings) (cfn_of t))).
Definition same_subnet : val := two_routes (routed [] (VDict [("Ref", VStr "S")])) (routed [("Condition", VStr "C")] (if_ "D" (VStr "S") (VStr "T"))).
Lemma two_resources a b name rt attrs : resource_of (two_routes a b) name rt attrs -> (name = "A" /\ VDict attrs = a) \/ (name = "B" /\ VDict attrs = b).
Proof. intros [top [rs [[= <-] [[= <-] [[[= <- E]|[[= <- E]|[]]] _]]]]]; auto. Qed.
Lemma routes_example : let t := same_subnet in
  wf (template (cfn_of t)) /\ associations_shaped (template (cfn_of t)) /\ uses (template (cfn_of t)) "B" (Some "C") (Some "D") "S" /\ also_uses (template (cfn_of t)) "B" (Some "C") (Some "D") "S" "A" /\
  (forall o, ~ also_uses (template (cfn_of t)) "B" (Some "C") (Some "D") "T" o) /\
  routes_run t = Ok ["SubnetId in B is also associated with A"].
Proof.
  cbv zeta. change (template (cfn_of same_subnet)) with same_subnet. split; [apply wfb_sound; reflexivity|].
  assert (RA : association same_subnet "A" None (VDict [("Ref", VStr "S")])).
  { do 2 eexists. split; [do 2 eexists; split; [reflexivity|]; split; [reflexivity|]; split; [now left | reflexivity]|]. repeat split. }
  assert (RB : association same_subnet "B" (Some "C") (if_ "D" (VStr "S") (VStr "T"))).
  { do 2 eexists. split; [do 2 eexists; split; [reflexivity|]; split; [reflexivity|]; split; [right; now left | reflexivity]|]. repeat split. }
  split; [|split; [|split; [|split]]].
  - intros name attrs H. apply two_resources in H as [[_ [= ->]]|[_ [= ->]]]; (split; [right; do 2 eexists; split; [reflexivity|]; split; [reflexivity|]; repeat constructor|]); [now left | right; eexists; reflexivity].
  - eexists. split; [exact RB|]. apply sn_then. constructor.
  - split; [discriminate|]. right. eexists. split; [exact RA|]. constructor.
  - intros o [Ho [[sid [[attrs [pd [H1 [H2 [H3 H4]]]]] H5]]|[sid [[attrs [pd [H1 [H2 [H3 H4]]]]] H5]]]].
    + apply two_resources in H1 as [[_ [= ->]]|[-> _]]; [discriminate H4 | now apply Ho].
    + apply two_resources in H1 as [[_ [= ->]]|[-> _]]; [|now apply Ho]. injection H2 as <-. injection H3 as <-. inversion H5.
  - vm_compute. reflexivity.
Qed.
(** The two branches of an Fn::If are not told apart: these resources never use the same subnet. *)
Lemma branches_witness : let x := if_ "C" (VStr "S") (VStr "T") in let y := if_ "C" (VStr "T") (VStr "S") in
  (forall b u v, resolved (fun n => Some (b n)) x (Some u) -> resolved (fun n => Some (b n)) y (Some v) -> u <> v) /\
  routes_run (two_routes (routed [] x) (routed [] y)) =
    Ok ["SubnetId in A is also associated with B"; "SubnetId in A is also associated with B"; "SubnetId in B is also associated with A"; "SubnetId in B is also associated with A"].
Proof.
  cbv zeta. split; [|vm_compute; reflexivity]. intros b u v Hx Hy.
  inversion Hx as [c t e r K1 K2|c t e r K1 K2|c t e K1| | | | | | | |]; subst; try discriminate K1; try (exfalso; congruence);
  inversion Hy as [c' t' e' r' K3 K4|c' t' e' r' K3 K4|c' t' e' K3| | | | | | | |]; subst; try discriminate K3; try (exfalso; congruence);
  inversion K2; subst; inversion K4; subst; congruence.
Qed.
(** Two conditions can hold together. *)
Lemma conditions_witness : routes_run (two_routes (routed [("Condition", VStr "C")] (VStr "S")) (routed [("Condition", VStr "D")] (VStr "S"))) = Ok [].
Proof. vm_compute. reflexivity. Qed.
(** Associations without subnets are said to share one, and an attribute written as one text is not the same as one written as a list. *)
Lemma no_subnet_witness : let none := VDict [("Type", VStr association_type); ("Properties", VDict [("RouteTableId", VStr "T")])] in
  routes_run (two_routes none none) = Ok ["SubnetId in A is also associated with B"; "SubnetId in B is also associated with A"].
Proof. vm_compute. reflexivity. Qed.
Lemma attribute_text_witness :
  routes_run (two_routes (routed [] (VDict [("Fn::GetAtt", VStr "S.Id")])) (routed [] (VDict [("Fn::GetAtt", VList [VStr "S"; VStr "Id"])]))) = Ok [].
Proof. vm_compute. reflexivity. Qed.

Definition group_of_rules (vpc : list (string * val)) (rules : list val) : val := with_resource "AWS::EC2::SecurityGroup" (vpc ++ [("SecurityGroupIngress", VList rules)])%list.
Lemma ingress_example : let t := group_of_rules [("VpcId", VStr "v")] [VDict [("SourceSecurityGroupId", VStr "g")]; VDict [("SourceSecurityGroupName", VStr "n")]] in
  wf (template (cfn_of t)) /\ ingress_shaped (template (cfn_of t)) /\
  ingress_fault (template (cfn_of t)) (props_path "R" ++ [PKey "SecurityGroupIngress"; PIdx 1; PKey "SourceSecurityGroupName"])%list "SourceSecurityGroupName shouldn't be specified for Vpc Security Group at " /\
  routes_run t = Ok ["SourceSecurityGroupName shouldn't be specified for Vpc Security Group at Resources/R/Properties/SecurityGroupIngress/1/SourceSecurityGroupName"] /\
  routes_run (group_of_rules [] [VDict [("SourceSecurityGroupId", VStr "g")]]) = Ok ["SourceSecurityGroupId shouldn't be specified for Non-Vpc Security Group at Resources/R/Properties/SecurityGroupIngress/0/SourceSecurityGroupId"] /\
  routes_run (with_resource "AWS::EC2::SecurityGroupIngress" [("GroupId", VStr "g"); ("SourceSecurityGroupName", VStr "n")]) = Ok ["SourceSecurityGroupName shouldn't be specified for Vpc Security Group at Resources/R/Properties/SourceSecurityGroupName"].
Proof.
  cbv zeta. match goal with |- context [cfn_of ?x] => change (template (cfn_of x)) with x end. split; [apply wfb_sound; reflexivity|]. split; [|split; [|split; [|split]]].
  - split; intros name attrs H; apply only_resource in H as [_ [E ->]]; [|discriminate E]. right. eexists. split; [reflexivity|]. intros l x [= <-] Hx. destruct Hx as [<-|[<-|[]]]; eauto.
  - refine (if_group _ "R" _ ([("VpcId", VStr "v")] ++ [("SecurityGroupIngress", VList [VDict [("SourceSecurityGroupId", VStr "g")]; VDict [("SourceSecurityGroupName", VStr "n")]])])%list _ 1 _ "SourceSecurityGroupName" _ true _ (the_resource _ _) eq_refl eq_refl eq_refl _ so_vpc eq_refl eq_refl). split; [reflexivity|]. intros _. exists (VStr "v"). auto.
  - vm_compute. reflexivity.
  - vm_compute. reflexivity.
  - vm_compute. reflexivity.
Qed.
(** A VpcId that is removed counts as one that is there. *)
Lemma removed_vpc_witness : routes_run (group_of_rules [("VpcId", no_value)] [VDict [("SourceSecurityGroupName", VStr "n")]]) =
  Ok ["SourceSecurityGroupName shouldn't be specified for Vpc Security Group at Resources/R/Properties/SecurityGroupIngress/0/SourceSecurityGroupName"].
Proof. vm_compute. reflexivity. Qed.
(** Rules in a condition are not looked at. *)
Lemma conditional_rule_witness : routes_run (group_of_rules [("VpcId", VStr "v")] [if_ "C" (VDict [("SourceSecurityGroupName", VStr "n")]) no_value]) = Ok [].
Proof. vm_compute. reflexivity. Qed.
(** A rule that is a text keeps the whole template from being checked, without a report. *)
Lemma text_rule_witness : let bad := VDict [("SourceSecurityGroupName", VStr "n")] in
  routes_run (group_of_rules [("VpcId", VStr "v")] [bad]) <> Ok [] /\ routes_run (group_of_rules [("VpcId", VStr "v")] [bad; VStr "x"]) = Ok [].
Proof. split; vm_compute; [discriminate | reflexivity]. Qed.
