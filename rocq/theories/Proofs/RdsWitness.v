(** C81: samples and deviations. *)
From Coq Require Import List.
From Verif.Model Require Import Base Locate Helpers Node Search Rules PropertyRules SubProps Rds.
From Verif.Spec Require Import Paths Branches Required Walk Resolved Rds.
From Verif.Proofs Require Import BaseFacts WfDecide BranchProofs Samples PropertyWitness PropertyRuleProofs IamWitness SubPropsWitness RdsProofs.
Import Verif.Model.Rules.
Import ListNotations.
Local Open Scope string_scope.

Definition database : string := "AWS::RDS::DBInstance".
Definition sample_classes : class_table :=
  [("license-included", [("oracle", [("us-east-1", ["db.a"; "db.b"])])]); ("bring-your-own-license", [("oracle", [("us-east-1", ["db.c"])])]);
   ("general-public-license", [("mysql", [("us-east-1", ["db.m"]); ("eu-west-1", ["db.n"])])])].
Definition db_run (regions : list string) (t : val) : res (list string) :=
  rmap (map f_msg) (snd (coll_run sample_sp (mkColl [db_rule sample_classes regions] default_settings) (cfn_of t))).
Definition sample_db : list (string * val) := [("Engine", VStr "mysql"); ("DBInstanceClass", VStr "db.m")].
Lemma classes_example : let t := with_resource database sample_db in let regions := ["us-east-1"; "eu-west-1"; "nowhere"] in
  wf (template (cfn_of t)) /\ instances_shaped sample_classes (template (cfn_of t)) /\ db_instance (template (cfn_of t)) "R" sample_db (props_path "R") /\
  class_fault sample_classes regions sample_db "DBInstanceClass ""db.m"" is not compatible with engine type ""mysql"" and LicenseModel ""general-public-license"" in region ""eu-west-1"". Use instance types [db.n]" /\
  db_run regions t = Ok ["DBInstanceClass ""db.m"" is not compatible with engine type ""mysql"" and LicenseModel ""general-public-license"" in region ""eu-west-1"". Use instance types [db.n]"] /\
  db_run ["us-east-1"] (with_resource database [("Engine", VStr "oracle"); ("DBInstanceClass", VStr "db.c"); ("LicenseModel", VStr "")]) =
    Ok ["DBInstanceClass ""db.c"" is not compatible with engine type ""oracle"" and LicenseModel ""license-included"" in region ""us-east-1"". Use instance types [db.a, db.b]"] /\
  db_run ["us-east-1"] (with_resource database [("Engine", VStr "oracle"); ("DBInstanceClass", VStr "db.c"); ("LicenseModel", VStr "bring-your-own-license")]) = Ok [].
Proof.
  cbv zeta. change (template (cfn_of (with_resource database sample_db))) with (with_resource database sample_db).
  assert (Hb : forall p w q, branch (VDict sample_db) p w q -> w = VDict sample_db /\ q = p).
  { intros p w q H. apply (items_safe_spec sample_db p w q) in H. cbn in H. destruct H as [[= <- <-]|[]]. auto. }
  split; [apply wfb_sound; reflexivity|]. split; [|split; [|split; [|split; [|split]]]].
  - split; [discriminate|]. split; [discriminate|]. intros name attrs H. apply only_resource in H as [-> [_ ->]]. exists sample_db. split; [reflexivity|]. intros p w q H. apply Hb in H as [-> _]. eauto.
  - do 2 eexists. split; [apply the_resource|]. split; [reflexivity|]. apply items_safe_spec. now left.
  - refine (cf sample_classes _ sample_db "mysql" "db.m" "general-public-license" "eu-west-1" ["db.n"] eq_refl eq_refl _ _ _ _).
    + apply li_public; [discriminate | |]; intros [es [rs [[= <-] [=]]]].
    + right. now left.
    + do 2 eexists. split; [reflexivity|]. split; reflexivity.
    + intros [[=]|[]].
  - vm_compute. reflexivity.
  - vm_compute. reflexivity.
  - vm_compute. reflexivity.
Qed.
(** A class inside of Fn::If is not looked at, though both of its values are refused when they are given alone. *)
Lemma inner_if_witness : db_run ["us-east-1"] (with_resource database [("Engine", VStr "mysql"); ("DBInstanceClass", if_ "C" (VStr "db.x") (VStr "db.y"))]) = Ok [] /\
  db_run ["us-east-1"] (with_resource database [("Engine", VStr "mysql"); ("DBInstanceClass", VStr "db.x")]) <> Ok [] /\
  db_run ["us-east-1"] (with_resource database [("Engine", VStr "mysql"); ("DBInstanceClass", VStr "db.y")]) <> Ok [].
Proof. vm_compute. repeat split; discriminate. Qed.
(** A class that some region refuses is reported even for an engine written in capital letters only if the table knows the capitals. *)
Lemma capitals_witness : db_run ["us-east-1"] (with_resource database [("Engine", VStr "MySQL"); ("DBInstanceClass", VStr "db.x")]) = Ok [].
Proof. vm_compute. reflexivity. Qed.
(** An instance without properties ends the check with an exception; the class of another instance is not reported then. *)
Lemma no_properties_witness : db_match sample_classes ["us-east-1"]
  (VDict [("Resources", VDict [("A", VDict [("Type", VStr database)]); ("B", VDict [("Type", VStr database); ("Properties", VDict [("Engine", VStr "mysql"); ("DBInstanceClass", VStr "db.x")])])])]) = Err EAttribute.
Proof. vm_compute. reflexivity. Qed.
