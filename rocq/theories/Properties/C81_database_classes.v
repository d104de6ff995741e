(** C81 Classes of database instances are offered in the regions of the run. *)
From Verif.Model Require Import Base Helpers Locate Node Search Rules PropertyRules SubProps Rds.
From Verif.Spec Require Import Paths Branches Required Walk Resolved Rds.
From Verif.Proofs Require Import Samples PropertyWitness PropertyRuleProofs IamWitness SubPropsWitness RdsProofs RdsWitness.
Import Verif.Model.Rules.
Local Open Scope string_scope.

(** E3025 reports exactly the classes that, among instances whose properties are objects, a region of the run does not offer for the engine and the license, given or by default. *)
Theorem classes_judged_partial : forall table regions,forall t,
  wf t -> instances_shaped table t ->
  exists ms, db_match table regions t = Ok ms /\ forall m, In m ms <->
    exists name d q words, db_instance t name d q /\ class_fault table regions d words /\ m = mkRM (q ++ [PKey "DBInstanceClass"])%list words.
Proof. exact c81_classes. Qed.
Print Assumptions classes_judged_partial.

(** In a run, each of these classes leads to a finding of E3025. *)
Theorem class_findings : forall table regions,forall sp k c raw m0 d0 name d q words,
  snd (coll_run sp k c) = Ok raw -> In (db_rule table regions) (k_all k) -> enabled (k_set k) (db_rule table regions) = true ->
  wf (template c) -> c_tmpl c = MDict m0 d0 -> instances_shaped table (template c) -> db_instance (template c) name d q -> class_fault table regions d words ->
  exists f, locate_match c "E3025" (mkRM (q ++ [PKey "DBInstanceClass"])%list words) = Ok f /\ In f raw.
Proof. exact c81_classes_run. Qed.
Print Assumptions class_findings.

(** A class inside of Fn::If is not looked at. *)
Theorem inner_if_refuted : db_run ["us-east-1"] (with_resource database [("Engine", VStr "mysql"); ("DBInstanceClass", if_ "C" (VStr "db.x") (VStr "db.y"))]) = Ok [] /\
  db_run ["us-east-1"] (with_resource database [("Engine", VStr "mysql"); ("DBInstanceClass", VStr "db.x")]) <> Ok [] /\
  db_run ["us-east-1"] (with_resource database [("Engine", VStr "mysql"); ("DBInstanceClass", VStr "db.y")]) <> Ok [].
Proof. exact inner_if_witness. Qed.
Print Assumptions inner_if_refuted.

(** An engine in other letters than those of the table is not looked at. *)
Theorem capitals_refuted : db_run ["us-east-1"] (with_resource database [("Engine", VStr "MySQL"); ("DBInstanceClass", VStr "db.x")]) = Ok [].
Proof. exact capitals_witness. Qed.
Print Assumptions capitals_refuted.

(** An instance without properties keeps E3025 from reporting anything about the others. *)
Theorem no_properties_refuted : db_match sample_classes ["us-east-1"]
  (VDict [("Resources", VDict [("A", VDict [("Type", VStr database)]); ("B", VDict [("Type", VStr database); ("Properties", VDict [("Engine", VStr "mysql"); ("DBInstanceClass", VStr "db.x")])])])]) = Err EAttribute.
Proof. exact no_properties_witness. Qed.
Print Assumptions no_properties_refuted.

Example classes_example_ : let t := with_resource database sample_db in let regions := ["us-east-1"; "eu-west-1"; "nowhere"] in
  wf (template (cfn_of t)) /\ instances_shaped sample_classes (template (cfn_of t)) /\ db_instance (template (cfn_of t)) "R" sample_db (props_path "R") /\
  class_fault sample_classes regions sample_db "DBInstanceClass ""db.m"" is not compatible with engine type ""mysql"" and LicenseModel ""general-public-license"" in region ""eu-west-1"". Use instance types [db.n]" /\
  db_run regions t = Ok ["DBInstanceClass ""db.m"" is not compatible with engine type ""mysql"" and LicenseModel ""general-public-license"" in region ""eu-west-1"". Use instance types [db.n]"] /\
  db_run ["us-east-1"] (with_resource database [("Engine", VStr "oracle"); ("DBInstanceClass", VStr "db.c"); ("LicenseModel", VStr "")]) =
    Ok ["DBInstanceClass ""db.c"" is not compatible with engine type ""oracle"" and LicenseModel ""license-included"" in region ""us-east-1"". Use instance types [db.a, db.b]"] /\
  db_run ["us-east-1"] (with_resource database [("Engine", VStr "oracle"); ("DBInstanceClass", VStr "db.c"); ("LicenseModel", VStr "bring-your-own-license")]) = Ok [].
Proof. exact classes_example. Qed.
