(** For each rule that can end in an exception, a template on which it does (C100). *)
From Coq Require Import List String Permutation QArith ZArith.
From Verif.Model Require Import Base Locate Helpers Node Conditions Search Resolve Rules Runner Config Core Relationship JsonDump PropertyRules ValueRules BasedOn Lambda SubNeeded Iam Graph Standard.
From Verif.Spec Require Import Pipeline Paths Faults Shipped Crashes.
From Verif.Proofs Require Import SubstitutionWitness RegistryWitness RdsWitness JsonSizeWitness DuplicateWitness PermissionWitness ConditionWitness ExpectedWitness Samples IamWitness UpdatePolicyWitness InterfaceProofs LambdaWitness EventWitness StageWitness PropertyWitness StandardWitness StandardPropWitness StandardFunctionWitness ElbWitness ActionWitness ClusterWitness Ec2Witness WfDecide RunProofs StandardProofs StandardMain ReportProofs CrashProofs BaseFacts.
Import Verif.Model.Rules.
Import ListNotations.

Local Open Scope string_scope.

Definition all_rs : rspec := mkRS
  (rs_resource_types small_rs ++ [("AWS::X::Table", [("Doc", doc_spec); ("Count", mkPS false None (Some "Integer") None [("ValueType", "Size")] None); ("Keys", mkPS false (Some "List") None (Some "String") [] (Some false));
                      ("Names", mkPS false (Some "List") None (Some "String") [] (Some true))])])
  (rs_property_types small_rs) (rs_value_types small_rs).
Definition ample_with (specs : list (string * region_spec)) (registry : list val) : world := mkWorld
  template (fun _ => VDict []) (fun _ => Some 100%Z) ["us-east-1"]
  all_rs specs ["AWS::Events::Rule"; "AWS::Lambda::Function"] registry [] (fun _ _ => Some "String") tree_resources tree_properties tree_intrinsics
  small_values [("AWS::SSM::Parameter::Name", ["String"])]
  ([("AWS::Events::Rule", [("Name", ["ScheduleExpression"])])], []) ([("AWS::Events::Rule", [("Name", ["RoleArn"])])], [])
  ([("AWS::Events::Rule", small_groups)], []) ([("AWS::Events::Rule", small_groups)], []) ([("AWS::Events::Rule", small_table)], [])
  [("nodejs4.3", mkLife "a" "b" "nodejs10.x"); ("python2.7", mkLife "a" "z" "python3.8")] (load_service_map sample_services) sample_classes doc_max
  (fun s => if String.eqb s "z" then 20 else 0)%Z 10%Z (fun l => l) (fun l => l) 10%nat
  (fun _ => "") (fun _ => "") (fun _ => "") toy_hash (fun s => s) sample_float (fun _ => None) (fun s => String.eqb s "5") (fun _ => false)
  (fun r s => prefix "long" s) (fun _ _ => Some true) (fun s => s) (fun _ => None) (fun _ => inl "no JSON") needs_size (fun s => Ok s) (fun _ => false) "" find_cycle_dfs.
Definition ample : world := ample_with [("us-east-1", [("AWS::Events::Rule", []); ("AWS::Lambda::Function", [])])] [size_schema].
Definition everything : settings := mkSettings true [] ["W"; "E"; "I"] [] [].
Definition all_rules : collection := mkColl (shipped ample) everything.
Definition keeping : translator := fun c => ([], c_tmpl c).
Definition crash_cfn (t : val) : cfn := mkCfn "t.yaml" "us-east-1" (marked t).

(** The templates. *)
Definition crash_templates : list (string * val) :=
  [("E8001", VDict [("Conditions", VBool true)]);
   ("E8003", VDict [("Parameters", VBool true)]);
   ("E8002", VDict [("Fn::If", VList [])]);
   ("W8001", VDict [("Conditions", VDict [("C", VDict [])]); ("Globals", VDict [("Fn::If", VList [])])]);
   ("E1027", VDict [("Resources", VDict [("A", VDict [("Type", VStr "AWS::Events::Rule"); ("Properties", VDict [("Name", VDict [("Fn::Sub", VList [])])])])])]);
   ("E1011", VDict [("Fn::FindInMap", VList [])]);
   ("E1010", VDict [("Resources", VBool true)]);
   ("E1028", VDict [("Fn::If", VList [])]);
   ("E1012", VDict [("Ref", VStr "A")]);
   ("W1001", VDict [("Ref", VList [])]);
   ("E1019", VDict [("Fn::Sub", VList [VInt 1; VDict []])]);
   ("I1022", VDict [("Fn::Join", VList [])]);
   ("W1020", VDict [("Fn::Sub", VList [VInt 1; VDict []])]);
   ("W2031", VDict [("Resources", VDict [("A", VDict [("Type", VStr "AWS::Events::Rule"); ("Properties", VDict [("Fn::If", VList [VStr "C"; VInt 3; VDict []])])])])]);
   ("W2030", VDict [("Resources", VDict [("A", VDict [("Type", VStr "AWS::Events::Rule"); ("Properties", VDict [("Fn::If", VList [VStr "C"; VInt 3; VDict []])])])])]);
   ("I2011", VDict [("Parameters", VBool true)]);
   ("I2010", VDict [("Parameters", VBool true)]);
   ("I2012", VDict [("Parameters", VBool true)]);
   ("E2001", VDict [("Parameters", VBool true)]);
   ("E2015", VDict [("Parameters", VBool true)]);
   ("E2011", VDict [("Parameters", VBool true)]);
   ("E2010", VDict [("Parameters", VBool true)]);
   ("E2012", VDict [("Parameters", VBool true)]);
   ("E2003", VDict [("Parameters", VBool true)]);
   ("E2002", VDict [("Parameters", VBool true)]);
   ("W2001", VDict [("Fn::Sub", VList [])]);
   ("I3012", VDict [("Resources", VBool true)]);
   ("E3004", VDict [("Resources", VBool true)]);
   ("W3005", VDict [("Resources", VDict [("A", VDict [("Type", VStr "AWS::Events::Rule"); ("Properties", VDict [("Name", VDict [("Fn::GetAtt", VList [])])]); ("DependsOn", VStr "B")])])]);
   ("E3011", VDict [("Resources", VBool true)]);
   ("E3006", VDict [("Resources", VBool true)]);
   ("W4002", VDict [("Parameters", VBool true)]);
   ("E3007", VDict [("Parameters", VBool true); ("Resources", VDict [("B", VDict [("Type", VStr "AWS::Events::Rule")])])]);
   ("E3031", VDict [("Resources", VDict [("A", VDict [("Type", VStr "AWS::Events::Rule"); ("Properties", VDict [("Fn::If", VList [VStr "C"; VInt 3; VDict []])])])])]);
   ("E3030", VDict [("Resources", VDict [("A", VDict [("Type", VStr "AWS::Events::Rule"); ("Properties", VDict [("Fn::If", VList [VStr "C"; VInt 3; VDict []])])])])]);
   ("E2522", VDict [("Resources", VDict [("A", VDict [("Type", VStr "AWS::Events::Rule"); ("Properties", VDict [("Fn::If", VList [VStr "C"; VInt 3; VDict []])])])])]);
   ("E2520", VDict [("Conditions", VDict [("C", VDict [])]); ("Resources", VDict [("A", VDict [("Type", VStr "AWS::Events::Rule"); ("Properties", VDict [("Fn::If", VList [VStr "C"; VInt 3; VDict []])])])])]);
   ("W2506", VDict [("Parameters", VBool true)]);
   ("E2521", VDict [("Conditions", VDict [("C", VDict [])]); ("Resources", VDict [("A", VDict [("Type", VStr "AWS::Events::Rule"); ("Properties", VDict [("Fn::If", VList [VStr "C"; VInt 3; VDict []])])])])]);
   ("E3502", VDict [("Resources", VDict [("A", VDict [("Type", VStr "AWS::Events::Rule"); ("Properties", VDict [("Fn::If", VList [VStr "C"; VInt 3; VDict []])])])])]);
   ("E3037", VDict [("Resources", VDict [("A", VDict [("Type", VStr "AWS::Events::Rule"); ("Properties", VDict [("Fn::If", VList [VStr "C"; VInt 3; VDict []])])])])]);
   ("I3037", VDict [("Resources", VDict [("A", VDict [("Type", VStr "AWS::Events::Rule"); ("Properties", VDict [("Fn::If", VList [VStr "C"; VInt 3; VDict []])])])])]);
   ("E3032", VDict [("Resources", VDict [("A", VDict [("Type", VStr "AWS::Events::Rule"); ("Properties", VDict [("Fn::If", VList [VStr "C"; VInt 3; VDict []])])])])]);
   ("E3034", VDict [("Resources", VDict [("A", VDict [("Type", VStr "AWS::Events::Rule"); ("Properties", VDict [("Fn::If", VList [VStr "C"; VInt 3; VDict []])])])])]);
   ("E2523", VDict [("Resources", VDict [("A", VDict [("Type", VStr "AWS::Events::Rule"); ("Properties", VDict [("Fn::If", VList [VStr "C"; VInt 3; VDict []])])])])]);
   ("E3002", VDict [("Resources", VDict [("A", VDict [("Type", VBool true); ("Properties", VDict [])])])]);
   ("E3003", VDict [("Resources", VDict [("A", VDict [("Type", VBool true); ("Properties", VDict [])])])]);
   ("E3033", VDict [("Resources", VDict [("A", VDict [("Type", VStr "AWS::Events::Rule"); ("Properties", VDict [("Fn::If", VList [VStr "C"; VInt 3; VDict []])])])])]);
   ("E3008", VDict [("Resources", VDict [("A", VDict [("Type", VStr "AWS::Events::Rule"); ("Properties", VDict [("Name", VDict [("Fn::GetAtt", VList [])])])])])]);
   ("E5001", VDict [("Resources", VDict [("A", VDict [("Type", VStr "X::MODULE"); ("Properties", VInt 5)])])]);
   ("E3005", VDict [("Resources", VDict [("A", VDict [("Type", VStr "AWS::Events::Rule"); ("DependsOn", VStr "B")]); ("B", VDict [("Type", VStr "AWS::Events::Rule"); ("Condition", VList [VStr "C"])])])]);
   ("E1022", VDict [("Parameters", VDict [("P", VInt 5)]); ("Fn::Join", VList [VStr ""; VList []])]);
   ("W2501", VDict [("Parameters", VDict [("P", VInt 5)]); ("Resources", VDict [("A", VDict [("Properties", VDict [("Password", VDict [("Ref", VStr "P")])])])])]);
   ("E1029", VDict [("Resources", VDict [("A", VDict [("Properties", VDict [("DefinitionString", VStr "${x}"); ("DefinitionSubstitutions", VInt 5)])])])]);
   ("E2532", VDict [("Resources", VDict [("A", VDict [("Type", VStr "AWS::StepFunctions::StateMachine"); ("Properties", VDict [("DefinitionString", VDict [("Fn::Sub", VList [])])])])])]);
   ("E3017", VDict [("Conditions", VDict [("C", VDict [])]); ("Resources", VDict [("A", VDict [("Type", VStr "AWS::Events::Rule"); ("Properties", VDict [("Name", VDict [("Fn::If", VList [VList []; VDict []; VDict []])]); ("Description", VDict [("Fn::If", VList [VStr "C"; VDict []; VDict []])])])])])]);
   ("E3027", VDict [("Resources", VDict [("A", VDict [("Type", VStr "AWS::Events::Rule"); ("Properties", VDict [("ScheduleExpression", VBool true)])])])]);
   ("E3018", VDict [("Conditions", VDict [("C", VDict [])]); ("Resources", VDict [("A", VDict [("Type", VStr "AWS::Events::Rule"); ("Properties", VDict [("Name", VDict [("Fn::If", VList [VStr "C"; VStr "x"; VDict []])]); ("ScheduleExpression", VDict [("Fn::If", VList [VList []; VDict []; VDict []])])])])])]);
   ("E3012", VDict [("Resources", VDict [("A", VDict [("Type", VStr "AWS::Events::Rule"); ("Properties", VDict [("Targets", VList [VBool true])])])])]);
   ("W2510", VDict [("Parameters", VBool true); ("Resources", VDict [("A", VDict [("Type", VStr "AWS::Lambda::Function"); ("Properties", VDict [("MemorySize", VDict [("Ref", VStr "Size")])])])])]);
   ("E2531", VDict [("Resources", VDict [("A", VDict [("Type", VStr "AWS::Lambda::Function"); ("Properties", VDict [("Runtime", VList [VList []])])])])]);
   ("W2531", VDict [("Resources", VDict [("A", VDict [("Type", VStr "AWS::Lambda::Function"); ("Properties", VDict [("Runtime", VList [VList []])])])])]);
   ("W3037", VDict [("Resources", VDict [("A", VDict [("Type", VStr "AWS::SQS::QueuePolicy"); ("Properties", VDict [("PolicyDocument", VDict [("Statement", VList [VDict [("Action", VStr "")]])])])])])]);
   ("E2507", VDict [("Resources", VDict [("A", VDict [("Type", VStr "AWS::SQS::QueuePolicy"); ("Properties", VDict [("PolicyDocument", VDict [("Statement", VDict [("Fn::If", VList [VStr "C"; VInt 3; VDict []])])])])])])]);
   ("E3050", VDict [("Resources", VDict [("A", VDict [("Type", VStr "AWS::CodeBuild::Project"); ("Properties", VDict [("ServiceRole", VDict [("Ref", VList [])])])])])]);
   ("E3020", VDict [("Resources", VDict [("A", VDict [("Type", VStr "AWS::Route53::RecordSet"); ("Properties", VBool true)])])]);
   ("E3041", VDict [("Resources", VDict [("A", VDict [("Type", VStr "AWS::Route53::RecordSet"); ("Properties", VDict [("Name", VStr ""); ("HostedZoneName", VStr "other.com.")])])])]);
   ("E3039", VDict [("Resources", VDict [("A", VDict [("Type", VStr "AWS::DynamoDB::Table"); ("Properties", VDict [("AttributeDefinitions", VBool true)])])])]);
   ("I7012", VDict [("Mappings", VBool true)]);
   ("I7011", VDict [("Mappings", VBool true)]);
   ("I7010", VDict [("Mappings", VBool true)]);
   ("E7001", VDict [("Mappings", VBool true)]);
   ("E7003", VDict [("Mappings", VBool true)]);
   ("E7012", VDict [("Mappings", VBool true)]);
   ("E7011", VDict [("Mappings", VBool true)]);
   ("E7010", VDict [("Mappings", VBool true)]);
   ("E7002", VDict [("Mappings", VBool true)]);
   ("W7001", VDict [("AWSTemplateFormatVersion", VDict [("Fn::FindInMap", VList [])]); ("Mappings", VDict [("M", VDict [])])]);
   ("E4001", VDict [("Metadata", VBool true)]);
   ("W4001", VDict [("Metadata", VBool true)]);
   ("I6012", VDict [("Outputs", VBool true)]);
   ("I6011", VDict [("Outputs", VBool true)]);
   ("I6010", VDict [("Outputs", VBool true)]);
   ("E6001", VDict [("Outputs", VDict [("Ref", VInt 1)])]);
   ("E6005", VDict [("Outputs", VBool true)]);
   ("E6012", VDict [("Outputs", VBool true)]);
   ("E6011", VDict [("Outputs", VBool true)]);
   ("E6010", VDict [("Outputs", VBool true)]);
   ("E6004", VDict [("Outputs", VBool true)]);
   ("E6002", VDict [("Outputs", VBool true)]);
   ("E6003", VDict [("Outputs", VDict [("O", VDict [("Value", VDict [("Fn::GetAtt", VList [])])])])]);
   ("I1003", VDict [("Description", VBool true)]);
   ("E1003", VDict [("Description", VBool true)]);
   ("E1024", VDict [("Resources", VDict [("A", VDict [("Properties", VDict [("L", VDict [("Fn::Cidr", VList [VDict []; VInt 8])])])])])]);
   ("W1011", VDict [("Resources", VDict [("A", VDict [("Properties", VDict [("J", VDict [("Fn::FindInMap", VBool true)])])])])]);
   ("E1017", VDict [("Resources", VDict [("A", VDict [("Properties", VDict [("G", VDict [("Fn::Select", VList [VList []; VList []])])])])])]);
   ("E3016", VDict [("Resources", VDict [("Group", VDict [("Type", VStr "AWS::AutoScaling::AutoScalingGroup"); ("UpdatePolicy", VDict [("Fn::If", VList [VStr "C"; VInt 3; VDict []])])])])]);
   ("E2529", VDict [("Resources", VDict [("A", VDict [("Type", VStr "AWS::Logs::SubscriptionFilter")])])]);
   ("W2511", VDict [("Resources", VDict [("A", VDict [("Type", VStr "AWS::IAM::Role"); ("Properties", VDict [("Policies", VBool true)])])])]);
   ("E3013", VDict [("Resources", VDict [("A", VDict [("Type", VStr "AWS::CloudFront::Distribution"); ("Properties", VDict [("DistributionConfig", VBool true)])])])]);
   ("E3042", VDict [("Resources", VDict [("A", VDict [("Type", VStr "AWS::ECS::TaskDefinition"); ("Properties", VDict [("ContainerDefinitions", VBool true)])])])]);
   ("E2504", VDict [("Resources", VDict [("A", VDict [("Type", VStr "AWS::EC2::Instance"); ("Properties", VDict [("BlockDeviceMappings", VList [VBool true])])])])]);
   ("E3022", VDict [("Resources", VDict [("A", VDict [("Type", VStr "AWS::EC2::SubnetRouteTableAssociation"); ("Properties", VDict [("RouteTableId", VStr "R")]); ("Condition", VList [])])])]);
   ("E2506", VDict [("Resources", VDict [("A", VDict [("Type", VStr "AWS::EC2::SecurityGroup"); ("Properties", VBool true)])])]);
   ("E3026", VDict [("Resources", VDict [("A", VDict [("Type", VStr "AWS::ElastiCache::ReplicationGroup"); ("Properties", VDict [("CacheParameterGroupName", VDict [("Ref", VList [])])])])])]);
   ("E2503", VDict [("Resources", VDict [("A", VDict [("Type", VStr "AWS::ElasticLoadBalancingV2::LoadBalancer"); ("Properties", VDict [("LoadBalancerAttributes", VList [VBool true])])])])]);
   ("E3025", VDict [("Resources", VDict [("A", VDict [("Type", VStr "AWS::RDS::DBInstance")])])]);
   ("E2541", VDict [("Resources", VDict [("A", VDict [("Type", VStr "AWS::CodePipeline::Pipeline"); ("Properties", VBool true)])])]);
   ("E2540", VDict [("Resources", VDict [("A", VDict [("Type", VStr "AWS::CodePipeline::Pipeline"); ("Properties", VBool true)])])]);
   ("E3021", VDict [("Resources", VDict [("A", VDict [("Type", VStr "AWS::Events::Rule"); ("Properties", VDict [("Targets", VDict [("Fn::If", VList [VStr "C"; VNull; VDict []])])])])])]);
   ("W3002", VDict [("Resources", VDict [("A", VDict [("Type", VStr "AWS::Lambda::Function"); ("Properties", VDict [("Code", VDict [("Fn::If", VList [VStr "C"; VNull; VDict []])])])])])]);
   ("W3010", VDict [("Resources", VDict [("A", VDict [("Type", VStr "AWS::EC2::Instance"); ("Properties", VDict [("AvailabilityZone", VDict [("Fn::If", VList [VStr "C"; VNull; VDict []])])])])])]);
   ("E3503", VDict [("Resources", VDict [("A", VDict [("Type", VStr "AWS::CertificateManager::Certificate"); ("Properties", VDict [("DomainValidationOptions", VDict [("Fn::If", VList [VStr "C"; VNull; VDict []])])])])])])].
Definition crash_text (id why : string) : string := "Unknown exception while processing rule " ++ id ++ ": " ++ why.
Definition crashes_on (id : string) (t : val) : bool :=
  match snd (run_checks small_sp keeping all_rules ["us-east-1"] [] (crash_cfn t)) with
  | Findings l => existsb (fun f => String.eqb (f_rule f) "E0002" && existsb (fun why => String.eqb (f_msg f) (crash_text id why)) python_errors) l
  | Exit _ => false
  end.

Lemma all_loaded : with_shipped ample (shipped ample) /\ only_shipped ample (shipped ample).
Proof. apply loaded_with. apply Permutation_refl. Qed.
Lemma ample_sound id : sound_data ample id.
Proof.
  split.
  - intros _. eexists _, _, _. split; reflexivity.
  - intros _. split.
    + intros s [<-|[]]. eexists _, _. split; reflexivity.
    + intros v schema. change (w_validate ample v schema) with (needs_size v schema). unfold needs_size.
      destruct v; try (eexists; reflexivity). destruct (mem_assoc "Size" _); eexists; reflexivity.
Qed.
Definition object_template (t : val) : bool := match marked t with MDict _ _ => true | _ => false end.
Definition good_template (t : val) : bool :=
  object_template t && wfb (template (crash_cfn t)) && no_null (template (crash_cfn t)) && negb (wants_transform (template (crash_cfn t))).
Lemma templates_good : forallb (fun e => good_template (snd e)) crash_templates = true.
Proof. vm_compute. reflexivity. Qed.
Lemma templates_crash : forallb (fun e => crashes_on (fst e) (snd e)) crash_templates = true.
Proof. vm_compute. reflexivity. Qed.
Lemma templates_cover : forallb (fun id => smem id built_in_ids || smem id firm_ids || smem id (map fst crash_templates)) documented_ids = true.
Proof. vm_compute. reflexivity. Qed.

Lemma good_run t l : good_template t = true -> snd (run_checks small_sp keeping all_rules ["us-east-1"] [] (crash_cfn t)) = Findings l ->
  plain_run ample small_sp keeping all_rules ["us-east-1"] [] (crash_cfn t) l /\ no_null (template (crash_cfn t)) = true.
Proof.
  unfold good_template. intros H Hr. apply andb_true_iff in H as [H H4]. apply andb_true_iff in H as [H H3]. apply andb_true_iff in H as [H1 H2].
  apply negb_true_iff in H4. destruct all_loaded as [A B]. split; [|exact H3]. split; [exact A|]. split; [exact B|]. split; [exact small_spec_ok|].
  split; [apply e0002_iff; reflexivity|]. split; [exact H4|]. split; [reflexivity|]. split; [reflexivity|].
  split; [|split; [apply wfb_sound; exact H2 | exact Hr]].
  unfold object_template in H1. unfold crash_cfn. cbn [c_tmpl]. destruct (marked t); try discriminate. eexists _, _. reflexivity.
Qed.
Lemma crashes_sound id t : crashes_on id t = true -> exists l why, snd (run_checks small_sp keeping all_rules ["us-east-1"] [] (crash_cfn t)) = Findings l /\
  In why python_errors /\ crashed_by l id why.
Proof.
  unfold crashes_on. destruct (snd _) as [l|]; [|discriminate]. intros H. apply existsb_exists in H as [fi [Hfi H]]. apply andb_true_iff in H as [H1 H2].
  apply existsb_exists in H2 as [why [Hw H2]]. apply String.eqb_eq in H1, H2. exists l, why. split; [reflexivity|]. split; [exact Hw|]. exists fi. auto.
Qed.
Lemma others_crash : exists w sp tr k regions mandatory, (forall id, sound_data w id) /\ forall id, In id documented_ids -> ~ In id built_in_ids -> ~ In id firm_ids ->
  exists c l why, plain_run w sp tr k regions mandatory c l /\ no_null (template c) = true /\ In why python_errors /\ crashed_by l id why.
Proof.
  exists ample, small_sp, keeping, all_rules, ["us-east-1"], []. split; [exact ample_sound|]. intros id Hd Hb Hf.
  pose proof (proj1 (forallb_forall _ _) templates_cover id Hd) as H. apply orb_true_iff in H as [H|H].
  { apply orb_true_iff in H as [H|H]; apply smem_iff in H; contradiction. }
  apply smem_iff in H. apply in_map_iff in H as [[i t] [E H]]. cbn [fst] in E. subst i.
  pose proof (proj1 (forallb_forall _ _) templates_good _ H) as G. pose proof (proj1 (forallb_forall _ _) templates_crash _ H) as C. cbn [fst snd] in G, C.
  destruct (crashes_sound _ _ C) as (l & why & Hr & Hw & Hc). destruct (good_run t l G Hr) as [P N]. exists (crash_cfn t), l, why. auto.
Qed.
Lemma firm_are_documented : NoDup firm_ids /\ forall id, In id firm_ids -> In id documented_ids /\ ~ In id built_in_ids.
Proof.
  split; [apply (NoDup_count_occ' string_dec); intros x H; revert x H; apply Forall_forall; repeat constructor|].
  intros id H. assert (K : forallb (fun i => smem i documented_ids && negb (smem i built_in_ids)) firm_ids = true) by (vm_compute; reflexivity).
  pose proof (proj1 (forallb_forall _ _) K id H) as L. apply andb_true_iff in L as [L1 L2]. split; [now apply smem_iff|].
  intros B. apply smem_iff in B. rewrite B in L2. discriminate.
Qed.
(** A template with faults that several of these rules report. *)
Definition faulty_sections : val := VDict
  [("AWSTemplateFormatVersion", VStr "2010"); ("Extra", VStr "x"); ("Resources", VDict [("A", VDict [("Type", VStr "AWS::Events::Rule"); ("DeletionPolicy", VStr "Never");
     ("Properties", VDict [("Name", VDict [("Fn::Sub", VList [VStr "${B}"; VDict [("B", VStr "b"); ("Unused", VStr "c")]])])])])])].
Lemma firm_case : exists w sp tr k regions mandatory c l, plain_run w sp tr k regions mandatory c l /\ (forall id, sound_data w id) /\
  (exists fi, In fi l /\ f_rule fi = "E1001") /\ (exists fi, In fi l /\ f_rule fi = "E3035") /\ (exists fi, In fi l /\ f_rule fi = "W1019").
Proof.
  destruct (snd (run_checks small_sp keeping all_rules ["us-east-1"] [] (crash_cfn faulty_sections))) as [l|] eqn:E; [|exfalso; vm_compute in E; discriminate].
  exists ample, small_sp, keeping, all_rules, ["us-east-1"], [], (crash_cfn faulty_sections), l.
  split; [apply (good_run faulty_sections l); [vm_compute; reflexivity | exact E]|]. split; [exact ample_sound|].
  assert (K : forall id, match snd (run_checks small_sp keeping all_rules ["us-east-1"] [] (crash_cfn faulty_sections)) with Findings l => existsb (fun f => String.eqb (f_rule f) id) l | _ => false end = true ->
    exists fi, In fi l /\ f_rule fi = id).
  { intros id. rewrite E. intros H. apply existsb_exists in H as [fi [H1 H2]]. apply String.eqb_eq in H2. eauto. }
  split; [|split]; apply K; vm_compute; reflexivity.
Qed.
(** Without the data the two rules rely on, they do end in exceptions. *)
Definition typed_template : val := VDict [("Resources", VDict [("A", VDict [("Type", VStr "AWS::Events::Rule")])])].
Lemma data_needed w id : (w = ample_with [] [] /\ id = "E3001") \/ (w = ample_with [] [VDict []] /\ id = "E3000") ->
  exists sp tr k regions mandatory c l why, plain_run w sp tr k regions mandatory c l /\ In why python_errors /\ crashed_by l id why.
Proof.
  intros H.
  exists small_sp, keeping, (mkColl (shipped w) everything), ["us-east-1"], [], (crash_cfn typed_template).
  assert (K : exists l why, snd (run_checks small_sp keeping (mkColl (shipped w) everything) ["us-east-1"] [] (crash_cfn typed_template)) = Findings l /\ In why python_errors /\ crashed_by l id why).
  { assert (C : match snd (run_checks small_sp keeping (mkColl (shipped w) everything) ["us-east-1"] [] (crash_cfn typed_template)) with
      | Findings l => existsb (fun f => String.eqb (f_rule f) "E0002" && existsb (fun why => String.eqb (f_msg f) (crash_text id why)) python_errors) l | Exit _ => false end = true)
      by (destruct H as [[-> ->]|[-> ->]]; vm_compute; reflexivity).
    destruct (snd _) as [l|]; [|discriminate]. apply existsb_exists in C as [fi [Hfi C]]. apply andb_true_iff in C as [H1 H2].
    apply existsb_exists in H2 as [why [Hw H2]]. apply String.eqb_eq in H1, H2. exists l, why. split; [reflexivity|]. split; [exact Hw|]. exists fi. auto. }
  destruct K as (l & why & Hr & Hw & Hc). exists l, why. split; [|split; [exact Hw | exact Hc]].
  destruct (loaded_with w _ (Permutation_refl _)) as [A B].
  split; [exact A|]. split; [exact B|]. split; [exact small_spec_ok|]. split; [apply e0002_iff; reflexivity|]. split; [reflexivity|].
  split; [destruct H as [[-> _]|[-> _]]; reflexivity|]. split; [destruct H as [[-> _]|[-> _]]; reflexivity|].
  split; [eexists _, _; reflexivity|]. split; [apply wfb_sound; vm_compute; reflexivity | exact Hr].
Qed.
Lemma data_refuted : exists w id sp tr k regions mandatory c l, In id firm_ids /\ plain_run w sp tr k regions mandatory c l /\ crashed l id.
Proof.
  destruct (data_needed _ _ (or_introl (conj eq_refl eq_refl))) as (sp & tr & k & rg & man & c & l & why & P & _ & C).
  exists (ample_with [] []), "E3001", sp, tr, k, rg, man, c, l. split; [apply smem_iff; reflexivity|]. split; [exact P|]. exists why. exact C.
Qed.
