(** C97: samples. *)
From Coq Require Import List String Permutation QArith ZArith Relations.
From Verif.Model Require Import Base Locate Helpers Node Conditions Search Resolve Rules Runner Config Core Relationship JsonDump PropertyRules Limits Shape Graph PropertyTree Interface Registry SubProps Ec2 Rds Lambda Elb ElastiCache Pipelines Route53 Events JsonSize Functions ParameterValues Standard.
From Verif.Spec Require Import Pipeline Paths Branches References Walk Resolved Groups Nested SameJson Limited ConditionUse Faults Protect Interface Registry Dependencies Sensitive ParameterValues UpdatePolicy Lambda SubProps Ec2 Rds Pipelines Records Clusters Attributes Permissions Expected Events JsonSize Shipped ShippedPlaces.
From Verif.Proofs Require Import BaseFacts WfDecide PropertyRuleProofs GroupWitness PropertyWitness IamWitness GraphProofs DuplicateWitness RegistryWitness SubPropsWitness RecordWitness Ec2Witness RdsWitness StageWitness ActionWitness ClusterWitness ElbWitness EventWitness JsonSizeWitness LambdaWitness UpdatePolicyWitness InterfaceProofs ValueWitness ExpectedWitness
  PipelineProofs ReportProofs ShapeProofs PlaceholderProofs StandardProofs StandardMain StandardRules StandardWitness StandardPropWitness StandardFunctionWitness Samples.
Import Verif.Model.Rules.
Import ListNotations.
Local Open Scope string_scope.

(** A world in which all of the data files say something. *)
Definition equipped (float_text : Q -> string) : world := mkWorld
  template (fun _ => VDict []) (fun _ => Some 100%Z) ["us-east-1"; "eu-west-1"; "nowhere"]
  doc_types [] [] [size_schema] [] (fun _ _ => None) tree_resources tree_properties tree_intrinsics
  [] [] ([], []) ([], []) ([], []) ([], []) ([], []) [] [] sample_classes doc_max
  (fun _ => 0%Z) 10%Z (fun l => l) (fun l => l) 10%nat
  (fun _ => "") (fun _ => "") (fun _ => "") (fun _ => "") (fun s => s) float_text (fun _ => None) (fun _ => false) (fun _ => false)
  (fun r s => false) (fun _ _ => Some true) (fun s => s) (fun _ => None) (fun _ => inl "no JSON") needs_size (fun s => Ok s) (fun _ => false) "" find_cycle_dfs.
Definition lintable (w : world) (sp : spec) (c : cfn) (id : string) : bool :=
  match get_directives (c_tmpl c), snd (run_checks sp no_translator (mkColl (shipped w) informed) ["us-east-1"] [] c) with
  | Ok [], Findings l => existsb (fun fi => String.eqb (f_rule fi) id) l && is_enabled id false false [] ["W"; "E"; "I"] [] && negb (wants_transform (template c))
  | _, _ => false
  end.
(** A run with all of the shipped rules, in which the rule [id] is among the findings. *)
Definition linted (w : world) (sp : spec) (c : cfn) (id : string) : Prop :=
  exists l, lints w sp no_translator (mkColl (shipped w) informed) ["us-east-1"] [] c [] id l /\ exists fi, In fi l /\ f_rule fi = id.
Lemma lintable_sound f sp c id : spec_ok sp -> (exists m d, c_tmpl c = MDict m d) -> lintable (equipped f) sp c id = true -> linted (equipped f) sp c id.
Proof.
  intros Hs Hm. unfold lintable. destruct (get_directives (c_tmpl c)) as [[|x ds]|e] eqn:Ed; try discriminate.
  destruct (snd (run_checks sp no_translator (mkColl (shipped (equipped f)) informed) ["us-east-1"] [] c)) as [l|] eqn:El; try discriminate. intros H.
  apply andb_prop in H as [H H3]. apply andb_prop in H as [H1 H2]. exists l. split.
  - split; [exact (proj1 (loaded_with (equipped f) _ (Permutation_refl _)))|]. split; [exact Hs|]. split; [apply e0002_iff; reflexivity|].
    split; [apply is_enabled_spec; exact H2|]. split; [split; [|split; [intros _|]; reflexivity]; destruct (wants_transform (template c)); [discriminate H3 | reflexivity]|]. auto.
  - apply existsb_exists in H1 as [fi [A B]]. exists fi. split; [exact A|]. now apply String.eqb_eq.
Qed.
Ltac lint := apply lintable_sound; [exact small_spec_ok | eexists; eexists; reflexivity | vm_compute; reflexivity].
Definition half : world := equipped float_half.
Definition dots : world := equipped sample_float.
(** One template for the rules about the template as a whole. *)
Definition faulty_outline : val := VDict
  [("AWSTemplateFormatVersion", VStr "2010-09-09"); ("Description", VList [VStr "x"]); ("Comment", VStr "x");
   ("Parameters", VDict [("P", VDict [("Type", VStr "String"); ("Default", VDict [("Ref", VStr "AWS::Region")])])]);
   ("Mappings", VDict [("M", VDict [("k", VDict [("a b", VStr "x"); ("ab", VStr "y")])])]);
   ("Resources", VDict [("F", VDict [("Type", VStr "AWS::Serverless::Function")])]);
   ("Outputs", VDict [("O", VDict [("Value", VDict [("Fn::ImportValue", VStr "other")])])])].
Definition outline_cfn : cfn := mkCfn "t.yaml" "us-east-1" (marked faulty_outline).
Lemma run_outline : forall id, In id ["E7003"; "E1001"; "E1004"; "E2014"; "E3038"; "W6001"] -> linted dots small_sp outline_cfn id.
Proof. intros id H. repeat (destruct H as [<-|H]; [lint|]). destruct H. Qed.
Lemma outline_example : (forall id, In id ["E7003"; "E1001"; "E1004"; "E2014"; "E3038"; "W6001"] -> linted dots small_sp outline_cfn id) /\ wf (template outline_cfn) /\
  (exists d, template outline_cfn = VDict d) /\
  section (template outline_cfn) "Mappings" [("M", VDict [("k", VDict [("a b", VStr "x"); ("ab", VStr "y")])])] /\
  (forall n m k x a y, In (n, VDict m) [("M", VDict [("k", VDict [("a b", VStr "x"); ("ab", VStr "y")])])] -> In (k, VDict x) m -> In (a, y) x -> forall t, a <> (t ++ String "010" "")).
Proof.
  split; [exact run_outline|]. split; [apply wfb_sound; reflexivity|]. split; [eexists; reflexivity|]. split.
  - eexists. split; reflexivity.
  - intros n m k x a y [K1|[]] K2 H t Ht. injection K1 as <- <-. destruct K2 as [K2|[]]. injection K2 as <- <-. assert (A : In "010"%char (list_ascii_of_string a)) by (rewrite Ht; clear; induction t as [|b t IH]; [now left | now right]).
    destruct H as [[= <- <-]|[[= <- <-]|[]]]; cbn in A; intuition discriminate.
Qed.
Lemma interface_run : linted dots small_sp interface_cfn "E4001" /\ linted dots small_sp interface_cfn "W4001" /\ interface_shaped (template interface_cfn) sample_interface.
Proof. split; [lint|]. split; [lint|]. exact (proj1 interface_example). Qed.
Lemma policy_run : linted dots small_sp policy_cfn "E3016" /\ wf (template policy_cfn) /\ (forall name t u, has_policy (template policy_cfn) name t u -> policy_shaped u (policy_place name)).
Proof. split; [lint|]. split; apply policy_example. Qed.
Lemma registry_run : let c := mkCfn "t.yaml" "us-east-1" (marked two_disks) in linted half small_sp c "E3000" /\ plain_float (w_float_text half) /\ (exists d, template c = VDict d) /\
  (forall schema, In schema (w_registry half) -> exists ty, schema_of schema ty) /\
  (forall schema ty name props, In schema (w_registry half) -> schema_of schema ty -> typed_resource (template c) name ty props ->
     is_str props = false /\ closed_references props /\ (with_dynamic props \/ with_syntax props \/ exists r, w_validate half props schema = Ok r)).
Proof. cbv zeta. split; [lint|]. destruct registry_example as (H1 & H2 & _ & H3 & H4 & _). split; [exact H1|]. split; [eexists; reflexivity|]. split; [exact H3 | exact H4]. Qed.
Lemma ring_run : let c := cfn_of ring in linted dots small_sp c "E3004" /\ finds_cycles (w_find_cycle dots) /\ wf (template c) /\ plain_functions (template c).
Proof. cbv zeta. split; [lint|]. split; [exact find_cycle_dfs_contract|]. split; [exact ring_wf | exact ring_plain]. Qed.
Lemma secrets_run : let c := cfn_of value_template in linted dots small_sp c "W2501" /\ linted dots small_sp c "W2506" /\ wf (template c) /\ plain_sections (template c) /\ no_stray (template c) (VDict []) /\
  image_parameters_only (template c) /\
  (forall p y, ConditionUse.occurs "ImageId" (template c) (VDict []) p (VDict [("Ref", y)]) -> into_resources p -> exists n, y = VStr n /\ (unambiguous (template c) n \/ unknown (template c) n)).
Proof. cbv zeta. split; [lint|]. split; [lint|]. change (template (cfn_of value_template)) with value_template. split; [exact (proj1 value_wf)|]. split; [exact value_plain|]. split; [exact value_stray|]. split; [exact image_only | exact image_refs]. Qed.
Lemma tree_run : let c := cfn_of (tree_template bad_props) in let rts := w_resource_objects dots in linted dots small_sp c "E3002" /\ wf (template c) /\ plain_sections (template c) /\ text_types (template c) /\
  (forall parent, In parent (keys rts) -> complete rts (w_property_objects dots) parent) /\
  (forall name rt props, described_resource rts (template c) name rt props -> judgeable (template c) props /\ forall c a b, Expected.inside props (If_of (VList [c; a; b])) -> ~ is_if a /\ ~ is_if b).
Proof.
  cbv zeta. split; [lint|]. change (template (cfn_of (tree_template bad_props))) with (tree_template bad_props). split; [exact tree_wf|]. split; [exact tree_plain|]. split; [exact tree_types|]. split; [exact tree_complete|].
  intros name rt props H. split; [exact (tree_judgeable name rt props H)|].
  assert (K : In props [VDict [("Anything", VStr "x")]; VDict bad_props]).
  { destruct H as [o [rt' [[d [s [[= <-] [[= <-] E]]]] [_ [Ep _]]]]]. cbn [assoc] in E. destruct (String.eqb name "Custom"); [injection E as <-; injection Ep as <-; now left|].
    destruct (String.eqb name "Generic"); [injection E as <-; discriminate|]. destruct (String.eqb name "Server"); [|discriminate]. injection E as <-. injection Ep as <-. right. now left. }
  intros c a b Hi. apply inside_sub in Hi. destruct K as [<-|[<-|[]]]; vm_compute in Hi; repeat (destruct Hi as [Hi|Hi]; [try discriminate Hi; injection Hi as <- <- <-; split; intros [z K]; discriminate K|]); destruct Hi.
Qed.
Lemma filter_run : let c := cfn_of filter_template in linted dots small_sp c "E2529" /\ float_texts (w_float_text dots) /\ wf (template c) /\ exists fs, filters (template c) fs /\ (forall n g, In (n, g) fs -> small g).
Proof. cbv zeta. split; [lint|]. destruct filter_example as (H1 & H2 & (l & H3 & H4 & _) & _). split; [exact H1|]. split; [exact H2|]. exists l. auto. Qed.
Lemma device_run : let c := cfn_of (with_resource "AWS::EC2::Instance" device_props) in linted dots small_sp c "E2504" /\ wf (template c) /\ (forall rt, In rt device_types -> unlisted (template c) rt) /\ devices_shaped (template c).
Proof. cbv zeta. split; [lint|]. destruct device_example as (H1 & H2 & H3 & _). auto. Qed.
Lemma alias_run : let c := cfn_of (with_resource "AWS::CloudFront::Distribution" (config_of sample_aliases)) in linted dots small_sp c "E3013" /\ wf (template c) /\ unlisted (template c) "AWS::CloudFront::Distribution" /\ aliases_shaped (template c).
Proof. cbv zeta. split; [lint|]. destruct alias_example as (H1 & H2 & H3 & _). auto. Qed.
Lemma container_run : let c := cfn_of (with_resource "AWS::ECS::TaskDefinition" [("ContainerDefinitions", VList sample_containers)]) in
  linted dots small_sp c "E3042" /\ wf (template c) /\ unlisted (template c) "AWS::ECS::TaskDefinition" /\ containers_shaped (template c).
Proof. cbv zeta. split; [lint|]. destruct container_example as (H1 & H2 & H3 & _). auto. Qed.
Lemma record_run : let c := cfn_of (with_resource "AWS::Route53::RecordSetGroup" bad_records) in linted dots small_sp c "E3020" /\ wf (template c) /\ records_shaped (template c) /\ unconditional_names (template c) (VDict []).
Proof. cbv zeta. split; [lint|]. destruct records_example as (H1 & H2 & H3 & _). auto. Qed.
Lemma ingress_run : let c := cfn_of (group_of_rules [("VpcId", VStr "v")] [VDict [("SourceSecurityGroupId", VStr "g")]; VDict [("SourceSecurityGroupName", VStr "n")]]) in
  linted dots small_sp c "E2506" /\ wf (template c) /\ ingress_shaped (template c).
Proof. cbv zeta. split; [lint|]. destruct ingress_example as (H1 & H2 & _). auto. Qed.
Lemma route_run : let c := cfn_of same_subnet in linted dots small_sp c "E3022" /\ wf (template c) /\ associations_shaped (template c).
Proof. cbv zeta. split; [lint|]. destruct routes_example as (H1 & H2 & _). auto. Qed.
Lemma class_run : let c := cfn_of (with_resource "AWS::RDS::DBInstance" sample_db) in linted dots small_sp c "E3025" /\ wf (template c) /\ instances_shaped (w_classes dots) (template c).
Proof. cbv zeta. split; [lint|]. destruct classes_example as (H1 & H2 & _). auto. Qed.
Lemma stage_run : let c := cfn_of (pipeline_template (VList bad_stages)) in linted dots small_sp c "E2540" /\ wf (template c) /\
  (forall name attrs, resource_of (template c) name "AWS::CodePipeline::Pipeline" attrs -> assoc "Properties" attrs = None \/ exists d, assoc "Properties" attrs = Some (VDict d)) /\
  (forall name d, pipeline (template c) name d -> ~ In name FUNCTIONS /\
     forall v, assoc "Stages" d = Some v -> tidy v /\ (forall n, ~ rests_on v n) /\ forall l, v = VList l -> stages_shaped l).
Proof. cbv zeta. split; [lint|]. destruct stages_example as (H1 & _ & _ & H2 & H3 & _). split; [exact H1|]. split; [exact H2|]. intros name d H. destruct (H3 name d H) as (A & _ & B). auto. Qed.
Lemma action_run : let c := cfn_of (pipeline_template (VList bad_phases)) in linted dots small_sp c "E2541" /\ wf (template c) /\
  (forall name attrs, resource_of (template c) name "AWS::CodePipeline::Pipeline" attrs -> assoc "Properties" attrs = None \/ exists d, assoc "Properties" attrs = Some (VDict d)) /\
  (forall name d, pipeline (template c) name d -> d = [] \/ exists l, assoc "Stages" d = Some (VList l) /\ Pipelines.actions_shaped l).
Proof. cbv zeta. split; [lint|]. destruct actions_example as (H1 & _ & H2 & H3 & _). auto. Qed.
Lemma cluster_run_example : let c := cfn_of (cluster_template sample_cluster settings_yes) in linted dots small_sp c "E3026" /\ wf (template c) /\ plain_conditions (template c) /\ (forall x, Permutation (w_order dots x) x) /\
  forall b d p, properties_of (template c) "AWS::ElastiCache::ReplicationGroup" d p -> p <> props_path "Fn::If" /\ plain_object d /\ (forall n, ~ members_look_at d n) /\ group_shaped d /\
     (forall g, uses_group d g -> no_resource (template c) g \/ exists s, settings_of (template c) g s) /\
     (forall g s, uses_group d g -> settings_of (template c) g s -> plain_object s /\ (forall n, ~ members_look_at s n) /\
        forall d' s', deployed b d d' -> deployed b s s' -> cluster_shaped d' s').
Proof.
  cbv zeta. split; [lint|]. destruct cluster_example as (H1 & H2 & H3 & H4 & H5 & H6 & H7 & H8 & H9 & H10 & H11 & H12 & H13 & _). split; [exact H1|]. split; [exact H2|]. split; [intros x; apply Permutation_refl|].
  intros b d p (name & attrs & [top [rs [E1 [E2 [E3 E4]]]]] & Ep & ->). injection E1 as <-. injection E2 as <-. destruct E3 as [[= <- <-]|[[= <- <-]|[]]]; [|discriminate E4]. injection Ep as <-.
  split; [discriminate|]. split; [exact H4|]. split; [exact H5|]. split; [exact H6|]. split; [intros g Hg; rewrite (H8 g Hg); right; exists settings_yes; exact H9|].
  intros g s Hg Hs. rewrite (H8 g Hg) in Hs. assert (s = settings_yes) as ->.
  { destruct Hs as [o [[[t [rs [E1 [E2 E3]]]] _] Ho]]. injection E1 as <-. injection E2 as <-. injection E3 as <-. destruct Ho as [[E _]|[ps [E Ho]]]; [discriminate E|]. injection E as <-.
    destruct Ho as [[E _]|E]; [discriminate E|]. now injection E. } split; [exact H10|]. split; [exact H11|]. intros d' s' D1 D2. destruct (H12 b d' s' D1 D2) as [-> ->]. exact H13.
Qed.
Lemma listener_run : let c := cfn_of (with_resource "AWS::ElasticLoadBalancing::LoadBalancer" bad_listeners) in linted dots small_sp c "E2503" /\ wf (template c) /\ listeners_shaped (template c) /\
  forall d p, ~ properties_of (template c) "AWS::ElasticLoadBalancingV2::LoadBalancer" d p.
Proof.
  cbv zeta. split; [lint|]. destruct listener_example as (H1 & H2 & _). split; [exact H1|]. split; [exact H2|]. intros d p (name & attrs & H & _). apply only_resource in H as (_ & K & _). discriminate K.
Qed.
Lemma balancer_run : let c := cfn_of (with_resource "AWS::ElasticLoadBalancingV2::LoadBalancer" bad_application) in linted dots small_sp c "E2503" /\ wf (template c) /\ listeners_shaped (template c) /\
  (forall d p, properties_of (template c) "AWS::ElasticLoadBalancingV2::LoadBalancer" d p -> (forall n, p = props_path n -> ~ In n FUNCTIONS) /\ tidy (VDict d) /\ ~ In "Fn::If" (keys d) /\ VDict d <> no_value /\
     (forall n, ~ rests_on (VDict d) n) /\ balancer_shaped d).
Proof.
  cbv zeta. split; [lint|]. destruct balancer_example as (H1 & _ & _ & H2 & _ & _ & H3 & H4 & H5 & H6 & H7 & _). split; [exact H1|]. split.
  - split; [|split].
    + intros name attrs H. apply only_resource in H as (_ & K & _). discriminate K.
    + intros name attrs H. apply only_resource in H as (_ & K & _). discriminate K.
    + intros d p known secure cert x q H. exfalso. destruct H as [? ? ? H _|? ? ? ? ? ? H _]; apply only_resource in H as (_ & K & _); discriminate K.
  - intros d p (name & attrs & H & Hp & ->). apply only_resource in H as (-> & _ & ->). injection Hp as <-. split; [intros n [= <-]; exact H2|]. auto 8.
Qed.
Lemma target_run : let c := cfn_of event_template in linted dots small_sp c "E3021" /\ wf (template c) /\
  (forall n attrs pd, resource_of (template c) n "AWS::Events::Rule" attrs -> assoc "Properties" attrs = Some (VDict pd) -> targets_shaped pd /\ without "." n).
Proof. cbv zeta. split; [lint|]. split; [exact (proj1 schedule_example) | exact (proj1 target_example)]. Qed.
Lemma json_run : let c := cfn_of (group_template [("Doc", long_doc)]) in let rs := w_rspec half in linted half small_sp c "E3502" /\ wf (template c) /\ objects_nested small_sp (rs_property_types rs) (template c) /\
  (forall n d p specs, object_with small_sp (rs_resource_types rs) (rs_property_types rs) (template c) n d p specs ->
     plain_path p /\ tidy (VDict d) /\ ~ is_if (VDict d) /\ ~ In "Ref" (keys specs) /\ limits_known (w_json_max half) specs /\ (forall n, ~ rests_on (VDict d) n) /\
     (forall prop ps limit x, assoc prop specs = Some ps -> json_limit (w_json_max half) ps limit -> assoc prop d = Some x -> subs_written x)).
Proof.
  cbv zeta. split; [lint|]. destruct json_size_example as (H1 & _ & _ & _ & H2 & _ & H3 & H4 & H5 & H6 & _ & H7 & _). split; [exact H1|]. split; [intros n v q _ []|].
  intros n d p specs [[(name & attrs & Hr & Hp & ->) Ha]|[_ Ha]]; [|discriminate Ha]. cbn in Ha. destruct (String.eqb n "AWS::X::Table"); [|discriminate Ha]. injection Ha as <-.
  destruct Hr as [top [rs [E1 [E2 [E3 E4]]]]]. injection E1 as <-. injection E2 as <-. destruct E3 as [[= <- <-]|[]]. injection Hp as <-.
  split; [exact H2|]. split; [exact H3|]. split; [exact H5|]. split; [cbn; intuition discriminate|]. split; [exact H6|]. split; [exact H4|].
  intros prop ps limit x K _ Ex. apply only_doc in K as [-> ->]. injection Ex as <-. exact H7.
Qed.
