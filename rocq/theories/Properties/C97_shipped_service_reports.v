(** C97 What a run with the shipped rules reports of services. *)
From Coq Require Import List String ZArith QArith Bool Permutation Relations.
Import ListNotations.
From Verif.Model Require Import Base Node Locate Helpers Rules Runner Config Core Conditions Relationship Resolve SubProps Ec2 Rds Lambda Elb ElastiCache Pipelines Route53 Standard.
From Verif.Spec Require Import Pipeline Paths Branches References Walk Resolved Groups SameJson Lambda SubProps Nested Ec2 Rds Pipelines Records Clusters Shipped ShippedPlaces.
From Verif.Proofs Require Import StandardServices Samples RuleSetWitness StandardWitness StandardPropWitness StandardFunctionWitness PropertyRuleProofs GroupWitness PropertyWitness IamWitness GraphProofs DuplicateWitness RegistryWitness SubPropsWitness RecordWitness Ec2Witness RdsWitness StageWitness ActionWitness ClusterWitness ElbWitness EventWitness JsonSizeWitness LambdaWitness UpdatePolicyWitness InterfaceProofs ValueWitness ExpectedWitness StandardServiceWitness.
Import Verif.Model.Rules.
Local Open Scope string_scope.

(** Exactly the third and further filters of a log group are reported.  Missing: groups that are not small.  In a run, save where suppressed or told already. *)
Theorem third_filters_reported_partial : forall w sp tr k rg man c ds l fs,
  lints w sp tr k rg man c ds "E2529" l -> float_texts (w_float_text w) -> wf (template c) -> filters (template c) fs -> (forall n g, In (n, g) fs -> small g) ->
  tells_exactly c man ds l "E2529" (fun q words => exists n, third fs n /\ q = [PKey "Resources"; PKey n] /\ words = "You can only have 2 Subscription Filters per CloudWatch Log Group").
Proof. exact srv_E2529. Qed.
Print Assumptions third_filters_reported_partial.

(** Exactly the faults of block devices are reported.  Missing: devices of other shapes.  In a run, save where suppressed or told already. *)
Theorem devices_reported_partial : forall w sp tr k rg man c ds l,
  lints w sp tr k rg man c ds "E2504" l -> wf (template c) -> (forall rt, In rt device_types -> unlisted (template c) rt) -> devices_shaped (template c) ->
  tells_exactly c man ds l "E2504" (fun q words => exists rt ms p i d ws, In rt device_types /\ property_at (template c) rt "BlockDeviceMappings" (VList ms) p /\ nth_error ms i = Some (VDict d) /\
    device_fault d (p ++ [PIdx i])%list q ws /\ words = ws ++ path_text q).
Proof. exact srv_E2504. Qed.
Print Assumptions devices_reported_partial.

(** Exactly the faults of the aliases of distributions are reported.  Missing: aliases of other shapes.  In a run, save where suppressed or told already. *)
Theorem aliases_reported_partial : forall w sp tr k rg man c ds l,
  lints w sp tr k rg man c ds "E3013" l -> wf (template c) -> unlisted (template c) "AWS::CloudFront::Distribution" -> aliases_shaped (template c) ->
  tells_exactly c man ds l "E3013" (fun q words => exists d p al s, property_at (template c) "AWS::CloudFront::Distribution" "DistributionConfig" (VDict d) p /\ assoc "Aliases" d = Some (VList al) /\ In (VStr s) al /\
    alias_fault s words /\ q = (p ++ [PKey "Aliases"])%list).
Proof. exact srv_E3013. Qed.
Print Assumptions aliases_reported_partial.

(** Exactly the tasks without essential container are reported.  Missing: containers of other shapes.  In a run, save where suppressed or told already. *)
Theorem containers_reported_partial : forall w sp tr k rg man c ds l,
  lints w sp tr k rg man c ds "E3042" l -> wf (template c) -> unlisted (template c) "AWS::ECS::TaskDefinition" -> containers_shaped (template c) ->
  tells_exactly c man ds l "E3042" (fun q words => exists cs, property_at (template c) "AWS::ECS::TaskDefinition" "ContainerDefinitions" (VList cs) q /\ none_essential cs /\
    words = "No essential containers defined for " ++ path_text q).
Proof. exact srv_E3042. Qed.
Print Assumptions containers_reported_partial.

(** Exactly the faults of record sets are reported.  Missing: record sets of other shapes and names under conditions.  In a run, save where suppressed or told already. *)
Theorem records_reported_partial : forall w sp tr k rg man c ds l,
  lints w sp tr k rg man c ds "E3020" l -> wf (template c) -> records_shaped (template c) -> unconditional_names (template c) (VDict []) ->
  tells_exactly c man ds l "E3020" (fun q words => exists d p ty x, record_set (template c) d p /\ records_of d ty x /\
    ((exists s, single x (p ++ [PKey "ResourceRecords"])%list (VStr s) q /\ record_fault (w_ipv6 w) q ty s words) \/
     (ty = "CNAME" /\ exists rl, x = VList rl /\ 1 < List.length rl /\ q = (p ++ [PKey "ResourceRecords"])%list /\ words = "A CNAME recordset can only contain 1 value"))).
Proof. exact srv_E3020. Qed.
Print Assumptions records_reported_partial.

(** Exactly the faults of ingress rules are reported.  Missing: ingress rules of other shapes.  In a run, save where suppressed or told already. *)
Theorem ingress_reported_partial : forall w sp tr k rg man c ds l,
  lints w sp tr k rg man c ds "E2506" l -> wf (template c) -> ingress_shaped (template c) ->
  tells_exactly c man ds l "E2506" (fun q words => exists ws, ingress_fault (template c) q ws /\ words = ws ++ path_text q).
Proof. exact srv_E2506. Qed.
Print Assumptions ingress_reported_partial.

(** Each association of a subnet that others use too is reported once, and nothing else is.  Missing: associations of other shapes.  In a run, save where suppressed or told already. *)
Theorem subnets_reported_partial : forall w sp tr k rg man c ds l,
  lints w sp tr k rg man c ds "E3022" l -> wf (template c) -> associations_shaped (template c) ->
  tells_each c man ds l "E3022" (fun u : string * option string * option string * string => let '(name, rc, pc, s) := u in uses (template c) name rc pc s /\ exists o, also_uses (template c) name rc pc s o)
    (fun u q words => let '(name, rc, pc, s) := u in q = [PKey "Resources"; PKey name; PKey "Properties"; PKey "SubnetId"] /\
       exists os, (forall o, In o os <-> also_uses (template c) name rc pc s o) /\ words = "SubnetId in " ++ name ++ " is also associated with " ++ join_str ", " os).
Proof. exact srv_E3022. Qed.
Print Assumptions subnets_reported_partial.

(** Exactly the instance classes of databases are reported that are not offered.  Missing: instances of other shapes.  In a run, save where suppressed or told already. *)
Theorem instance_classes_reported_partial : forall w sp tr k rg man c ds l,
  lints w sp tr k rg man c ds "E3025" l -> wf (template c) -> instances_shaped (w_classes w) (template c) ->
  tells_exactly c man ds l "E3025" (fun q words => exists name d p, db_instance (template c) name d p /\ class_fault (w_classes w) (w_regions w) d words /\ q = (p ++ [PKey "DBInstanceClass"])%list).
Proof. exact srv_E3025. Qed.
Print Assumptions instance_classes_reported_partial.

(** Exactly the faults of the stages of pipelines are reported.  Missing: stages of other shapes, and under conditions.  In a run, save where suppressed or told already. *)
Theorem stages_reported_partial : forall w sp tr k rg man c ds l,
  lints w sp tr k rg man c ds "E2540" l -> wf (template c) ->
  (forall name attrs, resource_of (template c) name "AWS::CodePipeline::Pipeline" attrs -> assoc "Properties" attrs = None \/ exists d, assoc "Properties" attrs = Some (VDict d)) ->
  (forall name d, pipeline (template c) name d -> ~ In name FUNCTIONS /\
     forall v, assoc "Stages" d = Some v -> tidy v /\ (forall n, ~ rests_on v n) /\ forall l, v = VList l -> stages_shaped l) ->
  tells_exactly c man ds l "E2540" (fun q words => exists name d sl r, pipeline (template c) name d /\ assoc "Stages" d = Some (VList sl) /\ stages_fault sl r words /\
    q = ([PKey "Resources"; PKey name; PKey "Properties"] ++ [PKey "Stages"] ++ r)%list).
Proof. exact srv_E2540. Qed.
Print Assumptions stages_reported_partial.

(** Exactly the faults of the actions of pipelines are reported.  Missing: actions of other shapes.  In a run, save where suppressed or told already. *)
Theorem actions_reported_partial : forall w sp tr k rg man c ds l,
  lints w sp tr k rg man c ds "E2541" l -> wf (template c) ->
  (forall name attrs, resource_of (template c) name "AWS::CodePipeline::Pipeline" attrs -> assoc "Properties" attrs = None \/ exists d, assoc "Properties" attrs = Some (VDict d)) ->
  (forall name d, pipeline (template c) name d -> d = [] \/ exists l, assoc "Stages" d = Some (VList l) /\ actions_shaped l) ->
  tells_exactly c man ds l "E2541" (fun q words => exists name d sl n i r, pipeline (template c) name d /\ assoc "Stages" d = Some (VList sl) /\ action_fault sl n i r words /\
    q = ([PKey "Resources"; PKey name; PKey "Properties"] ++ [PKey "Stages"; PIdx n; PKey "Actions"; PIdx i] ++ r)%list).
Proof. exact srv_E2541. Qed.
Print Assumptions actions_reported_partial.

(** Exactly the faults of replication groups with clusters are reported.  Missing: groups of other shapes, and under conditions.  In a run, save where suppressed or told already. *)
Theorem clusters_reported_partial : forall w sp tr k rg man c ds l b,
  lints w sp tr k rg man c ds "E3026" l -> wf (template c) -> plain_conditions (template c) -> (forall x, Permutation (w_order w x) x) ->
  (forall d p, properties_of (template c) "AWS::ElastiCache::ReplicationGroup" d p -> p <> [PKey "Resources"; PKey "Fn::If"; PKey "Properties"] /\ plain_object d /\ (forall n, ~ members_look_at d n) /\ group_shaped d /\
     (forall g, uses_group d g -> no_resource (template c) g \/ exists s, settings_of (template c) g s) /\
     (forall g s, uses_group d g -> settings_of (template c) g s -> plain_object s /\ (forall n, ~ members_look_at s n) /\
        forall d' s', deployed b d d' -> deployed b s s' -> cluster_shaped d' s')) ->
  tells_exactly c man ds l "E3026" (fun q words => exists d p, properties_of (template c) "AWS::ElastiCache::ReplicationGroup" d p /\
    exists g s d' s' key, uses_group d g /\ settings_of (template c) g s /\ deployed b d d' /\ deployed b s s' /\ cluster_fault d' s' key /\
      q = (p ++ [PKey key])%list /\ words = cluster_words key ++ " at " ++ path_text (p ++ [PKey key])%list).
Proof. exact srv_E3026. Qed.
Print Assumptions clusters_reported_partial.

(** Exactly the faults of listeners and load balancers are reported.  Missing: those of other shapes, and load balancers under conditions.  In a run, save where suppressed or told already. *)
Theorem balancers_reported_partial : forall w sp tr k rg man c ds l,
  lints w sp tr k rg man c ds "E2503" l -> wf (template c) -> listeners_shaped (template c) ->
  (forall d p, properties_of (template c) "AWS::ElasticLoadBalancingV2::LoadBalancer" d p -> (forall n, p = [PKey "Resources"; PKey n; PKey "Properties"] -> ~ In n FUNCTIONS) /\ tidy (VDict d) /\ ~ In "Fn::If" (keys d) /\ VDict d <> no_value /\
     (forall n, ~ rests_on (VDict d) n) /\ balancer_shaped d) ->
  tells_exactly c man ds l "E2503" (fun q words =>
    (exists d p known secure cert x s ws, listener (template c) d p known secure cert /\ assoc "Protocol" d = Some x /\ single x (p ++ [PKey "Protocol"])%list (VStr s) q /\
       protocol_fault known secure (match assoc cert d with Some y => truthy y | None => false end) s ws /\ words = ws ++ path_text q) \/
    (exists d p r, properties_of (template c) "AWS::ElasticLoadBalancingV2::LoadBalancer" d p /\ balancer_fault d r words /\ q = (p ++ r)%list)).
Proof. exact srv_E2503. Qed.
Print Assumptions balancers_reported_partial.

Example filter_run_ : let c := cfn_of filter_template in linted dots small_sp c "E2529" /\ float_texts (w_float_text dots) /\ wf (template c) /\ exists fs, filters (template c) fs /\ (forall n g, In (n, g) fs -> small g).
Proof. exact filter_run. Qed.

Example device_run_ : let c := cfn_of (with_resource "AWS::EC2::Instance" device_props) in linted dots small_sp c "E2504" /\ wf (template c) /\ (forall rt, In rt device_types -> unlisted (template c) rt) /\ devices_shaped (template c).
Proof. exact device_run. Qed.

Example alias_run_ : let c := cfn_of (with_resource "AWS::CloudFront::Distribution" (config_of sample_aliases)) in linted dots small_sp c "E3013" /\ wf (template c) /\ unlisted (template c) "AWS::CloudFront::Distribution" /\ aliases_shaped (template c).
Proof. exact alias_run. Qed.

Example container_run_ : let c := cfn_of (with_resource "AWS::ECS::TaskDefinition" [("ContainerDefinitions", VList sample_containers)]) in
  linted dots small_sp c "E3042" /\ wf (template c) /\ unlisted (template c) "AWS::ECS::TaskDefinition" /\ containers_shaped (template c).
Proof. exact container_run. Qed.

Example record_run_ : let c := cfn_of (with_resource "AWS::Route53::RecordSetGroup" bad_records) in linted dots small_sp c "E3020" /\ wf (template c) /\ records_shaped (template c) /\ unconditional_names (template c) (VDict []).
Proof. exact record_run. Qed.

Example ingress_run_ : let c := cfn_of (group_of_rules [("VpcId", VStr "v")] [VDict [("SourceSecurityGroupId", VStr "g")]; VDict [("SourceSecurityGroupName", VStr "n")]]) in
  linted dots small_sp c "E2506" /\ wf (template c) /\ ingress_shaped (template c).
Proof. exact ingress_run. Qed.

Example route_run_ : let c := cfn_of same_subnet in linted dots small_sp c "E3022" /\ wf (template c) /\ associations_shaped (template c).
Proof. exact route_run. Qed.

Example class_run_ : let c := cfn_of (with_resource "AWS::RDS::DBInstance" sample_db) in linted dots small_sp c "E3025" /\ wf (template c) /\ instances_shaped (w_classes dots) (template c).
Proof. exact class_run. Qed.

Example stage_run_ : let c := cfn_of (pipeline_template (VList bad_stages)) in linted dots small_sp c "E2540" /\ wf (template c) /\
  (forall name attrs, resource_of (template c) name "AWS::CodePipeline::Pipeline" attrs -> assoc "Properties" attrs = None \/ exists d, assoc "Properties" attrs = Some (VDict d)) /\
  (forall name d, pipeline (template c) name d -> ~ In name FUNCTIONS /\
     forall v, assoc "Stages" d = Some v -> tidy v /\ (forall n, ~ rests_on v n) /\ forall l, v = VList l -> stages_shaped l).
Proof. exact stage_run. Qed.

Example action_run_ : let c := cfn_of (pipeline_template (VList bad_phases)) in linted dots small_sp c "E2541" /\ wf (template c) /\
  (forall name attrs, resource_of (template c) name "AWS::CodePipeline::Pipeline" attrs -> assoc "Properties" attrs = None \/ exists d, assoc "Properties" attrs = Some (VDict d)) /\
  (forall name d, pipeline (template c) name d -> d = [] \/ exists l, assoc "Stages" d = Some (VList l) /\ Pipelines.actions_shaped l).
Proof. exact action_run. Qed.

Example cluster_run_example_ : let c := cfn_of (cluster_template sample_cluster settings_yes) in linted dots small_sp c "E3026" /\ wf (template c) /\ plain_conditions (template c) /\ (forall x, Permutation (w_order dots x) x) /\
  forall b d p, properties_of (template c) "AWS::ElastiCache::ReplicationGroup" d p -> p <> props_path "Fn::If" /\ plain_object d /\ (forall n, ~ members_look_at d n) /\ group_shaped d /\
     (forall g, uses_group d g -> no_resource (template c) g \/ exists s, settings_of (template c) g s) /\
     (forall g s, uses_group d g -> settings_of (template c) g s -> plain_object s /\ (forall n, ~ members_look_at s n) /\
        forall d' s', deployed b d d' -> deployed b s s' -> cluster_shaped d' s').
Proof. exact cluster_run_example. Qed.

Example listener_run_ : let c := cfn_of (with_resource "AWS::ElasticLoadBalancing::LoadBalancer" bad_listeners) in linted dots small_sp c "E2503" /\ wf (template c) /\ listeners_shaped (template c) /\
  forall d p, ~ properties_of (template c) "AWS::ElasticLoadBalancingV2::LoadBalancer" d p.
Proof. exact listener_run. Qed.

Example balancer_run_ : let c := cfn_of (with_resource "AWS::ElasticLoadBalancingV2::LoadBalancer" bad_application) in linted dots small_sp c "E2503" /\ wf (template c) /\ listeners_shaped (template c) /\
  (forall d p, properties_of (template c) "AWS::ElasticLoadBalancingV2::LoadBalancer" d p -> (forall n, p = props_path n -> ~ In n FUNCTIONS) /\ tidy (VDict d) /\ ~ In "Fn::If" (keys d) /\ VDict d <> no_value /\
     (forall n, ~ rests_on (VDict d) n) /\ balancer_shaped d).
Proof. exact balancer_run. Qed.
