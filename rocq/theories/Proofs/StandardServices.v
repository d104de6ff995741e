(** Findings of shipped rules about single services, in whole runs (C97). *)
From Coq Require Import QArith Permutation.
From Verif.Model Require Import Base Node Locate Helpers Rules Runner Config Core Conditions Relationship Resolve SubProps Ec2 Rds Lambda Elb ElastiCache Pipelines Route53 Standard.
From Verif.Spec Require Import Pipeline Paths Branches References Walk Resolved Groups SameJson Lambda SubProps Nested Ec2 Rds Pipelines Records Clusters Shipped ShippedPlaces.
From Verif.Proofs Require Import BaseFacts SearchProofs PropertyRuleProofs ActionMain Places Says SizeProofs FilterProofs SubPropsProofs DeviceProofs AliasProofs ElbProofs Ec2Proofs RdsProofs ClusterProofs StageMain RecordMain
  StandardProofs StandardRules StandardPlaces StandardObjects StandardProps StandardTemplates.
Import Verif.Model.Rules.
Local Open Scope string_scope.

Lemma srv_E2529 w sp tr k rg man c ds l fs : lints w sp tr k rg man c ds "E2529" l -> float_texts (w_float_text w) -> wf (template c) -> filters (template c) fs -> (forall n g, In (n, g) fs -> small g) ->
  tells_exactly c man ds l "E2529" (fun q words => exists n, third fs n /\ q = [PKey "Resources"; PKey n] /\ words = filter_words).
Proof.
  intros Hl Hf Hw H1 H2. eapply (tells_as w sp tr k rg man c ds l "E2529"); [exact Hl | by_id | exact (c74_filters (w_float_text w) Hf (template c) fs Hw H1 H2) | |].
  - intros q words. cbv beta. setoid_rewrite mk_rm. reflexivity.
  - intros q words (n & _ & -> & _). all_keys.
Qed.
Lemma srv_E2504 w sp tr k rg man c ds l : lints w sp tr k rg man c ds "E2504" l -> wf (template c) -> (forall rt, In rt device_types -> unlisted (template c) rt) -> devices_shaped (template c) ->
  tells_exactly c man ds l "E2504" (fun q words => exists rt ms p i d ws, In rt device_types /\ property_at (template c) rt "BlockDeviceMappings" (VList ms) p /\ nth_error ms i = Some (VDict d) /\
    device_fault d (p ++ [PIdx i])%list q ws /\ words = ws ++ path_text q).
Proof.
  intros Hl Hw H1 H2. eapply (tells_as w sp tr k rg man c ds l "E2504"); [exact Hl | by_id | exact (c75_devices (template c) Hw H1 H2) | |].
  - intros q words. cbv beta. setoid_rewrite mk_rm. split; [intros (rt & ms & p & i & d & q' & ws & K1 & K2 & K3 & K4 & -> & ->); exists rt, ms, p, i, d, ws; auto 6 | intros (rt & ms & p & i & d & ws & K1 & K2 & K3 & K4 & ->); exists rt, ms, p, i, d, q, ws; auto 8].
  - intros q words (rt & ms & p & i & d & ws & _ & K2 & K3 & K4 & _). apply (property_place _ _ _ _ _ Hw) in K2.
    assert (K : at_path (p ++ [PIdx i])%list (template c) = Some (VDict d)) by (rewrite at_path_app, K2; cbn [at_path]; now rewrite K3).
    apply fine_there; [|exact (device_fault_at _ _ _ _ _ K K4)]. destruct K4; intros K'; apply app_eq_nil in K' as [_ [=]].
Qed.
Lemma srv_E3013 w sp tr k rg man c ds l : lints w sp tr k rg man c ds "E3013" l -> wf (template c) -> unlisted (template c) "AWS::CloudFront::Distribution" -> aliases_shaped (template c) ->
  tells_exactly c man ds l "E3013" (fun q words => exists d p al s, property_at (template c) "AWS::CloudFront::Distribution" "DistributionConfig" (VDict d) p /\ assoc "Aliases" d = Some (VList al) /\ In (VStr s) al /\
    alias_fault s words /\ q = (p ++ [PKey "Aliases"])%list).
Proof.
  intros Hl Hw H1 H2. eapply (tells_as w sp tr k rg man c ds l "E3013"); [exact Hl | by_id | exact (c75_aliases (w_reformat w) (template c) Hw H1 H2) | |].
  - intros q words. cbv beta. setoid_rewrite mk_rm. split; [intros (d & p & al & s & ws & K1 & K2 & K3 & K4 & -> & ->); exists d, p, al, s; auto 6 | intros (d & p & al & s & K1 & K2 & K3 & K4 & ->); exists d, p, al, s, words; auto 8].
  - intros q words (d & p & al & s & K1 & K2 & _ & _ & ->). apply (property_place _ _ _ _ _ Hw) in K1. exact (parts_ok c p _ _ (member_at _ _ _ _ _ K1 K2)).
Qed.
Lemma srv_E3042 w sp tr k rg man c ds l : lints w sp tr k rg man c ds "E3042" l -> wf (template c) -> unlisted (template c) "AWS::ECS::TaskDefinition" -> containers_shaped (template c) ->
  tells_exactly c man ds l "E3042" (fun q words => exists cs, property_at (template c) "AWS::ECS::TaskDefinition" "ContainerDefinitions" (VList cs) q /\ none_essential cs /\
    words = "No essential containers defined for " ++ path_text q).
Proof.
  intros Hl Hw H1 H2. eapply (tells_as w sp tr k rg man c ds l "E3042"); [exact Hl | by_id | exact (c75_containers (template c) Hw H1 H2) | |].
  - intros q words. cbv beta. setoid_rewrite mk_rm. split; [intros (cs & p & K1 & K2 & -> & ->); eauto | intros (cs & K1 & K2 & ->); exists cs, q; auto].
  - intros q words (cs & K1 & _ & _). apply fine_there; [|exists (VList cs); exact (property_place _ _ _ _ _ Hw K1)]. destruct K1 as (n & a & pd & _ & _ & _ & ->). discriminate.
Qed.
Lemma srv_E3020 w sp tr k rg man c ds l : lints w sp tr k rg man c ds "E3020" l -> wf (template c) -> records_shaped (template c) -> unconditional_names (template c) (VDict []) ->
  tells_exactly c man ds l "E3020" (fun q words => exists d p ty x, record_set (template c) d p /\ records_of d ty x /\
    ((exists s, single x (p ++ [PKey "ResourceRecords"])%list (VStr s) q /\ record_fault (w_ipv6 w) q ty s words) \/
     (ty = "CNAME" /\ exists rl, x = VList rl /\ 1 < List.length rl /\ q = (p ++ [PKey "ResourceRecords"])%list /\ words = "A CNAME recordset can only contain 1 value"))).
Proof.
  intros Hl Hw H1 H2. destruct (lints_before _ _ _ _ _ _ _ _ _ _ Hl) as [_ Hg].
  eapply (tells_as w sp tr k rg man c ds l "E3020"); [exact Hl | by_id | rewrite Hg; exact (c77_records (w_ipv6 w) (w_order w) _ (VDict []) (template c) Hw wf_empty H1 H2) | |].
  - intros q words. cbv beta. setoid_rewrite mk_rm. split.
    + intros (d & p & ty & x & K1 & K2 & K3). exists d, p, ty, x. split; [exact K1|]. split; [exact K2|]. destruct K3 as [(s & r & ws & K3 & K4 & -> & ->)|K3]; [left; eauto | right; exact K3].
    + intros (d & p & ty & x & K1 & K2 & K3). exists d, p, ty, x. split; [exact K1|]. split; [exact K2|]. destruct K3 as [(s & K3 & K4)|K3]; [left; exists s, q, words; auto | right; exact K3].
  - intros q words (d & p & ty & x & K1 & K2 & [(s & K3 & _)|(_ & rl & _ & _ & -> & _)]); pose proof (records_at _ _ _ _ _ Hw K1 K2) as A.
    + apply fine_there; [apply (single_nonempty _ _ _ _ K3); intros K; apply app_eq_nil in K as [_ [=]]|]. exists (VStr s). exact (single_at _ _ _ _ _ K3 A).
    + exact (parts_ok c p _ _ A).
Qed.
Lemma srv_E2506 w sp tr k rg man c ds l : lints w sp tr k rg man c ds "E2506" l -> wf (template c) -> ingress_shaped (template c) ->
  tells_exactly c man ds l "E2506" (fun q words => exists ws, ingress_fault (template c) q ws /\ words = ws ++ path_text q).
Proof.
  intros Hl Hw H1. eapply (tells_as w sp tr k rg man c ds l "E2506"); [exact Hl | by_id | exact (c79_ingress (template c) Hw H1) | |].
  - intros q words. cbv beta. setoid_rewrite mk_rm. split; [intros (p & ws & K & -> & ->); eauto | intros (ws & K & ->); exists q, ws; auto].
  - intros q words (ws & K & _). destruct K as [name attrs pd gl i d key ws vpc x K1 K2 K3 K4 K5 K6 K7 K8|name attrs pd key ws vpc x K1 K2 K5 K6 K7 K8]; (apply fine_there; [discriminate|]); exists x; pose proof (resource_at c name _ attrs pd Hw K1 K2) as A.
    + change [PKey "Resources"; PKey name; PKey "Properties"; PKey "SecurityGroupIngress"; PIdx i; PKey key] with (props_path name ++ [PKey "SecurityGroupIngress"; PIdx i; PKey key])%list. rewrite at_path_app, A. cbn [at_path]. rewrite K3, K4. cbn [at_path]. now rewrite K7.
    + change [PKey "Resources"; PKey name; PKey "Properties"; PKey key] with (props_path name ++ [PKey key])%list. rewrite at_path_app, A. cbn [at_path]. now rewrite K7.
Qed.
Lemma srv_E3022 w sp tr k rg man c ds l : lints w sp tr k rg man c ds "E3022" l -> wf (template c) -> associations_shaped (template c) ->
  tells_each c man ds l "E3022" (fun u : string * option string * option string * string => let '(name, rc, pc, s) := u in uses (template c) name rc pc s /\ exists o, also_uses (template c) name rc pc s o)
    (fun u q words => let '(name, rc, pc, s) := u in q = [PKey "Resources"; PKey name; PKey "Properties"; PKey "SubnetId"] /\
       exists os, (forall o, In o os <-> also_uses (template c) name rc pc s o) /\ words = "SubnetId in " ++ name ++ " is also associated with " ++ join_str ", " os).
Proof.
  intros Hl Hw H1. destruct (c79_routes (template c) Hw H1) as (ms & E & K1 & K2).
  eapply (tells_faults w sp tr k rg man c ds l "E3022" _ ms _ _ Hl); [by_id | exact E | | |].
  - intros m Hm. destruct (K1 m Hm) as (name & rc & pc & s & os & Hu & Hn & Ho & ->). exists (name, rc, pc, s). cbn [rm_path rm_msg]. split; [|eauto]. split; [exact Hu|].
    destruct os as [|o os]; [now destruct Hn|]. exists o. apply Ho. now left.
  - intros [[[name rc] pc] s] [Hu (o & Ho)]. destruct (K2 name rc pc s o Hu Ho) as (os & Hos & Hm). eexists. split; [exact Hm|]. cbn [rm_path rm_msg]. eauto.
  - intros m Hm. destruct (K1 m Hm) as (name & rc & pc & s & os & _ & _ & _ & ->). cbn [rm_path]. all_keys.
Qed.
Lemma srv_E3025 w sp tr k rg man c ds l : lints w sp tr k rg man c ds "E3025" l -> wf (template c) -> instances_shaped (w_classes w) (template c) ->
  tells_exactly c man ds l "E3025" (fun q words => exists name d p, db_instance (template c) name d p /\ class_fault (w_classes w) (w_regions w) d words /\ q = (p ++ [PKey "DBInstanceClass"])%list).
Proof.
  intros Hl Hw H1. eapply (tells_as w sp tr k rg man c ds l "E3025"); [exact Hl | by_id | exact (c81_classes (w_classes w) (w_regions w) (template c) Hw H1) | |].
  - intros q words. cbv beta. setoid_rewrite mk_rm. split; [intros (n & d & p & ws & K1 & K2 & -> & ->); exists n, d, p; auto | intros (n & d & p & K1 & K2 & ->); exists n, d, p, words; auto].
  - intros q words (n & d & p & (attrs & pd & K1 & K2 & K3) & K4 & ->). destruct K4 as [e cl ll r cs _ F2 _ _ _ _].
    pose proof (resource_at c n _ attrs pd Hw K1 K2) as A. apply (parts_ok c p _ (VStr cl)). apply (branch_member_at _ (VDict pd) (props_path n) d p "DBInstanceClass" (VStr cl) Hw K3 A). now apply assoc_In.
Qed.
Lemma srv_E2540 w sp tr k rg man c ds l : lints w sp tr k rg man c ds "E2540" l -> wf (template c) ->
  (forall name attrs, resource_of (template c) name "AWS::CodePipeline::Pipeline" attrs -> assoc "Properties" attrs = None \/ exists d, assoc "Properties" attrs = Some (VDict d)) ->
  (forall name d, pipeline (template c) name d -> ~ In name FUNCTIONS /\
     forall v, assoc "Stages" d = Some v -> tidy v /\ (forall n, ~ rests_on v n) /\ forall l, v = VList l -> stages_shaped l) ->
  tells_exactly c man ds l "E2540" (fun q words => exists name d sl r, pipeline (template c) name d /\ assoc "Stages" d = Some (VList sl) /\ stages_fault sl r words /\
    q = (props_path name ++ [PKey "Stages"] ++ r)%list).
Proof.
  intros Hl Hw H1 H2. destruct (lints_before _ _ _ _ _ _ _ _ _ _ Hl) as [_ Hg].
  eapply (tells_as w sp tr k rg man c ds l "E2540"); [exact Hl | by_id | rewrite Hg; refine (c84_plain (w_order w) _ (template c) (VDict []) Hw wf_empty H1 _) | |].
  - intros name d Hp. destruct (H2 name d Hp) as [K1 K2]. auto.
  - intros q words. cbv beta. setoid_rewrite mk_rm. split; [intros (n & d & sl & r & ws & K1 & K2 & K3 & -> & ->); exists n, d, sl, r; auto | intros (n & d & sl & r & K1 & K2 & K3 & ->); exists n, d, sl, r, words; auto].
  - intros q words (n & d & sl & r & K1 & K2 & K3 & ->). split; [discriminate|]. eapply fault_indices; eassumption.
Qed.
Lemma srv_E2541 w sp tr k rg man c ds l : lints w sp tr k rg man c ds "E2541" l -> wf (template c) ->
  (forall name attrs, resource_of (template c) name "AWS::CodePipeline::Pipeline" attrs -> assoc "Properties" attrs = None \/ exists d, assoc "Properties" attrs = Some (VDict d)) ->
  (forall name d, pipeline (template c) name d -> d = [] \/ exists l, assoc "Stages" d = Some (VList l) /\ actions_shaped l) ->
  tells_exactly c man ds l "E2541" (fun q words => exists name d sl n i r, pipeline (template c) name d /\ assoc "Stages" d = Some (VList sl) /\ action_fault sl n i r words /\
    q = (props_path name ++ [PKey "Stages"; PIdx n; PKey "Actions"; PIdx i] ++ r)%list).
Proof.
  intros Hl Hw H1 H2. eapply (tells_as w sp tr k rg man c ds l "E2541"); [exact Hl | by_id | exact (c85 (w_show w) (template c) Hw H1 H2) | |].
  - intros q words. cbv beta. setoid_rewrite mk_rm. split; [intros (n & d & sl & i & j & r & ws & K1 & K2 & K3 & -> & ->); exists n, d, sl, i, j, r; auto | intros (n & d & sl & i & j & r & K1 & K2 & K3 & ->); exists n, d, sl, i, j, r, words; auto].
  - intros q words (name' & d' & l' & n' & i' & q' & Hpi' & Ev' & F' & ->). split; [discriminate|].
    assert (Hin : exists a, action_in l' n' i' a) by (inversion F'; eauto). destruct Hin as [a [s [la [e [[es [En [_ Hps]]] [El [Ei [_ Hpe]]]]]]]].
    pose proof (stages_at (template c) name' d' Hw Hpi') as Hat. rewrite Ev' in Hat. unfold stages_path in Hat.
    assert (Hd : NoDup (keys es)). { pose proof (at_path_wf (props_path name' ++ [PKey "Stages"] ++ [PIdx n'])%list (template c) (VDict es) Hw) as K. apply wf_dict in K; [apply K|]. rewrite app_assoc, at_path_app, Hat. cbn [at_path]. now rewrite En. }
    rewrite app_assoc. apply (indices_after _ _ _ (VDict e)).
    + change [PKey "Stages"; PIdx n'; PKey "Actions"; PIdx i'] with ([PKey "Stages"] ++ [PIdx n'; PKey "Actions"; PIdx i'])%list. rewrite app_assoc, at_path_app. change (erase (c_tmpl c)) with (template c). rewrite Hat. cbn [at_path]. rewrite En. cbn [at_path]. rewrite (pruned_assoc _ _ _ _ Hps Hd El). cbn [at_path]. now rewrite Ei.
    + intros t' _. apply keys_indices. intros x Hx. inversion F'; subst; cbn [In] in Hx; intuition (subst; eauto).
Qed.
Lemma srv_E3026 w sp tr k rg man c ds l b : lints w sp tr k rg man c ds "E3026" l -> wf (template c) -> plain_conditions (template c) -> (forall x, Permutation (w_order w x) x) ->
  (forall d p, properties_of (template c) "AWS::ElastiCache::ReplicationGroup" d p -> p <> props_path "Fn::If" /\ plain_object d /\ (forall n, ~ members_look_at d n) /\ group_shaped d /\
     (forall g, uses_group d g -> no_resource (template c) g \/ exists s, settings_of (template c) g s) /\
     (forall g s, uses_group d g -> settings_of (template c) g s -> plain_object s /\ (forall n, ~ members_look_at s n) /\
        forall d' s', deployed b d d' -> deployed b s s' -> cluster_shaped d' s')) ->
  tells_exactly c man ds l "E3026" (fun q words => exists d p, properties_of (template c) "AWS::ElastiCache::ReplicationGroup" d p /\
    exists g s d' s' key, uses_group d g /\ settings_of (template c) g s /\ deployed b d d' /\ deployed b s s' /\ cluster_fault d' s' key /\
      q = (p ++ [PKey key])%list /\ words = cluster_words key ++ " at " ++ path_text (p ++ [PKey key])%list).
Proof.
  intros Hl Hw Hc Ho Hs. eapply (tells_type w sp tr k rg man c ds l "E3026" (cluster_rule (w_hash w) (w_order w) (w_fuel w)) _ "AWS::ElastiCache::ReplicationGroup"
    (fun d p m => exists g s d' s' key, uses_group d g /\ settings_of (template c) g s /\ deployed b d d' /\ deployed b s s' /\ cluster_fault d' s' key /\ m = mkRM (p ++ [PKey key])%list (cluster_words key ++ " at " ++ path_text (p ++ [PKey key])%list))); try reflexivity; auto.
  - is_rule.
  - one_type.
  - one_type.
  - intros pd p H. destruct (Hs pd p H) as (H0 & H1 & H2 & H3 & H4 & H5). destruct H as (name & attrs & K1 & K2 & ->).
    assert (Hn : name <> "Fn::If") by (intros ->; now apply H0). exact (c83_plain (w_order w) _ (template c) name _ attrs pd b Hw Hc Ho K1 K2 Hn H1 H2 H3 H4 H5).
  - intros pd p q words. setoid_rewrite mk_rm. reflexivity.
  - intros pd p q words _ Ha Hne (g & s & d' & s' & key & _ & _ & _ & _ & _ & -> & _). split; [now destruct p|]. apply (indices_after _ _ _ (VDict pd)); [exact Ha|]. intros t' _. apply indices_key.
Qed.
Lemma srv_E2503 w sp tr k rg man c ds l : lints w sp tr k rg man c ds "E2503" l -> wf (template c) -> listeners_shaped (template c) ->
  (forall d p, properties_of (template c) "AWS::ElasticLoadBalancingV2::LoadBalancer" d p -> (forall n, p = props_path n -> ~ In n FUNCTIONS) /\ tidy (VDict d) /\ ~ In "Fn::If" (keys d) /\ VDict d <> no_value /\
     (forall n, ~ rests_on (VDict d) n) /\ balancer_shaped d) ->
  tells_exactly c man ds l "E2503" (fun q words =>
    (exists d p known secure cert x s ws, listener (template c) d p known secure cert /\ assoc "Protocol" d = Some x /\ single x (p ++ [PKey "Protocol"])%list (VStr s) q /\
       protocol_fault known secure (match assoc cert d with Some y => truthy y | None => false end) s ws /\ words = ws ++ path_text q) \/
    (exists d p r, properties_of (template c) "AWS::ElasticLoadBalancingV2::LoadBalancer" d p /\ balancer_fault d r words /\ q = (p ++ r)%list)).
Proof.
  intros Hl Hw Hs Hb. destruct (lints_before _ _ _ _ _ _ _ _ _ _ Hl) as [_ Hg].
  set (M := fun m => exists d p known secure cert x s r words, listener (template c) d p known secure cert /\ assoc "Protocol" d = Some x /\ single x (p ++ [PKey "Protocol"])%list (VStr s) r /\
      protocol_fault known secure (match assoc cert d with Some y => truthy y | None => false end) s words /\ m = mkRM r (words ++ path_text r)).
  set (P := fun (_ : string) d (p : path) m => exists q words, balancer_fault d q words /\ m = mkRM (p ++ q)%list words).
  eapply tells_ext; [|eapply (tells_checked w sp tr k rg man c ds l "E2503" _ M (fun t => t = "AWS::ElasticLoadBalancingV2::LoadBalancer") (fun _ => False) P (fun _ _ _ _ => False) Hl)].
  2:{ is_rule. } 2:{ one_type. } 2:{ one_type. } 2:{ exact (c76_listeners (template c) Hw Hs). }
  - intros q words. unfold put_together, M, P. setoid_rewrite mk_rm. split.
    + intros [H|[H|H]].
      * left. destruct H as (d & p & kn & se & ce & x & s & r & ws & H1 & H2 & H3 & H4 & -> & ->). exists d, p, kn, se, ce, x, s, ws. auto 6.
      * right. destruct H as (rt & d & p & H1 & -> & r & ws & H2 & -> & ->). exists d, p, r. auto.
      * destruct H as (n & v & r & _ & [] & _).
    + intros [H|H].
      * left. destruct H as (d & p & kn & se & ce & x & s & ws & H1 & H2 & H3 & H4 & ->). exists d, p, kn, se, ce, x, s, q, ws. auto 8.
      * right. left. destruct H as (d & p & r & H1 & H2 & ->). exists "AWS::ElasticLoadBalancingV2::LoadBalancer", d, p. split; [exact H1|]. split; [reflexivity|]. exists r, words. auto.
  - intros rt pd p H ->. destruct (Hb pd p H) as (H1 & H2 & H3 & H4 & H5 & H6). destruct H as (name & attrs & K1 & K2 & ->). pose proof (resource_at c name _ attrs pd Hw K1 K2) as Hat.
    unfold says. rewrite Hg. apply (balancer_plain (template c) (VDict []) (props_path name) pd Hw wf_empty Hat); auto.
    intros k0 [E|[E|[E|[]]]]; injection E as <-; [intros K; cbn in K; intuition discriminate | exact (H1 name eq_refl) | intros K; cbn in K; intuition discriminate].
  - intros n [].
  - intros m [H|[H|(n & v & r & _ & [] & _)]].
    + destruct H as (d & p & kn & se & ce & x & s & r & ws & H1 & H2 & H3 & H4 & ->). cbn [rm_path]. apply fine_there; [apply (single_nonempty _ _ _ _ H3); intros K; apply app_eq_nil in K as [_ [=]]|].
      exists (VStr s). apply (single_at _ _ _ _ _ H3). exact (member_at _ _ _ _ _ (listener_at _ _ _ _ _ _ Hw H1) H2).
    + destruct H as (rt & d & p & H1 & -> & r & ws & H2 & ->). cbn [rm_path]. destruct (properties_at c _ d p Hw H1) as [Ha Hne]. apply fine_there; [now destruct p|]. rewrite at_path_app, Ha. now apply fault_place in H2.
Qed.
