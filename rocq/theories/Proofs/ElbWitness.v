(** C76: samples and deviations. *)
From Coq Require Import List Permutation ZArith.
From Verif.Model Require Import Base Locate Helpers Node Conditions Search Resolve Rules Relationship PropertyRules SubProps Elb.
From Verif.Spec Require Import Paths Branches References Required Walk Values Truth Resolved Groups SubProps Nested.
From Verif.Proofs Require Import BaseFacts WfDecide BranchProofs ConditionWitness Samples PropertyWitness GroupWitness ValueWitness PropertyRuleProofs PermissionProofs Says IamWitness EventWitness SubPropsProofs SubPropsWitness NestedProofs DeepProofs ElbProofs ElbMain.
Import Verif.Model.Rules.
Import ListNotations.
Local Open Scope string_scope.

Definition balancer_type_name : string := "AWS::ElasticLoadBalancingV2::LoadBalancer".
Definition listener_type_name : string := "AWS::ElasticLoadBalancingV2::Listener".
Definition classic_type_name : string := "AWS::ElasticLoadBalancing::LoadBalancer".
Definition elb_sample : rule := elb_rule toy_hash (fun l => l) 9 (VDict []).
Definition run_of (t : val) : res (list string) := rmap (map f_msg) (snd (coll_run sample_sp (mkColl [elb_sample] default_settings) (cfn_of t))).
Definition checked (props : val) : res (list rulematch) :=
  let t := VDict [("Parameters", VDict env_params); ("Conditions", VDict env_defs); ("Resources", VDict [("R", VDict [("Type", VStr balancer_type_name); ("Properties", props)])])] in
  balancer_check (fun l => l) (load toy_hash 9 t) t (VDict []) props (props_path "R").

(** * Listeners *)
Definition bad_listeners : list (string * val) :=
  [("Listeners", VList [VDict [("Protocol", VStr "http")]; VDict [("Protocol", If_of (VList [VStr "Prod"; VStr "Ssl"; VStr "TCP"]))]; VDict [("Protocol", VStr "UDP")]])].
Lemma listener_example : let t := with_resource classic_type_name bad_listeners in
  wf (template (cfn_of t)) /\ listeners_shaped (template (cfn_of t)) /\
  listener (template (cfn_of t)) [("Protocol", VStr "UDP")] (place_of "Listeners" ++ [PIdx 2])%list ["HTTP"; "HTTPS"; "TCP"; "SSL"] ["HTTPS"; "SSL"] "SSLCertificateId" /\
  protocol_fault ["HTTP"; "HTTPS"; "TCP"; "SSL"] ["HTTPS"; "SSL"] false "UDP" "Protocol must be HTTP, HTTPS, TCP, SSL is invalid at " /\
  protocol_fault ["HTTP"; "HTTPS"; "TCP"; "SSL"] ["HTTPS"; "SSL"] false "Ssl" "Certificates should be specified when using HTTPS for " /\
  (forall cert words, ~ protocol_fault ["HTTP"; "HTTPS"; "TCP"; "SSL"] ["HTTPS"; "SSL"] cert "http" words) /\
  run_of t = Ok ["Certificates should be specified when using HTTPS for Resources/R/Properties/Listeners/1/Protocol/Fn::If/1";
                 "Protocol must be HTTP, HTTPS, TCP, SSL is invalid at Resources/R/Properties/Listeners/2/Protocol"].
Proof.
  cbv zeta. split; [apply wfb_sound; reflexivity|]. split; [|split; [|split; [|split; [|split]]]].
  - change (template (cfn_of (with_resource classic_type_name bad_listeners))) with (with_resource classic_type_name bad_listeners). split; [|split].
    + intros n attrs H. apply only_resource in H as [_ [E _]]. discriminate E.
    + intros n attrs H. apply only_resource in H as [_ [_ ->]]. right. eexists. split; [reflexivity|]. intros l x [= <-] Hx. destruct Hx as [<-|[<-|[<-|[]]]]; eauto.
    + intros d p known secure cert x q H Hx Ha. destruct H as [n attrs d Hres Hp|n attrs pd l i d Hres Hp Hk Hi].
      * apply only_resource in Hres as [_ [E _]]. discriminate E.
      * apply only_resource in Hres as [-> [_ ->]]. injection Hp as <-. injection Hk as <-. destruct i as [|[|[|i]]]; [| | |destruct i; discriminate Hi]; injection Hi as <-; injection Hx as <-.
        -- inversion Ha.
        -- apply alternative_sub in Ha. revert Ha. apply nulls_sound. reflexivity.
        -- inversion Ha.
  - refine (li_classic _ "R" _ bad_listeners _ 2 _ (the_resource _ _) eq_refl eq_refl eq_refl).
  - apply (pf_unknown ["HTTP"; "HTTPS"; "TCP"; "SSL"]). intros u Hu Hs. apply spelled_iff in Hs. subst u. cbn in Hu. intuition discriminate.
  - apply pf_bare with "SSL"; cbn; auto 6. now apply spelled_iff.
  - intros cert words [Hu|u Hu Hs Hsp _]; [apply (Hu "HTTP"); [now left | now apply spelled_iff]|]. apply spelled_iff in Hsp. subst u. cbn in Hs. intuition discriminate.
  - vm_compute. reflexivity.
Qed.
(** A certificate that is there in no deployment is taken for one. *)
Lemma certificate_gone_witness : listeners_match (with_resource listener_type_name [("Protocol", VStr "HTTPS"); ("Certificates", no_value)]) = Ok [].
Proof. reflexivity. Qed.
(** Listeners in conditions are not looked at. *)
Lemma conditional_listener_witness : let bad := VDict [("Protocol", VStr "NONE")] in
  listeners_match (with_resource classic_type_name [("Listeners", VList [If_of (VList [VStr "IsDev"; bad; bad])])]) = Ok [] /\
  listeners_match (with_resource listener_type_name [("Fn::If", VList [VStr "IsDev"; bad; bad])]) = Ok [].
Proof. split; reflexivity. Qed.
Lemma listener_text_witness : listeners_match (with_resource classic_type_name [("Listeners", VList [VStr "HTTP"])]) = Err ETemplateAttribute.
Proof. reflexivity. Qed.

(** * Load balancers *)
Definition bad_network : list (string * val) :=
  [("Type", VStr "network"); ("SecurityGroups", VList [VStr "sg-1"]); ("Subnets", VList [VStr "a"]);
   ("LoadBalancerAttributes", VList [VDict [("Key", VStr "idle_timeout.timeout_seconds"); ("Value", VInt 5)]; VDict [("Key", VStr "load_balancing.cross_zone.enabled"); ("Value", VBool true)]])].
Definition bad_application : list (string * val) :=
  [("Subnets", VList [VStr "a"]); ("SubnetMappings", VList [VDict []]);
   ("LoadBalancerAttributes", VList [VDict [("Key", VStr "load_balancing.cross_zone.enabled"); ("Value", VStr "true")]])].
(** Values without conditions. *)
Fixpoint ifless (v : val) : bool :=
  match v with
  | VList l => (fix go l := match l with [] => true | x :: l => ifless x && go l end) l
  | VDict d => (fix go d := match d with [] => true | (k, x) :: d => negb (String.eqb k "Fn::If") && ifless x && go d end) d
  | _ => true
  end.
Lemma ifless_tidy v : ifless v = true -> tidy v /\ forall n, ~ rests_on v n.
Proof.
  induction v as [v IH] using vsize_ind. intros H. destruct v as [| | | | |l|d]; try solve [split; [constructor | intros n K; inversion K]].
  - assert (K : forall x, In x l -> tidy x /\ forall n, ~ rests_on x n).
    { intros x Hx. apply IH; [now apply item_size|]. cbn in H. clear IH. induction l as [|y l IHl]; [destruct Hx|]. apply andb_true_iff in H as [H1 H2]. destruct Hx as [->|Hx]; auto. }
    split; [constructor; intros x Hx; now apply K|]. intros n R. inversion R as [| | |l' x n' Hx Hr|]; subst. now apply (proj2 (K x Hx) n).
  - assert (K : forall k x, In (k, x) d -> k <> "Fn::If" /\ tidy x /\ forall n, ~ rests_on x n).
    { intros k x Hx. assert (J : k <> "Fn::If" /\ ifless x = true); [|split; [tauto|]; apply IH; [now apply member_size in Hx | tauto]].
      cbn in H. clear IH. induction d as [|[k' y] d IHd]; [destruct Hx|]. apply andb_true_iff in H as [H1 H2]. apply andb_true_iff in H1 as [H1 H3]. destruct Hx as [[= -> ->]|Hx]; [|auto].
      split; [intros ->; discriminate H1 | exact H3]. }
    assert (Hk : ~ In "Fn::If" (keys d)) by (intros J; apply in_map_iff in J as [[k x] [E Hi]]; cbn in E; subst k; now elim (proj1 (K _ _ Hi))).
    split; [apply ti_object; [exact Hk|]; intros k x Hx; apply (K k x Hx)|]. intros n R. inversion R; subst; try (elim Hk; now left). match goal with J : In (?k, ?x) d, R : rests_on ?x n |- _ => exact (proj2 (proj2 (K k x J)) n R) end.
Qed.
Lemma balancer_example : let t := with_resource balancer_type_name bad_application in
  wf (template (cfn_of t)) /\ wf (VDict []) /\ (exists m d, c_tmpl (cfn_of t) = MDict m d) /\ ~ In "R" FUNCTIONS /\ plain_path (props_path "R") /\ at_path (props_path "R") (VDict []) = None /\
  tidy (VDict bad_application) /\ ~ In "Fn::If" (keys bad_application) /\ VDict bad_application <> no_value /\ (forall n, ~ rests_on (VDict bad_application) n) /\ balancer_shaped bad_application /\
  balancer_fault bad_application [] "Attribute ""load_balancing.cross_zone.enabled"" not allowed for load balancers with type ""application""" /\
  balancer_fault bad_network [PKey "SecurityGroups"] "Security groups are not supported for load balancers with type ""network""" /\
  run_of t = Ok ["You must specify at least two Subnets for load balancers with type ""application"""; "You must specify at least two SubnetMappings for load balancers with type ""application""";
                 "Attribute ""load_balancing.cross_zone.enabled"" not allowed for load balancers with type ""application"""].
Proof.
  cbv zeta. split; [apply wfb_sound; reflexivity|]. split; [apply wfb_sound; reflexivity|]. split; [do 2 eexists; reflexivity|]. split; [cbn; intuition discriminate|].
  split; [intros k [E|[E|[E|[]]]]; injection E as <-; intros K; cbn in K; intuition discriminate|]. split; [reflexivity|].
  destruct (ifless_tidy (VDict bad_application) eq_refl) as [H1 H2]. split; [exact H1|]. split; [cbn; intuition discriminate|]. split; [discriminate|]. split; [exact H2|].
  split; [intros l x [= <-] [<-|[]]; eauto|]. split; [|split].
  - refine (bf_attribute bad_application _ [("Key", VStr "load_balancing.cross_zone.enabled"); ("Value", VStr "true")] "load_balancing.cross_zone.enabled" (VStr "true") "application" eq_refl (or_introl eq_refl) eq_refl eq_refl (or_introl (ex_intro _ "true" eq_refl)) (ba_default bad_application eq_refl) _ _).
    + intros [K|[[_ K]|[E _]]]; [cbn in K; intuition discriminate | cbn in K; intuition discriminate | discriminate E].
    + intros [K _]. inversion K; subst; discriminate.
  - apply bf_groups. split; [apply (ba_network _ "network"); [reflexivity | discriminate]|]. eexists. split; reflexivity.
  - vm_compute. reflexivity.
Qed.
(** A second subnet that is there in development only. *)
Definition sometimes : list (string * val) := [("Subnets", VList [VStr "a"; if_ "IsDev" (VStr "b") no_value])].
Definition sometimes_template : val :=
  VDict [("Parameters", VDict env_params); ("Conditions", VDict env_defs); ("Resources", VDict [("R", VDict [("Type", VStr balancer_type_name); ("Properties", VDict sometimes)])])].
Lemma sometimes_else b : b "IsDev" = false -> deep (known ["IsDev"] b) (VDict sometimes) (Some (VDict [("Subnets", VList [VStr "a"])])).
Proof.
  intros Hb. apply de_object; [cbn; intuition discriminate | discriminate|]. apply dm_keep; [|constructor]. apply de_list. apply di_keep; [constructor|]. apply di_drop; [|constructor].
  apply de_else; [unfold known; cbn; now rewrite Hb | constructor].
Qed.
Lemma sometimes_then b : b "IsDev" = true -> deep (known ["IsDev"] b) (VDict sometimes) (Some (VDict [("Subnets", VList [VStr "a"; VStr "b"])])).
Proof.
  intros Hb. apply de_object; [cbn; intuition discriminate | discriminate|]. apply dm_keep; [|constructor]. apply de_list. apply di_keep; [constructor|]. apply di_keep; [|constructor].
  apply de_then; [unfold known; cbn; now rewrite Hb | constructor].
Qed.
Lemma sometimes_example : wf sometimes_template /\ at_path (props_path "R") sometimes_template = Some (VDict sometimes) /\ tidy (VDict sometimes) /\ ~ In "Fn::If" (keys sometimes) /\ VDict sometimes <> no_value /\
  section_of "Conditions" sometimes_template env_defs /\ section_of "Parameters" sometimes_template env_params /\
  (forall n, In n ["IsDev"] <-> rests_on (VDict sometimes) n) /\ In "IsDev" (keys env_defs) /\ deployment toy_hash env_params env_values /\ gives env_defs env_values ["IsDev"] env_bools /\
  (forall b d', deep (known ["IsDev"] b) (VDict sometimes) (Some (VDict d')) -> balancer_shaped d') /\
  deep (known ["IsDev"] env_bools) (VDict sometimes) (Some (VDict [("Subnets", VList [VStr "a"])])) /\
  balancer_fault [("Subnets", VList [VStr "a"])] [PKey "Subnets"] "You must specify at least two Subnets for load balancers with type ""application""" /\
  run_of sometimes_template = Ok ["You must specify at least two Subnets for load balancers with type ""application"" when condition ""IsDev"" is False"].
Proof.
  split; [apply wfb_sound; reflexivity|]. split; [reflexivity|]. split.
  { apply ti_object; [cbn; intuition discriminate|]. intros k x [[= <- <-]|[]]. apply ti_list. intros x [<-|[<-|[]]]; [constructor|]. apply ti_if; [constructor|]. now apply ifless_tidy. }
  split; [cbn; intuition discriminate|]. split; [discriminate|]. split; [eexists; split; [reflexivity | now left]|]. split; [eexists; split; [reflexivity | now left]|]. split.
  { intros n. split.
    - intros [<-|[]]. eapply ro_member; [now left | cbn; intuition discriminate|]. eapply ro_item; [right; now left|]. constructor.
    - intros H. inversion H as [| | | |d k x n' Hx Hk Hr]; subst. destruct Hx as [[= <- <-]|[]]. inversion Hr as [| | |l x n' Hx Hr'|]; subst. destruct Hx as [<-|[<-|[]]]; [inversion Hr'|].
      inversion Hr' as [|c t e n' Ht|c t e n' He| |d k x n' Hx' Hk' Hr'']; subst; [now left | inversion Ht | elim (proj2 (ifless_tidy no_value eq_refl) n He)|]. destruct Hx' as [[= <- <-]|[]]. elim Hk'. apply smem_iff. reflexivity. }
  split; [cbn; auto|]. split; [apply env_deployment|]. split; [apply env_one; cbn; auto|]. split.
  { intros b d' Hd. assert (Hn : NoDup ["IsDev"]) by (constructor; [intros [] | constructor]). destruct (b "IsDev") eqn:Eb.
    - pose proof (deep_unique _ _ _ _ _ Hn Hd (sometimes_then b Eb)) as E. injection E as ->. intros l x [=].
    - pose proof (deep_unique _ _ _ _ _ Hn Hd (sometimes_else b Eb)) as E. injection E as ->. intros l x [=]. }
  split; [now apply sometimes_else|]. split; [|vm_compute; reflexivity]. refine (bf_few [("Subnets", VList [VStr "a"])] "Subnets" [VStr "a"] (ba_default [("Subnets", VList [VStr "a"])] eq_refl) (or_introl eq_refl) eq_refl _). cbn. auto.
Qed.

(** * Deviations *)
(** The attributes of a network load balancer with security groups are reported at the security groups. *)
Lemma misplaced_witness : checked (VDict bad_network) = Ok [
    mkRM (props_path "R" ++ [PKey "SecurityGroups"])%list "Security groups are not supported for load balancers with type ""network""";
    mkRM (props_path "R" ++ [PKey "SecurityGroups"])%list "Attribute ""idle_timeout.timeout_seconds"" not allowed for load balancers with type ""network"""].
Proof. vm_compute. reflexivity. Qed.
(** A type that is not given in a scenario does not stand for application. *)
Lemma type_gone_witness : checked (VDict [("Type", if_ "IsDev" (VStr "network") no_value); ("Subnets", VList [VStr "a"])]) = Ok [] /\
  checked (VDict [("Subnets", VList [VStr "a"])]) <> Ok [].
Proof. split; vm_compute; [reflexivity | discriminate]. Qed.
(** Every other type is taken for network. *)
Lemma gateway_witness : checked (VDict [("Type", VStr "gateway"); ("SecurityGroups", VList [VStr "sg-1"])]) =
  Ok [mkRM (props_path "R" ++ [PKey "SecurityGroups"])%list "Security groups are not supported for load balancers with type ""network"""].
Proof. vm_compute. reflexivity. Qed.
(** Attributes that are no objects, and properties that are gone in a scenario, end the check with an exception. *)
Lemma attribute_text_witness : exists e, checked (VDict [("LoadBalancerAttributes", VList [VStr "x"])]) = Err e.
Proof. eexists. vm_compute. reflexivity. Qed.
Lemma properties_gone_witness : exists e, checked (if_ "IsDev" (VDict [("Type", VStr "network")]) no_value) = Err e.
Proof. eexists. vm_compute. reflexivity. Qed.
