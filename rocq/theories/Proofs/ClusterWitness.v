(** C83: samples and deviations. *)
From Coq Require Import List Permutation.
From Verif.Model Require Import Base Locate Helpers Node Conditions Search Resolve Rules Relationship PropertyRules ElastiCache.
From Verif.Spec Require Import Paths Branches References Required Walk Values Truth Resolved Groups Protect Clusters.
From Verif.Proofs Require Import BaseFacts WfDecide BranchProofs ConditionWitness Samples PropertyWitness GroupWitness PropertyRuleProofs IamWitness SetProofs GroupProofs ClusterProofs.
Import Verif.Model.Rules.
Import ListNotations.
Local Open Scope string_scope.

Definition replication : string := "AWS::ElastiCache::ReplicationGroup".
Definition ref_to (g : string) : val := VDict [("Ref", VStr g)].
Definition settings_yes : list (string * val) := [("cluster-enabled", VStr "yes")].
Definition group_resource (s : list (string * val)) : val := VDict [("Type", VStr "AWS::ElastiCache::ParameterGroup"); ("Properties", VDict [("Properties", VDict s)])].
Definition cluster_template (d s : list (string * val)) : val :=
  VDict [("Parameters", VDict env_params); ("Conditions", VDict env_defs);
         ("Resources", VDict [("R", VDict [("Type", VStr replication); ("Properties", VDict d)]); ("G", group_resource s)])].
Definition cluster_run (d s : list (string * val)) : res (list string) :=
  rmap (map f_msg) (snd (coll_run sample_sp (mkColl [cluster_rule toy_hash (fun l => l) 9] default_settings) (cfn_of (cluster_template d s)))).
Definition cluster_messages (d s : list (string * val)) : res (list string) :=
  rmap (map rm_msg) (cluster_match (fun l => l) (load toy_hash 9 (cluster_template d s)) (cluster_template d s) (VDict d) (props_path "R")).
Definition sample_cluster : list (string * val) :=
  [("AutomaticFailoverEnabled", VStr "False"); ("CacheParameterGroupName", ref_to "G"); ("NumCacheClusters", VInt 1)].
Lemma cluster_settings d s : settings_of (cluster_template d s) "G" s.
Proof.
  exists [("Type", VStr "AWS::ElastiCache::ParameterGroup"); ("Properties", VDict [("Properties", VDict s)])]. split.
  - split; [do 2 eexists; split; [reflexivity|]; split; reflexivity|]. eexists. split; [reflexivity | discriminate].
  - right. eexists. split; [reflexivity|]. now right.
Qed.
Lemma cluster_resource d s : resource_of (cluster_template d s) "R" replication [("Type", VStr replication); ("Properties", VDict d)].
Proof. do 2 eexists. split; [reflexivity|]. split; [reflexivity|]. split; [now left | reflexivity]. Qed.
Lemma alternative_object e p w q : (forall x, e <> [("Fn::If", x)]) -> alternative (VDict e) p w q -> w = VDict e.
Proof. intros H K. inversion K as [c a b ? ? ? K1 E|c a b ? ? ? K1 E|]; subst; try reflexivity; now elim (H (VList [c; a; b])). Qed.
Lemma cluster_conditions d s : plain_conditions (cluster_template d s).
Proof.
  eexists. split; [reflexivity|]. intros sec v [<-|[<-|[]]] E; [|discriminate E]. injection E as <-. eexists. split; [reflexivity|]. intros n x Hx. cbn in Hx.
  destruct (String.eqb n "R"); [injection Hx as <- | destruct (String.eqb n "G"); [injection Hx as <- | discriminate Hx]]; eexists; (split; [reflexivity|]); now left.
Qed.
Lemma no_looks (d : list (string * val)) : (forall k x, In (k, x) d -> match x with VList _ => False | VDict [(k', _)] => k' <> "Fn::If" | _ => True end) -> forall n, ~ members_look_at d n.
Proof. intros H n [k [x [Hi K]]]. specialize (H k x Hi). inversion K; subst; try (now apply H); exact H. Qed.
Lemma cluster_example : let t := cluster_template sample_cluster settings_yes in
  wf (template (cfn_of t)) /\ plain_conditions t /\ resource_of t "R" replication [("Type", VStr replication); ("Properties", VDict sample_cluster)] /\
  plain_object sample_cluster /\ (forall n, ~ members_look_at sample_cluster n) /\ group_shaped sample_cluster /\
  uses_group sample_cluster "G" /\ (forall g, uses_group sample_cluster g -> g = "G") /\ settings_of t "G" settings_yes /\ plain_object settings_yes /\ (forall n, ~ members_look_at settings_yes n) /\
  (forall b d' s', deployed b sample_cluster d' -> deployed b settings_yes s' -> d' = sample_cluster /\ s' = settings_yes) /\
  cluster_shaped sample_cluster settings_yes /\ cluster_fault sample_cluster settings_yes "AutomaticFailoverEnabled" /\ cluster_fault sample_cluster settings_yes "NumCacheClusters" /\
  cluster_run sample_cluster settings_yes =
    Ok ["""AutomaticFailoverEnabled"" must be misssing or True when setting up a cluster at Resources/R/Properties/AutomaticFailoverEnabled";
        """NumCacheClusters"" must be greater than one when creating a cluster at Resources/R/Properties/NumCacheClusters"] /\
  cluster_run sample_cluster [("cluster-enabled", VStr "no")] = Ok [].
Proof.
  cbv zeta. split; [apply wfb_sound; reflexivity|]. split; [apply cluster_conditions|]. split; [apply cluster_resource|]. repeat match goal with |- _ /\ _ => split end.
  - split; [apply nodupb_sound; reflexivity|]. split; [discriminate|]. intros k x [[= <- <-]|[[= <- <-]|[[= <- <-]|[]]]]; constructor; discriminate.
  - apply no_looks. intros k x [[= <- <-]|[[= <- <-]|[[= <- <-]|[]]]]; try exact I. discriminate.
  - intros x p e q [= <-] H _. apply alternative_object in H; [|discriminate]. injection H as ->. now exists "G".
  - exists (ref_to "G"). split; [reflexivity|]. split; [discriminate | reflexivity].
  - intros g [w [[= <-] [_ [= <-]]]]. reflexivity.
  - apply cluster_settings.
  - split; [apply nodupb_sound; reflexivity|]. split; [discriminate|]. intros k x [[= <- <-]|[]]; constructor.
  - apply no_looks. intros k x [[= <- <-]|[]]; exact I.
  - intros b d' s' H1 H2. split.
    + inversion H1 as [|? ? y1 ? e1 A1 B1|? ? ? e1 A1 B1]; subst; inversion A1; subst. inversion B1 as [|? ? y2 ? e2 A2 B2|? ? ? e2 A2 B2]; subst; inversion A2; subst. inversion B2 as [|? ? y3 ? e3 A3 B3|? ? ? e3 A3 B3]; subst; inversion A3; subst. inversion B3; subst. reflexivity.
    + inversion H2 as [|? ? y1 ? e1 A1 B1|? ? ? e1 A1 B1]; subst; inversion A1; subst. inversion B1; subst. reflexivity.
  - intros _ _ x [= <-]. exact I.
  - eapply cf_failover; [reflexivity | reflexivity|]. right. exists "False". split; [reflexivity | discriminate].
  - eapply cf_nodes; [reflexivity | intros x [=] | reflexivity | discriminate].
  - vm_compute. reflexivity.
  - vm_compute. reflexivity.
Qed.
(** The parameter group that one deployment uses. *)
Definition choosing (x : val) : list (string * val) := [("CacheParameterGroupName", x); ("NumCacheClusters", VInt 1)].
Definition conditional_cluster : list (string * val) := choosing (if_ "IsProd" (ref_to "G") (VStr "default")).
Lemma chosen_cluster b d' : deployed b conditional_cluster d' -> d' = choosing (if b "IsProd" then ref_to "G" else VStr "default").
Proof.
  intros H. inversion H as [|? ? y1 ? e1 A1 B1|? ? ? e1 A1 B1]; subst; (inversion B1 as [|? ? y2 ? e2 A2 B2|? ? ? e2 A2 B2]; subst; inversion A2; subst; inversion B2; subst);
  inversion A1 as [? ? ? ? E R|? ? ? ? E R|? ? ? E| | | | | | |? N1 N2|]; subst; try discriminate E; try (now elim (N1 (VList [VStr "IsProd"; ref_to "G"; VStr "default"]))); injection E as E; rewrite E; inversion R; subst; reflexivity.
Qed.
Lemma conditional_uses g q : may_use conditional_cluster (props_path "R") g q -> g = "G".
Proof.
  intros [x [w [[= <-] [H [_ ->]]]]]. inversion H as [c a b ? ? ? K1 E|c a b ? ? ? K1 E|? ? K]; subst.
  - apply alternative_object in K1; [|discriminate]. now injection K1 as ->.
  - inversion K1.
Qed.
Lemma conditional_example : let t := cluster_template conditional_cluster settings_yes in
  section_of "Conditions" t env_defs /\ section_of "Parameters" t env_params /\ wf t /\ plain_object conditional_cluster /\ group_shaped conditional_cluster /\
  (forall g q, may_use conditional_cluster (props_path "R") g q -> g = "G") /\ (exists q, may_use conditional_cluster (props_path "R") "G" q) /\
  settings_of t "G" settings_yes /\ (forall n, In n ["IsProd"] <-> members_look_at conditional_cluster n \/ members_look_at settings_yes n) /\
  deployment toy_hash env_params env_values /\ gives env_defs env_values ["IsProd"] env_bools /\
  (forall b d' s', deployed b conditional_cluster d' -> deployed b settings_yes s' -> cluster_shaped d' s') /\
  (exists d', deployed env_bools conditional_cluster d' /\ uses_group d' "G" /\ cluster_fault d' settings_yes "NumCacheClusters") /\
  cluster_messages conditional_cluster settings_yes =
    Ok ["""NumCacheClusters"" must be greater than one when creating a cluster when when condition ""IsProd"" is True at Resources/R/Properties/NumCacheClusters"].
Proof.
  cbv zeta. repeat match goal with |- _ /\ _ => split end.
  - eexists. split; [reflexivity|]. left. reflexivity.
  - eexists. split; [reflexivity|]. left. reflexivity.
  - apply wfb_sound; reflexivity.
  - split; [apply nodupb_sound; reflexivity|]. split; [discriminate|]. intros k x [[= <- <-]|[[= <- <-]|[]]]; constructor; constructor; discriminate.
  - intros x p e q [= <-] H _. inversion H as [c a b ? ? ? K1 E|c a b ? ? ? K1 E|? ? K]; subst.
    + apply alternative_object in K1; [|discriminate]. injection K1 as ->. now exists "G".
    + inversion K1.
    + elim K. now eexists.
  - exact conditional_uses.
  - eexists. exists (if_ "IsProd" (ref_to "G") (VStr "default")), (ref_to "G"). split; [reflexivity|]. split; [|split; [discriminate | reflexivity]].
    apply alt_then. apply alt_leaf; [intros [y [=]] | discriminate].
  - apply cluster_settings.
  - intros n. split.
    + intros [<-|[]]. left. do 2 eexists. split; [now left | apply la_here].
    + intros [[k [x [Hi K]]]|[k [x [Hi K]]]].
      * destruct Hi as [[= <- <-]|[[= <- <-]|[]]]; inversion K as [| ? ? ? ? K1|? ? ? ? K1|]; subst; [now left | inversion K1 | inversion K1].
      * destruct Hi as [[= <- <-]|[]]; inversion K.
  - exact env_deployment.
  - apply env_one. now left.
  - intros b d' s' H _ _ _ x Hx. apply chosen_cluster in H as ->. injection Hx as <-. exact I.
  - exists (choosing (ref_to "G")). split; [|split].
    + apply rm_keep; [apply r_then; [reflexivity | apply r_object; discriminate]|]. apply rm_keep; [apply r_int | apply rm_nil].
    + exists (ref_to "G"). split; [reflexivity|]. split; [discriminate | reflexivity].
    + eapply cf_nodes; [reflexivity | intros x [=] | reflexivity | discriminate].
  - vm_compute. reflexivity.
Qed.
(** The parameter group is in a branch that no deployment takes, and yet is judged. *)
Lemma impossible_witness : let d := choosing (if_ "IsProd" (if_ "IsProd" (VStr "default") (ref_to "G")) (VStr "default")) in
  (forall b d', deployed b d d' -> ~ uses_group d' "G") /\
  cluster_messages d settings_yes =
    Ok ["""NumCacheClusters"" must be greater than one when creating a cluster when when condition ""IsProd"" is True at Resources/R/Properties/NumCacheClusters";
        """NumCacheClusters"" must be greater than one when creating a cluster when when condition ""IsProd"" is False at Resources/R/Properties/NumCacheClusters"].
Proof.
  split; [|vm_compute; reflexivity]. intros b d' H [w [Ew [_ ->]]].
  apply (fun N => resolved_members_assoc (fun n => Some (b n)) _ _ N H) in Ew; [|apply nodupb_sound; reflexivity]. destruct Ew as [x [[= <-] R]].
  inversion R as [? ? ? ? E R1|? ? ? ? E R1|? ? ? E| | | | | | |? N1 N2|]; subst; [|inversion R1].
  inversion R1 as [? ? ? ? E' R2|? ? ? ? E' R2|? ? ? E'| | | | | | |? N1 N2|]; subst; [inversion R2 | congruence].
Qed.
(** A number that is a parameter ends the check with an exception. *)
Lemma number_ref_witness : cluster_messages [("CacheParameterGroupName", ref_to "G"); ("NumCacheClusters", VDict [("Ref", VStr "b")])] settings_yes = Err ETypeErr.
Proof. vm_compute. reflexivity. Qed.
(** So does a number given as a text. *)
Lemma number_text_witness : cluster_messages [("CacheParameterGroupName", ref_to "G"); ("NumCacheClusters", VStr "2")] settings_yes = Err ETypeErr.
Proof. vm_compute. reflexivity. Qed.
