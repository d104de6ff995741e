(** C83 Replication groups suit parameter groups that enable clusters. *)
From Coq Require Import List Permutation.
Import ListNotations.
From Verif.Model Require Import Base Helpers Locate Node Conditions Search Resolve Rules Relationship PropertyRules ElastiCache.
From Verif.Spec Require Import Paths Branches References Required Walk Values Truth Resolved Groups Protect Clusters.
From Verif.Proofs Require Import Samples PropertyWitness PropertyRuleProofs IamWitness ConditionWitness GroupWitness ClusterProofs ClusterWitness.
Import Verif.Model.Rules.
Local Open Scope string_scope.

(** Without conditions, E3026 reports exactly the properties of a replication group that do not go with its parameter group, which enables clusters. *)
Theorem clusters_judged_partial : forall order c template name rt attrs d b,
  wf template -> plain_conditions template -> (forall l, Permutation (order l) l) ->
  resource_of template name rt attrs -> assoc "Properties" attrs = Some (VDict d) -> name <> "Fn::If" ->
  plain_object d -> (forall n, ~ members_look_at d n) -> group_shaped d ->
  (forall g, uses_group d g -> no_resource template g \/ exists s, settings_of template g s) ->
  (forall g s, uses_group d g -> settings_of template g s -> plain_object s /\ (forall n, ~ members_look_at s n) /\
     forall d' s', deployed b d d' -> deployed b s s' -> cluster_shaped d' s') ->
  exists ms, cluster_match order c template (VDict d) (props_path name) = Ok ms /\
  forall m, In m ms <-> exists g s d' s' key, uses_group d g /\ settings_of template g s /\ deployed b d d' /\ deployed b s s' /\ cluster_fault d' s' key /\
    m = mkRM (props_path name ++ [PKey key])%list (cluster_words key ++ " at " ++ path_text (props_path name ++ [PKey key])%list).
Proof. exact c83_plain. Qed.
Print Assumptions clusters_judged_partial.

(** With conditions, each deployment that uses a parameter group and has such a fault is reported, and each report is about values of the conditions that lead to the fault. The last is of use only if the place of the reference exists in some deployment. *)
Theorem clusters_in_deployments_partial : forall hash order template defs parameters name rt attrs d (names : string -> list string),
  (forall v, digest (hash v)) -> (forall l, Permutation (order l) l) ->
  section_of "Conditions" template defs -> section_of "Parameters" template parameters ->
  NoDup (keys defs) -> (forall n v, In (n, v) defs -> well_formed defs v) ->
  NoDup (keys parameters) -> (forall n p, In (n, p) parameters -> plain_parameter p) -> told_apart hash parameters ->
  wf template -> plain_conditions template -> resource_of template name rt attrs -> assoc "Properties" attrs = Some (VDict d) -> name <> "Fn::If" ->
  plain_object d -> group_shaped d ->
  (forall g q, may_use d (props_path name) g q -> no_resource template g \/ exists s, settings_of template g s) ->
  (forall g q s, may_use d (props_path name) g q -> settings_of template g s -> plain_object s /\
     NoDup (names g) /\ names g <> [] /\ (forall n, In n (names g) <-> members_look_at d n \/ members_look_at s n) /\ (forall n, In n (names g) -> In n (keys defs)) /\
     (List.length (names g) <= 4 \/ some_related defs (names g)) /\ (exists w b, deployment hash parameters w /\ gives defs w (names g) b) /\
     forall b d' s', deployed b d d' -> deployed b s s' -> cluster_shaped d' s') ->
  exists limit, forall fuel, limit <= fuel ->
  exists ms, cluster_match order (load hash fuel template) template (VDict d) (props_path name) = Ok ms /\
    (forall g s w b d' s' key, settings_of template g s -> deployment hash parameters w -> gives defs w (names g) b ->
       (forall c, condition_of "Resources" name template c -> In c (names g) -> b c = true) ->
       deployed b d d' -> deployed b s s' -> uses_group d' g -> cluster_fault d' s' key ->
       exists sc, Permutation sc (scenario_of (names g) b) /\
         In (mkRM (props_path name ++ [PKey key])%list (cluster_words key ++ " when " ++ scenario_text sc ++ " at " ++ path_text (props_path name ++ [PKey key])%list)) ms) /\
    (forall m, In m ms -> exists g q s b sc key, may_use d (props_path name) g q /\ settings_of template g s /\ Permutation sc (scenario_of (names g) b) /\
       (forall d' s', deployed b d d' -> deployed b s s' -> cluster_fault d' s' key) /\
       ((exists b', place_exists b' template q) -> (forall d', deployed b d d' -> uses_group d' g) /\ forall c, condition_of "Resources" name template c -> In c (names g) -> b c = true) /\
       m = mkRM (props_path name ++ [PKey key])%list (cluster_words key ++ " when " ++ scenario_text sc ++ " at " ++ path_text (props_path name ++ [PKey key])%list) /\
       ((some_related defs (names g) \/ forall n, In n (names g) -> exists w, deployment hash parameters w /\ gives defs w [n] b) ->
        exists w, deployment hash parameters w /\ gives defs w (names g) b)).
Proof. exact c83_conditional. Qed.
Print Assumptions clusters_in_deployments_partial.

(** In a run, each of these faults leads to a finding of E3026. *)
Theorem cluster_findings : forall hash order fuel sp k c raw name attrs d m0 d0 b g s d' s' key,
  wf (template c) -> plain_conditions (template c) -> (forall l, Permutation (order l) l) ->
  snd (coll_run sp k c) = Ok raw -> In (cluster_rule hash order fuel) (k_all k) -> enabled (k_set k) (cluster_rule hash order fuel) = true -> c_tmpl c = MDict m0 d0 ->
  resource_of (template c) name "AWS::ElastiCache::ReplicationGroup" attrs -> assoc "Properties" attrs = Some (VDict d) -> name <> "Fn::If" ->
  plain_object d -> (forall n, ~ members_look_at d n) -> group_shaped d ->
  (forall g, uses_group d g -> no_resource (template c) g \/ exists s, settings_of (template c) g s) ->
  (forall g s, uses_group d g -> settings_of (template c) g s -> plain_object s /\ (forall n, ~ members_look_at s n) /\
     forall d' s', deployed b d d' -> deployed b s s' -> cluster_shaped d' s') ->
  uses_group d g -> settings_of (template c) g s -> deployed b d d' -> deployed b s s' -> cluster_fault d' s' key ->
  exists f, locate_match c "E3026" (mkRM (props_path name ++ [PKey key])%list (cluster_words key ++ " at " ++ path_text (props_path name ++ [PKey key])%list)) = Ok f /\ In f raw.
Proof. exact c83_run. Qed.
Print Assumptions cluster_findings.

(** A parameter group that no deployment uses is judged all the same. *)
Theorem impossible_group_refuted : let d := choosing (if_ "IsProd" (if_ "IsProd" (VStr "default") (ref_to "G")) (VStr "default")) in
  (forall b d', deployed b d d' -> ~ uses_group d' "G") /\
  cluster_messages d settings_yes =
    Ok ["""NumCacheClusters"" must be greater than one when creating a cluster when when condition ""IsProd"" is True at Resources/R/Properties/NumCacheClusters";
        """NumCacheClusters"" must be greater than one when creating a cluster when when condition ""IsProd"" is False at Resources/R/Properties/NumCacheClusters"].
Proof. exact impossible_witness. Qed.
Print Assumptions impossible_group_refuted.

(** A number of clusters that is a reference ends the check with an exception. *)
Theorem number_ref_refuted : cluster_messages [("CacheParameterGroupName", ref_to "G"); ("NumCacheClusters", VDict [("Ref", VStr "b")])] settings_yes = Err ETypeErr.
Proof. exact number_ref_witness. Qed.
Print Assumptions number_ref_refuted.

(** So does a number written as a text. *)
Theorem number_text_refuted : cluster_messages [("CacheParameterGroupName", ref_to "G"); ("NumCacheClusters", VStr "2")] settings_yes = Err ETypeErr.
Proof. exact number_text_witness. Qed.
Print Assumptions number_text_refuted.

Example cluster_example_ : let t := cluster_template sample_cluster settings_yes in
  wf (template (cfn_of t)) /\ plain_conditions t /\ resource_of t "R" replication [("Type", VStr replication); ("Properties", VDict sample_cluster)] /\
  plain_object sample_cluster /\ (forall n, ~ members_look_at sample_cluster n) /\ group_shaped sample_cluster /\
  uses_group sample_cluster "G" /\ (forall g, uses_group sample_cluster g -> g = "G") /\ settings_of t "G" settings_yes /\ plain_object settings_yes /\ (forall n, ~ members_look_at settings_yes n) /\
  (forall b d' s', deployed b sample_cluster d' -> deployed b settings_yes s' -> d' = sample_cluster /\ s' = settings_yes) /\
  cluster_shaped sample_cluster settings_yes /\ cluster_fault sample_cluster settings_yes "AutomaticFailoverEnabled" /\ cluster_fault sample_cluster settings_yes "NumCacheClusters" /\
  cluster_run sample_cluster settings_yes =
    Ok ["""AutomaticFailoverEnabled"" must be misssing or True when setting up a cluster at Resources/R/Properties/AutomaticFailoverEnabled";
        """NumCacheClusters"" must be greater than one when creating a cluster at Resources/R/Properties/NumCacheClusters"] /\
  cluster_run sample_cluster [("cluster-enabled", VStr "no")] = Ok [].
Proof. exact cluster_example. Qed.

Example conditional_cluster_example : let t := cluster_template conditional_cluster settings_yes in
  section_of "Conditions" t env_defs /\ section_of "Parameters" t env_params /\ wf t /\ plain_object conditional_cluster /\ group_shaped conditional_cluster /\
  (forall g q, may_use conditional_cluster (props_path "R") g q -> g = "G") /\ (exists q, may_use conditional_cluster (props_path "R") "G" q) /\
  settings_of t "G" settings_yes /\ (forall n, In n ["IsProd"] <-> members_look_at conditional_cluster n \/ members_look_at settings_yes n) /\
  deployment toy_hash env_params env_values /\ gives env_defs env_values ["IsProd"] env_bools /\
  (forall b d' s', deployed b conditional_cluster d' -> deployed b settings_yes s' -> cluster_shaped d' s') /\
  (exists d', deployed env_bools conditional_cluster d' /\ uses_group d' "G" /\ cluster_fault d' settings_yes "NumCacheClusters") /\
  cluster_messages conditional_cluster settings_yes =
    Ok ["""NumCacheClusters"" must be greater than one when creating a cluster when when condition ""IsProd"" is True at Resources/R/Properties/NumCacheClusters"].
Proof. exact conditional_example. Qed.
