(** C70 Update policies of resources. *)
From Coq Require Import List ZArith.
Import ListNotations.
From Verif.Model Require Import Base Helpers Locate Node Rules Refs PropertyRules UpdatePolicy.
From Verif.Spec Require Import Paths Branches Required References Values UpdatePolicy.
From Verif.Proofs Require Import Samples PropertyWitness UpdatePolicyProofs UpdatePolicyWitness.
Import Verif.Model.Rules.
Local Open Scope string_scope.

(** E3016 reports exactly the faults of the update policies of the resources of a template: policies that do not exist, that the resource cannot have, attributes that do not exist and values of the wrong kind, in every branch of conditions.  Missing for the full property: null values, choices that are not objects, and the refutations below. *)
Theorem update_policies_judged_partial : forall template,
  wf template -> (forall name t u, has_policy template name t u -> policy_shaped u (policy_place name)) ->
  exists ms, update_policy_match template = Ok ms /\ forall m, In m ms <->
    exists name t u place shown words, has_policy template name t u /\ policy_fault t u (policy_place name) place shown words /\ m = mkRM shown words.
Proof. exact c70_judged. Qed.
Print Assumptions update_policies_judged_partial.

(** A fault is reported at its place, except for an attribute below a condition and for the policies that are a switch. *)
Theorem update_policy_places : forall t u p place shown words,
  policy_fault t u p place shown words ->
  shown = place \/
  (exists q k x r a, place = (r ++ [PKey a])%list /\ shown = (q ++ [PKey k; PKey a])%list /\ is_if x /\ exists e, branch x (q ++ [PKey k])%list (VDict e) r) \/
  (exists host q k rest, switch_policy k host /\ place = (q ++ PKey k :: rest)%list /\ shown = (q ++ PKey k :: PKey k :: rest)%list).
Proof. exact c70_places. Qed.
Print Assumptions update_policy_places.

(** In a run, each fault leads to a finding of E3016. *)
Theorem update_policy_findings : forall sp k c raw m0 d0 name t u place shown words,
  snd (coll_run sp k c) = Ok raw -> In update_policy_rule (k_all k) -> enabled (k_set k) update_policy_rule = true ->
  wf (template c) -> c_tmpl c = MDict m0 d0 -> (forall name t u, has_policy (template c) name t u -> policy_shaped u (policy_place name)) ->
  has_policy (template c) name t u -> policy_fault t u (policy_place name) place shown words ->
  exists fi, locate_match c "E3016" (mkRM shown words) = Ok fi /\ In fi raw.
Proof. exact c70_run. Qed.
Print Assumptions update_policy_findings.

(** A policy that is a switch is reported at a place that is not in the template. *)
Theorem switch_place_refuted : exists u m, wf (with_policy "AWS::Elasticsearch::Domain" u) /\
  update_policy_match (with_policy "AWS::Elasticsearch::Domain" u) = Ok [m] /\ at_path (rm_path m) (with_policy "AWS::Elasticsearch::Domain" u) = None.
Proof. exact switch_place_witness. Qed.
Print Assumptions switch_place_refuted.

(** So is an attribute that does not exist, below a condition. *)
Theorem attribute_place_refuted : exists u m, wf (with_policy group_type u) /\ update_policy_match (with_policy group_type u) = Ok [m] /\ at_path (rm_path m) (with_policy group_type u) = None.
Proof. exact attribute_place_witness. Qed.
Print Assumptions attribute_place_refuted.

(** A list where one number is due, a switch where a number is due, and a text where a list is due are accepted. *)
Theorem wrong_kind_refuted : exists a, wf (VDict a) /\ assoc "MaxBatchSize" a = Some (VList [VInt 1; VInt 2]) /\ assoc "MinInstancesInService" a = Some (VBool true) /\ assoc "SuspendProcesses" a = Some (VStr "Launch") /\
  update_policy_match (with_policy group_type (VDict [("AutoScalingRollingUpdate", VDict a)])) = Ok [].
Proof. exact list_accepted_witness. Qed.
Print Assumptions wrong_kind_refuted.

(** A choice that is not an object ends the check with an exception, so nothing is reported. *)
Theorem branch_text_refuted : exists u, wf (with_policy group_type u) /\ update_policy_match (with_policy group_type u) = Err ETemplateAttribute.
Proof. exact branch_text_witness. Qed.
Print Assumptions branch_text_refuted.

Example policy_example_ : wf (template policy_cfn) /\
  (forall name t u, has_policy (template policy_cfn) name t u -> policy_shaped u (policy_place name)) /\
  has_policy (template policy_cfn) "Group" (VStr group_type) (VDict sample_policy) /\
  policy_fault (VStr group_type) (VDict sample_policy) (policy_place "Group")
    (policy_place "Group" ++ [PKey "AutoScalingRollingUpdate"; PKey "SuspendProcesses"; PIdx 1])%list (policy_place "Group" ++ [PKey "AutoScalingRollingUpdate"; PKey "SuspendProcesses"; PIdx 1])%list
    "Allowed values for SuspendProcesses are (Launch, Terminate, HealthCheck, ReplaceUnhealthy, AZRebalance, AlarmNotification, ScheduledActions, AddToLoadBalancer)" /\
  let k := mkColl [update_policy_rule] default_settings in
  exists raw, snd (coll_run sample_sp k policy_cfn) = Ok raw /\
    map f_msg raw = ["Value for MaxBatchSize must be of type Integer";
      "Allowed values for SuspendProcesses are (Launch, Terminate, HealthCheck, ReplaceUnhealthy, AZRebalance, AlarmNotification, ScheduledActions, AddToLoadBalancer)";
      "UpdatePolicy doesn't support type Pause"; "AutoScalingReplacingUpdate should be an object";
      "UpdatePolicy only supports this type for resources of type (AWS::Elasticsearch::Domain)"; "Value for EnableVersionUpgrade must be of type Boolean";
      "UpdatePolicy doesn't support type Other"].
Proof. exact policy_example. Qed.
