(** C70: samples and deviations. *)
From Coq Require Import List ZArith.
From Verif.Model Require Import Base Locate Helpers Node Search Rules Refs ConditionRules PropertyRules UpdatePolicy.
From Verif.Spec Require Import Paths Branches References ConditionUse Required Values UpdatePolicy.
From Verif.Proofs Require Import BaseFacts WfDecide BranchProofs SizeProofs Samples PropertyWitness ValueWitness Says Places UpdatePolicyProofs.
Import Verif.Model.Rules.
Import ListNotations.
Local Open Scope string_scope.

Lemma policy_shaped_plain d p : ~ is_if (VDict d) -> ~ In VNull (subvals (VDict d)) ->
  (forall k e, In (k, VDict e) d -> ~ is_if (VDict e)) -> policy_shaped (VDict d) p.
Proof.
  intros Hi Hn He _. split; [now apply plain_objects|]. intros d' q k x Hb Hx.
  assert (Hd : In (k, x) d).
  { inversion Hb as [c a b p' w q' H'|c a b p' w q' H'|v w p' Hi' Hn' Hs]; subst; try (exfalso; apply Hi; eexists; reflexivity). inversion Hs as [d1 d2 Hpr|? E]; subst; [|discriminate E]. exact (pruned_sub _ _ Hpr _ _ Hx). }
  assert (Hxs : ~ In VNull (subvals x)) by (intros K; apply Hn; exact (sub_member d k x VNull Hd K)).
  split.
  - intros host _ r Ha. apply Hxs. exact (alternative_sub _ _ _ _ Ha).
  - intros host attrs _ Hdx. destruct x as [|b0|z0|f0|s0|l0|e0]; try discriminate. split; [apply plain_objects; exact (He k e0 Hd)|].
    intros e r a y Hbe Hy _ s Ha. apply Hxs.
    assert (Hy0 : In (a, y) e0).
    { destruct (branch_plain _ _ _ _ (He k e0 Hd) Hbe) as [_ E]. inversion Hbe as [c a' b p' w q' H'|c a' b p' w q' H'|v w p' Hi' Hn' Hs]; subst; try (exfalso; apply (He k _ Hd); eexists; reflexivity). inversion Hs as [d1 d2 Hpr|? K]; subst; [|discriminate K]. exact (pruned_sub _ _ Hpr _ _ Hy). }
    exact (sub_member e0 a y VNull Hy0 (alternative_sub _ _ _ _ Ha)).
Qed.

Definition group_type : string := "AWS::AutoScaling::AutoScalingGroup".
Definition sample_policy : list (string * val) :=
  [("AutoScalingRollingUpdate", VDict [("MaxBatchSize", VStr "x"); ("SuspendProcesses", VList [VStr "Launch"; VStr "Nope"]); ("Pause", VInt 1)]);
   ("AutoScalingReplacingUpdate", VStr "oops"); ("EnableVersionUpgrade", VStr "yes"); ("Other", VInt 1)].
Definition with_policy (rt : string) (u : val) : val := VDict [("Resources", VDict [("Group", VDict [("Type", VStr rt); ("UpdatePolicy", u)])])].
Definition policy_cfn : cfn := mkCfn "t.yaml" "us-east-1" (marked (with_policy group_type (VDict sample_policy))).
Lemma policy_example : wf (template policy_cfn) /\
  (forall name t u, has_policy (template policy_cfn) name t u -> policy_shaped u (policy_place name)) /\
  has_policy (template policy_cfn) "Group" (VStr group_type) (VDict sample_policy) /\
  policy_fault (VStr group_type) (VDict sample_policy) (policy_place "Group")
    (policy_place "Group" ++ [PKey "AutoScalingRollingUpdate"; PKey "SuspendProcesses"; PIdx 1])%list (policy_place "Group" ++ [PKey "AutoScalingRollingUpdate"; PKey "SuspendProcesses"; PIdx 1])%list
    "Allowed values for SuspendProcesses are (Launch, Terminate, HealthCheck, ReplaceUnhealthy, AZRebalance, AlarmNotification, ScheduledActions, AddToLoadBalancer)" /\
  let k := mkColl [update_policy_rule] default_settings in
  exists raw, snd (coll_run sample_sp k policy_cfn) = Ok raw /\
    map f_msg raw = ["Value for MaxBatchSize must be of type Integer";
      "Allowed values for SuspendProcesses are (Launch, Terminate, HealthCheck, ReplaceUnhealthy, AZRebalance, AlarmNotification, ScheduledActions, AddToLoadBalancer)";
      "UpdatePolicy doesn't support type Pause"; "AutoScalingReplacingUpdate should be an object";
      "UpdatePolicy only supports this type for resources of type (AWS::Elasticsearch::Domain)"; "Value for EnableVersionUpgrade must be of type Boolean";
      "UpdatePolicy doesn't support type Other"].
Proof.
  assert (H0 : ~ is_if (VDict sample_policy)) by (intros [y E]; discriminate E).
  split; [apply wfb_sound; reflexivity|]. split; [|split; [|split]].
  - intros name t u [o [[d [s [E [Es Hn]]]] [_ [_ Hu]]]]. vm_compute in E. injection E as <-. injection Es as <-. cbn in Hn. destruct (String.eqb name "Group"); [|discriminate Hn]. injection Hn as <-. cbn in Hu. injection Hu as <-.
    apply policy_shaped_plain; [exact H0 | apply nulls_sound; reflexivity|].
    intros k e [E|[E|[E|[E|[]]]]]; try discriminate E. injection E as _ <-. intros [y K]. discriminate K.
  - exists [("Type", VStr group_type); ("UpdatePolicy", VDict sample_policy)]. split; [do 2 eexists; split; [reflexivity|]; split; reflexivity|]. split; [reflexivity|]. split; [discriminate | reflexivity].
  - assert (B : branch (VDict sample_policy) (policy_place "Group") (VDict sample_policy) (policy_place "Group")) by (apply items_safe_spec; now left).
    eapply (uf_value _ _ _ _ _ "AutoScalingRollingUpdate" _ _ _ _ _ "SuspendProcesses" (VList [VStr "Launch"; VStr "Nope"]) (Each scaling_processes) (VStr "Nope") _ B); [now left | apply po_rolling | reflexivity | apply items_safe_spec; now left | right; now left | cbn; auto 6 | | | ].
    + eapply sg_item with (i := 1); [apply alt_leaf; [intros [y E]; discriminate E | discriminate] | reflexivity |]. apply alt_leaf; [intros [y E]; discriminate E | discriminate].
    + intros [fn [y [E _]]]. discriminate E.
    + intros H. inversion H as [| | | |names s Hs]; subst. cbn in Hs. intuition discriminate.
  - eexists. split; [vm_compute; reflexivity | reflexivity].
Qed.

(** A policy that is a switch is reported at a place that is not in the template. *)
Lemma switch_place_witness : exists u m, wf (with_policy "AWS::Elasticsearch::Domain" u) /\
  update_policy_match (with_policy "AWS::Elasticsearch::Domain" u) = Ok [m] /\ at_path (rm_path m) (with_policy "AWS::Elasticsearch::Domain" u) = None.
Proof. exists (VDict [("EnableVersionUpgrade", VStr "yes")]). eexists. split; [apply wfb_sound; reflexivity|]. split; [vm_compute; reflexivity | reflexivity]. Qed.
(** So is an attribute that does not exist, below a condition. *)
Lemma attribute_place_witness : exists u m, wf (with_policy group_type u) /\ update_policy_match (with_policy group_type u) = Ok [m] /\ at_path (rm_path m) (with_policy group_type u) = None.
Proof.
  exists (VDict [("AutoScalingReplacingUpdate", If_of (VList [VStr "c"; VDict [("WillReplace", VBool true)]; VDict [("Replace", VBool true)]]))]). eexists.
  split; [apply wfb_sound; reflexivity|]. split; [vm_compute; reflexivity | reflexivity].
Qed.
(** A list where one number is due, a switch where a number is due, and a text where a list is due are accepted. *)
Lemma list_accepted_witness : exists a, wf (VDict a) /\ assoc "MaxBatchSize" a = Some (VList [VInt 1; VInt 2]) /\ assoc "MinInstancesInService" a = Some (VBool true) /\ assoc "SuspendProcesses" a = Some (VStr "Launch") /\
  update_policy_match (with_policy group_type (VDict [("AutoScalingRollingUpdate", VDict a)])) = Ok [].
Proof.
  exists [("MaxBatchSize", VList [VInt 1; VInt 2]); ("MinInstancesInService", VBool true); ("SuspendProcesses", VStr "Launch")].
  split; [apply wfb_sound; reflexivity|]. repeat (split; [reflexivity|]). vm_compute. reflexivity.
Qed.
(** A branch that is not an object ends the check with an exception. *)
Lemma branch_text_witness : exists u, wf (with_policy group_type u) /\ update_policy_match (with_policy group_type u) = Err ETemplateAttribute.
Proof. exists (If_of (VList [VStr "c"; VStr "text"; VDict []])). split; [apply wfb_sound; reflexivity | vm_compute; reflexivity]. Qed.
