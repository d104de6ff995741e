(** Samples for the rules on groups of properties (C28). *)
From Coq Require Import Permutation Lia.
From Verif.Model Require Import Base Helpers Locate Node Conditions Search Resolve Rules Relationship Parameters PropertyRules.
From Verif.Spec Require Import Paths Branches Walk Required Truth Resolved Groups.
From Verif.Proofs Require Import BaseFacts WfDecide BranchProofs SearchProofs ConditionProofs ResolveProofs ConditionWitness SetProofs Samples PropertyRuleProofs PropertyWitness GroupProofs GroupMain.
Import ListNotations.
Import Verif.Model.Rules.
Local Open Scope string_scope.

Definition two_props (cond : string) : list (string * val) := [("A", if_ cond (VStr "x") no_value); ("B", VStr "y")].
Definition group_p : path := [PKey "Resources"; PKey "T"; PKey "Properties"].
Lemma two_plain cond : plain_object (two_props cond) /\ VDict (two_props cond) <> no_value.
Proof.
  split; [split; [|split] | discriminate].
  - apply nodupb_sound. reflexivity.
  - discriminate.
  - intros k x [[= <- <-]|[[= <- <-]|[]]]; [apply pi_if; [apply pi_str | apply pi_object; discriminate] | apply pi_str].
Qed.
Lemma two_looks cond group n : In "A" group -> In n [cond] <-> group_looks_at (two_props cond) group n.
Proof.
  intros Ha. split.
  - intros [<-|[]]. exists "A", (if_ cond (VStr "x") no_value). split; [now left|]. split; [exact Ha | apply la_here].
  - intros [k [x [Hi [_ H]]]]. destruct Hi as [E|[E|[]]]; injection E as <- <-; inversion H; subst; try (now left); match goal with K : looks_at _ _ |- _ => inversion K end.
Qed.
Lemma two_members cond n : In n [cond] <-> members_look_at (two_props cond) n.
Proof.
  rewrite (two_looks cond ["A"; "B"] n) by now left. split.
  - intros [k [x [H1 [_ H2]]]]. now exists k, x.
  - intros [k [x [H1 H2]]]. exists k, x. split; [exact H1|]. split; [|exact H2]. destruct H1 as [E|[E|[]]]; injection E as <- _; cbn; auto.
Qed.
Lemma two_branch cond : branch (VDict (two_props cond)) group_p (VDict (two_props cond)) group_p.
Proof. apply items_safe_spec. now left. Qed.
Lemma two_then cond b : b cond = true -> deployed b (two_props cond) [("A", VStr "x"); ("B", VStr "y")].
Proof. intros H. apply rm_keep; [apply r_then; [now rewrite H | apply r_str] | apply rm_keep; [apply r_str | apply rm_nil]]. Qed.
Lemma two_else cond b : b cond = false -> deployed b (two_props cond) [("B", VStr "y")].
Proof. intros H. apply rm_drop; [apply r_else; [now rewrite H | apply r_no_value] | apply rm_keep; [apply r_str | apply rm_nil]]. Qed.
Lemma env_one n : In n ["IsProd"; "IsDev"; "Both"] -> gives env_defs env_values [n] env_bools.
Proof. intros H n' [<-|[]]. now apply env_gives. Qed.

(** Both are there in the deployment. *)
Lemma together_example :
  section_of "Conditions" env env_defs /\ section_of "Parameters" env env_params /\ plain_object (two_props "IsProd") /\ proper_group ["A"; "B"] /\
  (forall n, In n ["IsProd"] <-> group_looks_at (two_props "IsProd") ["A"; "B"] n) /\ (forall n, In n ["IsProd"] <-> members_look_at (two_props "IsProd") n) /\
  mem_assoc "IsProd" (cs_conditions (load toy_hash 9 env)) = true /\ deployment toy_hash env_params env_values /\ gives env_defs env_values ["IsProd"] env_bools /\
  (exists d', deployed env_bools (two_props "IsProd") d' /\ d' <> [] /\ ~ exactly_one ["A"; "B"] (keys d') /\ both (keys d') "A" "B") /\
  only_one_check (fun l => l) (load toy_hash 9 env) (VDict (two_props "IsProd")) [["A"; "B"]] group_p =
    Ok [mkRM group_p "Only one of [A, B] should be specified when condition ""IsProd"" is True at Resources/T/Properties"] /\
  exclusive_check (fun l => l) (load toy_hash 9 env) (VDict (two_props "IsProd")) [("A", ["B"])] group_p =
    Ok [mkRM (group_p ++ [PKey "A"])%list "Property B should NOT exist with A when condition ""IsProd"" is True for Resources/T/Properties"].
Proof.
  split; [apply toy_conditions|]. split; [apply toy_parameters|]. split; [apply two_plain|].
  split; [split; [discriminate | split; [apply nodupb_sound; reflexivity | cbn; intuition discriminate]]|].
  split; [intros n; apply two_looks; now left|]. split; [apply two_members|]. split; [reflexivity|]. split; [exact env_deployment|]. split; [apply env_one; now left|].
  split; [|split; vm_compute; reflexivity]. eexists. split; [apply two_then; reflexivity|]. split; [discriminate|]. split; [|split; cbn; auto].
  intros [k [_ [_ H]]]. assert (H1 : "A" = k) by (apply H; cbn; auto). assert (H2 : "B" = k) by (apply H; cbn; auto). congruence.
Qed.
(** Only the second is there in the deployment. *)
Lemma alone_example :
  plain_object (two_props "IsDev") /\ (forall n, In n ["IsDev"] <-> group_looks_at (two_props "IsDev") ["A"; "C"] n) /\ (forall n, In n ["IsDev"] <-> members_look_at (two_props "IsDev") n) /\
  mem_assoc "IsDev" (cs_conditions (load toy_hash 9 env)) = true /\ gives env_defs env_values ["IsDev"] env_bools /\
  (exists d', deployed env_bools (two_props "IsDev") d' /\ d' <> [] /\ none_of ["A"; "C"] (keys d') /\ only_first (keys d') "B" "A") /\
  at_least_one_check (fun l => l) (load toy_hash 9 env) (VDict (two_props "IsDev")) [["A"; "C"]] group_p =
    Ok [mkRM group_p "At least one of [A, C] should be specified when condition ""IsDev"" is False at Resources/T/Properties"] /\
  inclusive_check (fun l => l) (load toy_hash 9 env) (VDict (two_props "IsDev")) [("B", ["A"])] group_p =
    Ok [mkRM group_p "Property A should exist with B when condition ""IsDev"" is False for Resources/T/Properties"].
Proof.
  split; [apply two_plain|]. split; [intros n; apply two_looks; now left|]. split; [apply two_members|]. split; [reflexivity|]. split; [apply env_one; cbn; auto|].
  split; [|split; vm_compute; reflexivity]. eexists. split; [apply two_else; reflexivity|]. split; [discriminate|]. split; [|split; cbn; [auto | intuition discriminate]].
  intros k [<-|[<-|[]]]; cbn; intuition discriminate.
Qed.
(** Without conditions. *)
Lemma unconditional_example : let d := [("A", VStr "x"); ("B", VStr "y"); ("C", no_value)] in
  plain_object d /\ VDict d <> no_value /\ (forall n, ~ members_look_at d n) /\ (forall group n, ~ group_looks_at d group n) /\ pruned d [("A", VStr "x"); ("B", VStr "y")] /\
  both ["A"; "B"] "A" "B" /\ only_first ["A"; "B"] "A" "C" /\
  only_one_check (fun l => l) (load toy_hash 9 env) (VDict d) [["A"; "B"]; ["A"; "C"]] group_p = Ok [mkRM group_p "Only one of [A, B] should be specified for Resources/T/Properties"].
Proof.
  cbv zeta. assert (Hl : forall k x n, In (k, x) [("A", VStr "x"); ("B", VStr "y"); ("C", no_value)] -> ~ looks_at x n).
  { intros k x n Hi H. destruct Hi as [E|[E|[E|[]]]]; injection E as <- <-; inversion H. }
  split; [split; [apply nodupb_sound; reflexivity | split; [discriminate|]]|].
  { intros k x [[= <- <-]|[[= <- <-]|[[= <- <-]|[]]]]; [apply pi_str | apply pi_str | apply pi_object; discriminate]. }
  split; [discriminate|]. split; [intros n [k [x [H1 H2]]]; now apply (Hl k x n)|]. split; [intros group n [k [x [H1 [_ H2]]]]; now apply (Hl k x n)|].
  split; [apply pr_keep; [discriminate|]; apply pr_keep; [discriminate|]; apply pr_drop; apply pr_nil|].
  split; [split; cbn; auto|]. split; [split; cbn; [auto | intuition discriminate]|]. vm_compute. reflexivity.
Qed.
(** An object of which nothing is left in a deployment is not looked at. *)
Lemma c28_empty_refuted : exists hash order template defs parameters fuel w b d group p,
  (forall v, digest (hash v)) /\ (forall l, Permutation (order l) l) /\ section_of "Conditions" template defs /\ section_of "Parameters" template parameters /\
  plain_object d /\ proper_group group /\ deployment hash parameters w /\ gives defs w (keys defs) b /\
  (exists d', deployed b d d' /\ none_of group (keys d') /\ ~ exactly_one group (keys d')) /\
  at_least_one_check order (load hash fuel template) (VDict d) [group] p = Ok [] /\
  only_one_check order (load hash fuel template) (VDict d) [group] p = Ok [].
Proof.
  exists toy_hash, (fun l => l), env, env_defs, env_params, 9, env_values, env_bools, [("A", if_ "IsDev" (VStr "x") no_value)], ["A"; "B"], group_p.
  split; [exact toy_digest|]. split; [apply Permutation_refl|]. split; [apply toy_conditions|]. split; [apply toy_parameters|]. split.
  { split; [apply nodupb_sound; reflexivity|]. split; [discriminate|]. intros k x [[= <- <-]|[]]. apply pi_if; [apply pi_str | apply pi_object; discriminate]. }
  split; [split; [discriminate | split; [apply nodupb_sound; reflexivity | cbn; intuition discriminate]]|]. split; [exact env_deployment|]. split; [exact env_gives|].
  split; [|split; vm_compute; reflexivity]. exists []. split; [apply rm_drop; [apply r_else; [reflexivity | apply r_no_value] | apply rm_nil]|]. split; [intros k _ []|]. intros [k [_ [[] _]]].
Qed.

(** A run. *)
Definition group_template (props : list (string * val)) : val := VDict [("Parameters", VDict env_params); ("Conditions", VDict env_defs);
  ("Resources", VDict [("T", VDict [("Type", VStr "AWS::X::Table"); ("Properties", VDict props)])])].
Lemma group_run_example : let k := mkColl [only_one_rule toy_hash (fun l => l) 9 [("AWS::X::Table", [["A"; "B"]])] [];
                                         exclusive_rule toy_hash (fun l => l) 9 [("AWS::X::Table", [("B", ["A"])])] []] default_settings in
  let c := mkCfn "t.yaml" "us-east-1" (marked (group_template (two_props "IsProd"))) in
  wf (template c) /\ resource_of (template c) "T" "AWS::X::Table" [("Type", VStr "AWS::X::Table"); ("Properties", VDict (two_props "IsProd"))] /\
  exists raw, snd (coll_run sample_sp k c) = Ok raw /\
    map f_msg raw = ["Only one of [A, B] should be specified when condition ""IsProd"" is True at Resources/T/Properties";
                     "Property A should NOT exist with B when condition ""IsProd"" is True for Resources/T/Properties"].
Proof.
  cbv zeta. split; [apply wfb_sound; reflexivity|]. split; [do 2 eexists; split; [reflexivity|]; split; [reflexivity|]; split; [now left | reflexivity]|].
  eexists. split; vm_compute; reflexivity.
Qed.
