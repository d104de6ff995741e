(** Cases for the theorems on sets of rules (C91), and the counterexamples. *)
From Coq Require Import Lia Permutation.
From Verif.Model Require Import Base Node Locate Helpers Rules Runner Config Core.
From Verif.Spec Require Import Pipeline RuleSets.
From Verif.Proofs Require Import BaseFacts PipelineProofs RunProofs ReportProofs Samples RuleSetProofs RuleSetMain RuleSetLint.

Definition warn : rule := rule_of "W9002" [mkRM [PKey "Resources"; PKey "A"] "w"].
Definition two_rules : list rule := [bad_b; warn].
Definition loaded_again : list rule := [warn; bad_b; warn].
Definition sample_cfn : cfn := mkCfn "t.yaml" "us-east-1" multi_line.

Lemma loaded_same : same_loaded two_rules loaded_again.
Proof.
  split.
  - intros r. cbn. tauto.
  - intros r r' [<-|[<-|[]]] [<-|[<-|[]]]; cbn; intros H; try reflexivity; discriminate.
Qed.
(** Both report the findings, in one order. *)
Lemma loaded_report : exists l, List.length l = 2%nat /\
  snd (lint_all (fun _ => "") no_spec no_translator two_rules [] [] initial_state [("t.yaml", DecOk multi_line)] []) = Ok (Findings l) /\
  snd (lint_all (fun _ => "") no_spec no_translator loaded_again [] [] initial_state [("t.yaml", DecOk multi_line)] []) = Ok (Findings l).
Proof. eexists. split; [|split; vm_compute; reflexivity]. reflexivity. Qed.

(** A part of the rules: the same rule with id W9002, different ones otherwise. *)
Definition only_w (id : string) : bool := String.eqb id "W9002".
Definition with_crash : collection := mkColl [crash_rule "E9003"; warn; bad_b] default_settings.
Definition without_bad : collection := mkColl [warn] (mkSettings true ["E9001"] ["W"; "E"] [] []).
Lemma part_meets :
  spec_ok no_spec /\ e0002_selected (k_set with_crash) /\ e0002_selected (k_set without_bad) /\
  both_select "E0001" (k_set with_crash) (k_set without_bad) /\ only_w "E0002" = false /\
  same_rules only_w with_crash without_bad /\ one_per_id only_w with_crash.
Proof.
  split; [intros ? ? []|]. split; [apply e0002_iff; reflexivity|]. split; [apply e0002_iff; reflexivity|].
  split; [split; intros _; apply is_enabled_spec; reflexivity|]. split; [reflexivity|]. split.
  - intros r Hw. apply String.eqb_eq in Hw. rewrite !runs_iff. cbn. split.
    + intros [<-|[<-|[<-|[]]]]; [discriminate | now left | discriminate].
    + intros [<-|[]]. right. now left.
  - intros r r' Hr Hr' Hw E. apply String.eqb_eq in Hw. apply runs_iff in Hr, Hr'. cbn in Hr, Hr'.
    destruct Hr as [<-|[<-|[<-|[]]]]; try discriminate. destruct Hr' as [<-|[<-|[<-|[]]]]; try discriminate. reflexivity.
Qed.
Lemma part_report : exists m l l', about only_w l = [m] /\
  snd (run_checks no_spec no_translator with_crash ["us-east-1"] [] sample_cfn) = Findings l /\
  snd (run_checks no_spec no_translator without_bad ["us-east-1"] [] sample_cfn) = Findings l' /\ l <> l'.
Proof. do 3 eexists. split; [|split; [vm_compute; reflexivity | split; [vm_compute; reflexivity | discriminate]]]. reflexivity. Qed.

(** Ignoring E9001. *)
Definition not_bad (id : string) : bool := negb (String.eqb id "E9001").
Definition ignoring : collection := mkColl [crash_rule "E9003"; warn; bad_b] (mkSettings false ["E9001"] ["W"; "E"] [] []).
Lemma ignoring_meets :
  both_select "E0001" (k_set with_crash) (k_set ignoring) /\ one_per_id not_bad with_crash /\
  not_bad "E0001" = true /\ not_bad "E0002" = true /\
  (forall r, runs ignoring r <-> runs with_crash r /\ not_bad (r_id r) = true).
Proof.
  split; [split; intros _; apply is_enabled_spec; reflexivity|]. split.
  - intros r r' Hr Hr' Hw E. apply runs_iff in Hr, Hr'. cbn in Hr, Hr'.
    destruct Hr as [<-|[<-|[<-|[]]]]; destruct Hr' as [<-|[<-|[<-|[]]]]; try discriminate; reflexivity.
  - split; [reflexivity|]. split; [reflexivity|]. intros r. rewrite !runs_iff. cbn. split.
    + intros [<-|[<-|[]]]; split; try reflexivity; auto.
    + intros [[<-|[<-|[<-|[]]]] H]; auto. discriminate H.
Qed.

(** Two different rules with one id, on the same line: the order in which they were loaded shows. *)
Definition first_one : rule := rule_of "E9005" [mkRM [PKey "Resources"; PKey "A"] "one"].
Definition second_one : rule := rule_of "E9005" [mkRM [PKey "Resources"; PKey "A"] "two"].
Lemma same_id_witness :
  exists a b l l', r_id a = r_id b /\
    snd (run_checks no_spec no_translator (mkColl [a; b] default_settings) ["us-east-1"] [] sample_cfn) = Findings l /\
    snd (run_checks no_spec no_translator (mkColl [b; a] default_settings) ["us-east-1"] [] sample_cfn) = Findings l' /\
    about not_crash l <> about not_crash l'.
Proof.
  exists first_one, second_one. do 2 eexists. split; [reflexivity|]. split; [vm_compute; reflexivity|]. split; [vm_compute; reflexivity|]. vm_compute. discriminate.
Qed.
(** Two rules that crash: the order in which they were loaded shows. *)
Lemma crash_order_witness :
  exists a b l l', r_id a <> r_id b /\
    snd (run_checks no_spec no_translator (mkColl [a; b] default_settings) ["us-east-1"] [] sample_cfn) = Findings l /\
    snd (run_checks no_spec no_translator (mkColl [b; a] default_settings) ["us-east-1"] [] sample_cfn) = Findings l' /\
    l <> l'.
Proof.
  exists (crash_rule "E9003"), (crash_rule "E9004"). do 2 eexists. split; [discriminate|]. split; [vm_compute; reflexivity|]. split; [vm_compute; reflexivity|]. discriminate.
Qed.
(** With E0002 ignored, a rule that crashes takes the findings of the other rules away. *)
Definition loud : settings := mkSettings false ["E0002"] ["W"; "E"] [] [].
Lemma crash_hides_witness :
  exists k k' l, same_rules only_w k k' /\ one_per_id only_w k /\ k_set k = k_set k' /\ about only_w l <> [] /\
    snd (run_checks no_spec no_translator k ["us-east-1"] [] sample_cfn) = Findings l /\
    snd (run_checks no_spec no_translator k' ["us-east-1"] [] sample_cfn) = Findings [].
Proof.
  exists (mkColl [warn] loud), (mkColl [warn; crash_rule "E9003"] loud). eexists. split; [|split; [|split; [reflexivity|]]].
  - intros r Hw. apply String.eqb_eq in Hw. rewrite !runs_iff. cbn. split.
    + intros [<-|[]]. now left.
    + intros [<-|[<-|[]]]; [now left | discriminate].
  - intros r r' Hr Hr' _ _. apply runs_iff in Hr, Hr'. cbn in Hr, Hr'. destruct Hr as [<-|[]]. destruct Hr' as [<-|[]]. reflexivity.
  - split; [|split; vm_compute; reflexivity]. discriminate.
Qed.
