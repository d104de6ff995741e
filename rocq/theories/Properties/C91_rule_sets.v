(** C91 The report depends only on the set of rules. *)
From Coq Require Import List String ZArith Bool.
Import ListNotations.
From Verif.Model Require Import Base Node Locate Helpers Rules Runner Config Core.
From Verif.Spec Require Import Pipeline RuleSets.
From Verif.Proofs Require Import ReportProofs Samples RuleSetMain RuleSetLint RuleSetWitness.
Import Verif.Model.Rules.
Local Open Scope string_scope.

(** Loading the rules in another order, or some of them twice, changes neither the findings of a run over any files nor, findings on crashed rules apart, their order. *)
Theorem loading_order : forall str sp tr cli fl all all' files,
  same_loaded all all' ->
  alike_end (snd (lint_all str sp tr all cli fl initial_state files [])) (snd (lint_all str sp tr all' cli fl initial_state files [])).
Proof. exact c91_loaded. Qed.
Print Assumptions loading_order.

(** The exit status is the same. *)
Theorem loading_status : forall str sp tr cli fl all all' files o o',
  same_loaded all all' ->
  snd (lint_all str sp tr all cli fl initial_state files []) = Ok o -> snd (lint_all str sp tr all' cli fl initial_state files []) = Ok o' ->
  exit_status o = exit_status o'.
Proof. exact c91_status. Qed.
Print Assumptions loading_status.

(** Two collections that run the same rules give the same report of a template. *)
Theorem same_set : forall sp tr k k' rg man c,
  both_select "E0001" (k_set k) (k_set k') -> both_select "E0002" (k_set k) (k_set k') ->
  same_rules everyone k k' -> one_per_id everyone k ->
  alike_outcome (snd (run_checks sp tr k rg man c)) (snd (run_checks sp tr k' rg man c)).
Proof. exact c91_set. Qed.
Print Assumptions same_set.

(** ... and the same findings even if several rules share an id. *)
Theorem same_set_any_ids : forall sp tr k k' rg man c l l',
  both_select "E0001" (k_set k) (k_set k') -> both_select "E0002" (k_set k) (k_set k') -> same_rules everyone k k' ->
  snd (run_checks sp tr k rg man c) = Findings l -> snd (run_checks sp tr k' rg man c) = Findings l' -> same_findings l l'.
Proof. exact c91_findings. Qed.
Print Assumptions same_set_any_ids.

(** The findings of some of the rules do not depend on which other rules run, as long as crashes are reported. *)
Theorem part_of_rules : forall sp tr k k' rg man c who l l',
  spec_ok sp -> e0002_selected (k_set k) -> e0002_selected (k_set k') -> both_select "E0001" (k_set k) (k_set k') ->
  who "E0002" = false -> same_rules who k k' -> one_per_id who k ->
  snd (run_checks sp tr k rg man c) = Findings l -> snd (run_checks sp tr k' rg man c) = Findings l' ->
  about who l = about who l'.
Proof. exact c91_part. Qed.
Print Assumptions part_of_rules.

(** Leaving rules out leaves out their findings and those on their crashes, and nothing else. *)
Theorem ignored_rules : forall sp tr k k' rg man c who l l',
  spec_ok sp -> e0002_selected (k_set k) -> e0002_selected (k_set k') -> both_select "E0001" (k_set k) (k_set k') ->
  one_per_id who k -> who "E0001" = true -> who "E0002" = true ->
  (forall r, runs k' r <-> runs k r /\ who (r_id r) = true) ->
  snd (run_checks sp tr k rg man c) = Findings l -> snd (run_checks sp tr k' rg man c) = Findings l' ->
  (forall m, In m (fst (tr c)) -> f_rule m = "E0001") ->
  about not_crash l' = about (fun id => not_crash id && who id) l.
Proof. exact c91_ignored. Qed.
Print Assumptions ignored_rules.

(** With two rules of one id the order of loading shows in the report. *)
Theorem same_id_order_refuted : exists a b l l', r_id a = r_id b /\
    snd (run_checks no_spec no_translator (mkColl [a; b] default_settings) ["us-east-1"] [] sample_cfn) = Findings l /\
    snd (run_checks no_spec no_translator (mkColl [b; a] default_settings) ["us-east-1"] [] sample_cfn) = Findings l' /\
    about not_crash l <> about not_crash l'.
Proof. exact same_id_witness. Qed.
Print Assumptions same_id_order_refuted.

(** With two rules that crash the order of loading shows in the report. *)
Theorem crash_order_refuted : exists a b l l', r_id a <> r_id b /\
    snd (run_checks no_spec no_translator (mkColl [a; b] default_settings) ["us-east-1"] [] sample_cfn) = Findings l /\
    snd (run_checks no_spec no_translator (mkColl [b; a] default_settings) ["us-east-1"] [] sample_cfn) = Findings l' /\
    l <> l'.
Proof. exact crash_order_witness. Qed.
Print Assumptions crash_order_refuted.

(** With E0002 ignored, findings of a rule depend on whether another rule crashes. *)
Theorem crash_hides_refuted : exists k k' l, same_rules only_w k k' /\ one_per_id only_w k /\ k_set k = k_set k' /\ about only_w l <> [] /\
    snd (run_checks no_spec no_translator k ["us-east-1"] [] sample_cfn) = Findings l /\
    snd (run_checks no_spec no_translator k' ["us-east-1"] [] sample_cfn) = Findings [].
Proof. exact crash_hides_witness. Qed.
Print Assumptions crash_hides_refuted.

Example loaded_same_ : same_loaded two_rules loaded_again.
Proof. exact loaded_same. Qed.

Example loaded_report_ : exists l, List.length l = 2%nat /\
  snd (lint_all (fun _ => "") no_spec no_translator two_rules [] [] initial_state [("t.yaml", DecOk multi_line)] []) = Ok (Findings l) /\
  snd (lint_all (fun _ => "") no_spec no_translator loaded_again [] [] initial_state [("t.yaml", DecOk multi_line)] []) = Ok (Findings l).
Proof. exact loaded_report. Qed.

Example part_meets_ : spec_ok no_spec /\ e0002_selected (k_set with_crash) /\ e0002_selected (k_set without_bad) /\
  both_select "E0001" (k_set with_crash) (k_set without_bad) /\ only_w "E0002" = false /\
  same_rules only_w with_crash without_bad /\ one_per_id only_w with_crash.
Proof. exact part_meets. Qed.

Example part_report_ : exists m l l', about only_w l = [m] /\
  snd (run_checks no_spec no_translator with_crash ["us-east-1"] [] sample_cfn) = Findings l /\
  snd (run_checks no_spec no_translator without_bad ["us-east-1"] [] sample_cfn) = Findings l' /\ l <> l'.
Proof. exact part_report. Qed.

Example ignoring_meets_ : both_select "E0001" (k_set with_crash) (k_set ignoring) /\ one_per_id not_bad with_crash /\
  not_bad "E0001" = true /\ not_bad "E0002" = true /\
  (forall r, runs ignoring r <-> runs with_crash r /\ not_bad (r_id r) = true).
Proof. exact ignoring_meets. Qed.
