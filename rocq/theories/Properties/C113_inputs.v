(** C113 Each input of a run influences only the rules that read it. *)
From Coq Require Import List String ZArith.
Import ListNotations.
From Verif.Model Require Import Base Node Locate Helpers Rules Runner Config Core Search Functions Standard.
From Verif.Spec Require Import Pipeline Paths ConditionUse References Inputs.
From Verif.Proofs Require Import Samples RuleSetWitness PropertyWitness StandardPropWitness InputRules InputProofs InputWitness.
Import Verif.Model.Rules.
Local Open Scope string_scope.

(** Two runs with the same options on the same template, one of whose inputs differs (the clock, the regions, the sizes of files, a data file): all findings are the same but for those of the rules that read the input, and those that say that one of these failed. *)
Theorem inputs_influence_their_readers : forall str ids w w' sp tr ig inc cs ex man0 rg man c k k' l l',
  input ids w w' -> spec_ok sp ->
  coll_new str (shipped w) ig inc cs ex man0 = Ok k -> coll_new str (shipped w') ig inc cs ex man0 = Ok k' -> e0002_selected (k_set k) ->
  snd (run_checks sp tr k rg man c) = Findings l -> snd (run_checks sp tr k' rg man c) = Findings l' -> else_in ids l l' /\ else_in ids l' l.
Proof. exact input_reports. Qed.
Print Assumptions inputs_influence_their_readers.

(** The regions of a run influence E1015, which is to tell regions from other texts: Fn::GetAZs with the name of a region is reported when that region is not among those the run is for. *)
Theorem known_region_refuted : exists t p, wf t /\ occurs "Fn::GetAZs" t (VDict []) p (VStr "eu-west-1") /\ In "eu-west-1" REGIONS /\
  exists m, getaz_match t (VDict []) ["us-east-1"] = Ok [m] /\ rm_path m = (p ++ [PKey "Fn::GetAZs"])%list /\ getaz_match t (VDict []) REGIONS = Ok [].
Proof. exact foreign_zone. Qed.
Print Assumptions known_region_refuted.

(** Runs at two moments: a runtime that has ended at the second but not at the first. *)
Example input_case : input ["E2531"; "W2531"] stocked earlier /\ spec_ok small_sp /\
  exists k k' l l', coll_new (fun _ => "") (shipped stocked) [] ["I"] [] false [] = Ok k /\ coll_new (fun _ => "") (shipped earlier) [] ["I"] [] false [] = Ok k' /\ e0002_selected (k_set k) /\
    snd (run_checks small_sp no_translator k ["us-east-1"] [] busy_cfn) = Findings l /\ snd (run_checks small_sp no_translator k' ["us-east-1"] [] busy_cfn) = Findings l' /\
    existsb (fun fi => String.eqb (f_rule fi) "E2531") l = true /\ existsb (fun fi => String.eqb (f_rule fi) "E2531") l' = false /\ existsb (fun fi => String.eqb (f_rule fi) "E2520") l' = true.
Proof. exact input_case. Qed.
