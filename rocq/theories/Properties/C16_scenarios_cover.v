(** C16 Condition scenarios cover every deployment. *)
From Coq Require Import Permutation.
From Verif.Model Require Import Base Helpers Conditions.
From Verif.Spec Require Import Truth.
From Verif.Proofs Require Import ConditionProofs ConditionWitness ScenarioMain.

(** The truth values a deployment gives to some conditions are among the scenarios, provided there are at most four
    conditions or two of them look at the same function call.  Missing: five or more conditions none of which look at
    the same call (see below). *)
Theorem every_deployment_covered_partial : forall hash order template defs parameters fuel names w b,
  (forall v, digest (hash v)) -> (forall l, Permutation (order l) l) ->
  section_of "Conditions" template defs -> section_of "Parameters" template parameters ->
  names <> [] -> NoDup names ->
  (forall n, In n names -> mem_assoc n (cs_conditions (load hash fuel template)) = true) ->
  (List.length names <= 4 \/ some_related defs names) ->
  deployment hash parameters w -> gives defs w names b ->
  exists out, get_scenarios order (load hash fuel template) names = Ok out /\ In (scenario_of names b) out.
Proof. exact c16. Qed.

(** Five unrelated conditions: a deployment in which only the first holds is not covered. *)
Theorem five_unrelated_refuted : exists hash order template defs parameters fuel names w b out,
  (forall v, digest (hash v)) /\ (forall l, Permutation (order l) l) /\
  section_of "Conditions" template defs /\ section_of "Parameters" template parameters /\
  names <> [] /\ NoDup names /\
  (forall n, In n names -> mem_assoc n (cs_conditions (load hash fuel template)) = true) /\
  deployment hash parameters w /\ gives defs w names b /\
  get_scenarios order (load hash fuel template) names = Ok out /\ ~ In (scenario_of names b) out.
Proof. exact c16_refuted. Qed.

Example cover_example :
  deployment toy_hash env_params env_values /\ gives env_defs env_values ["IsProd"; "IsDev"; "Both"] env_bools /\
  some_related env_defs ["IsProd"; "IsDev"; "Both"] /\
  get_scenarios (fun l => l) (load toy_hash 9 env) ["IsProd"; "IsDev"; "Both"] = Ok
    [[("IsProd", Some true); ("IsDev", Some false); ("Both", Some false)];
     [("IsProd", Some true); ("IsDev", Some false); ("Both", Some true)];
     [("IsProd", Some false); ("IsDev", Some true); ("Both", Some false)]].
Proof.
  split; [exact env_deployment|]. split; [exact env_gives|]. split; [exact env_related|]. vm_compute. reflexivity.
Qed.

Print Assumptions every_deployment_covered_partial.
Print Assumptions five_unrelated_refuted.
