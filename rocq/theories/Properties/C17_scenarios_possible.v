(** C17 Condition scenarios are all possible. *)
From Coq Require Import Permutation.
From Verif.Model Require Import Base Helpers Conditions.
From Verif.Spec Require Import Truth.
From Verif.Proofs Require Import ConditionProofs ConditionWitness ScenarioMain.

(** Every enumerated scenario is produced by a deployment, if two of the conditions look at the same function call; and
    otherwise if each condition on its own can have the truth value of the scenario.  Missing: conditions that do not
    share a call and of which one is constant (see below). *)
Theorem scenarios_possible_partial : forall hash order template defs parameters names,
  (forall v, digest (hash v)) -> (forall l, Permutation (order l) l) ->
  section_of "Conditions" template defs -> section_of "Parameters" template parameters ->
  NoDup (keys defs) -> (forall n v, In (n, v) defs -> well_formed defs v) ->
  NoDup (keys parameters) -> (forall n p, In (n, p) parameters -> plain_parameter p) -> told_apart hash parameters ->
  names <> [] -> NoDup names -> (forall n, In n names -> In n (keys defs)) ->
  exists limit, forall fuel, limit <= fuel ->
  exists out, get_scenarios order (load hash fuel template) names = Ok out /\
    (forall r, In r out -> exists b, r = scenario_of names b /\
       ((forall n, In n names -> exists w, deployment hash parameters w /\ gives defs w [n] b) ->
        exists w, deployment hash parameters w /\ gives defs w names b)) /\
    (some_related defs names -> forall r, In r out -> exists b w, r = scenario_of names b /\ deployment hash parameters w /\ gives defs w names b).
Proof. exact c17. Qed.

(** A condition that is true in every deployment is also reported as false. *)
Theorem constant_condition_refuted : exists hash order template defs parameters names,
  (forall v, digest (hash v)) /\ (forall l, Permutation (order l) l) /\
  section_of "Conditions" template defs /\ section_of "Parameters" template parameters /\
  NoDup (keys defs) /\ (forall n v, In (n, v) defs -> well_formed defs v) /\
  NoDup (keys parameters) /\ (forall n p, In (n, p) parameters -> plain_parameter p) /\ told_apart hash parameters /\
  names <> [] /\ NoDup names /\ (forall n, In n names -> In n (keys defs)) /\
  exists fuel out b, get_scenarios order (load hash fuel template) names = Ok out /\ In (scenario_of names b) out /\
    forall w, ~ gives defs w names b.
Proof. exact c17_refuted. Qed.

(** The impossible combination IsProd and IsDev is not enumerated (C16's example shows the whole list). *)
Example possible_example :
  (forall v, digest (toy_hash v)) /\ section_of "Conditions" env env_defs /\ section_of "Parameters" env env_params /\
  NoDup (keys env_defs) /\ (forall n v, In (n, v) env_defs -> well_formed env_defs v) /\
  NoDup (keys env_params) /\ (forall n p, In (n, p) env_params -> plain_parameter p) /\ told_apart toy_hash env_params /\
  some_related env_defs ["IsProd"; "IsDev"; "Both"] /\
  get_scenarios (fun l => l) (load toy_hash 9 env) ["IsProd"; "IsDev"] = Ok
    [[("IsProd", Some true); ("IsDev", Some false)]; [("IsProd", Some false); ("IsDev", Some true)]].
Proof.
  split; [exact toy_digest|]. split; [apply toy_conditions|]. split; [apply toy_parameters|].
  split; [repeat constructor; cbn; intuition discriminate|]. split; [exact env_wf|].
  split; [repeat constructor; cbn; intuition discriminate|]. split; [exact env_plain|]. split; [exact env_told_apart|].
  split; [exact env_related|]. vm_compute. reflexivity.
Qed.

Print Assumptions scenarios_possible_partial.
Print Assumptions constant_condition_refuted.
