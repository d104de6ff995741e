(** C80 Definitions of state machines are JSON with the right keys and types of states. *)
From Verif.Model Require Import Base Helpers Locate Node Search Rules PropertyRules StateMachine.
From Verif.Spec Require Import Paths Branches Required Walk Values StateMachine.
From Verif.Proofs Require Import Samples PropertyWitness PropertyRuleProofs IamWitness StateMachineProofs StateMachineWitness.
Import Verif.Model.Rules.
Local Open Scope string_scope.

(** E2532 reports exactly the faults of the definition: text that is no JSON, keys that are unknown or missing, states without a known type, and keys of states that are unknown or missing.  Missing for the full property: names of states that do not exist and states inside of states (refuted below). *)
Theorem machine_judged_partial : forall loads show,forall pd p,
  machine_shaped loads pd p ->
  exists ms, machine_check loads show (VDict pd) p = Ok ms /\ forall m, In m ms <->
    exists x w r q words, assoc "DefinitionString" pd = Some x /\ single x (p ++ [PKey "DefinitionString"])%list w r /\ machine_fault loads show w r q words /\ m = mkRM q words.
Proof. exact c80_machine. Qed.
Print Assumptions machine_judged_partial.

(** In a run, each of these faults leads to a finding of E2532. *)
Theorem machine_findings : forall loads show,forall sp k c raw name attrs pd m0 d0 x w r q words,
  snd (coll_run sp k c) = Ok raw -> In (machine_rule loads show) (k_all k) -> enabled (k_set k) (machine_rule loads show) = true ->
  wf (template c) -> c_tmpl c = MDict m0 d0 -> resource_of (template c) name "AWS::StepFunctions::StateMachine" attrs -> assoc "Properties" attrs = Some (VDict pd) ->
  machine_shaped loads pd (props_path name) -> assoc "DefinitionString" pd = Some x ->
  single x (props_path name ++ [PKey "DefinitionString"])%list w r -> machine_fault loads show w r q words ->
  exists f, locate_match c "E2532" (mkRM q words) = Ok f /\ In f raw.
Proof. exact c80_machine_run. Qed.
Print Assumptions machine_findings.

(** A machine that starts at, and goes to, states it does not have is accepted. *)
Theorem dangling_refuted : machine_run (VDict [("StartAt", VStr "X"); ("States", VDict [("A", VDict [("Type", VStr "Pass"); ("Next", VStr "Y")])])]) (VStr "def") = Ok [].
Proof. exact dangling_witness. Qed.
Print Assumptions dangling_refuted.

(** The states in the branches of a state are not looked at. *)
Theorem nested_states_refuted : machine_run (VDict [("StartAt", VStr "A"); ("States", VDict [("A", VDict [("Type", VStr "Parallel"); ("End", VBool true); ("Branches", VList [VDict [("States", VDict [("B", VDict [])])]])])])]) (VStr "def") = Ok [].
Proof. exact nested_states_witness. Qed.
Print Assumptions nested_states_refuted.

(** A Map state without Iterator is accepted. *)
Theorem map_refuted : machine_run (VDict [("StartAt", VStr "A"); ("States", VDict [("A", VDict [("Type", VStr "Map"); ("End", VBool true)])])]) (VStr "def") = Ok [].
Proof. exact map_witness. Qed.
Print Assumptions map_refuted.

(** The Parameters of a Parallel state are reported. *)
Theorem parallel_refuted : machine_run (VDict [("StartAt", VStr "A"); ("States", VDict [("A", VDict [("Type", VStr "Parallel"); ("Branches", VList []); ("Parameters", VDict []); ("End", VBool true)])])]) (VStr "def") =
  Ok ["State Machine Definition key (Parameters) for State (A) of Type (Parallel) is not valid"].
Proof. exact parallel_witness. Qed.
Print Assumptions parallel_refuted.

(** A definition that is no object, or has a state that is none, ends the check with an exception or is said to lack a Type. *)
Theorem no_object_refuted : machine_check (reads (VList [])) no_show (VDict [("DefinitionString", VStr "def")]) [] = Err EAttribute /\
  machine_check (reads (VDict [("StartAt", VStr "A"); ("States", VDict [("A", VInt 1)])])) no_show (VDict [("DefinitionString", VStr "def")]) [] = Err ETypeErr /\
  machine_run (VDict [("StartAt", VStr "A"); ("States", VDict [("A", VList [])])]) (VStr "def") = Ok ["State Machine Definition required key (Type) for State (A) is missing"].
Proof. exact no_object_witness. Qed.
Print Assumptions no_object_refuted.

Example machine_example_ : let pd := [("DefinitionString", VStr "def")] in let json := VDict sample_machine in
  wf (template (cfn_of (with_resource machine_type pd))) /\
  resource_of (template (cfn_of (with_resource machine_type pd))) "R" machine_type [("Type", VStr machine_type); ("Properties", VDict pd)] /\
  machine_shaped (reads json) pd (props_path "R") /\
  machine_fault (reads json) no_show (VStr "def") (props_path "R" ++ [PKey "DefinitionString"])%list (props_path "R" ++ [PKey "DefinitionString"])%list
    "State Machine Definition required key (Resource) for State (A) of Type (Task) is missing" /\
  machine_run json (VStr "def") =
    Ok ["State Machine Definition key (Name) is not valid";
        "State Machine Definition key (Seconds) for State (A) of Type (Task) is not valid";
        "State Machine Definition required key (Resource) for State (A) of Type (Task) is missing";
        "State Machine Definition Type (Pas) is not valid";
        "State Machine Definition required key (Type) for State (C) is missing"] /\
  machine_run json (VDict [("Fn::Sub", VList [VStr "def"; VDict []])]) = machine_run json (VStr "def") /\
  machine_run json (VStr "other") = Ok ["State Machine Definition needs to be formatted as JSON. Error not JSON"] /\
  machine_run json (VDict [("Fn::Sub", VStr "other")]) = Ok [].
Proof. exact machine_example. Qed.
