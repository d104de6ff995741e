(** C80: samples and deviations. *)
From Coq Require Import List.
From Verif.Model Require Import Base Locate Helpers Node Search Rules PropertyRules StateMachine.
From Verif.Spec Require Import Paths Branches Required Walk Values StateMachine.
From Verif.Proofs Require Import BaseFacts WfDecide Samples PropertyWitness PropertyRuleProofs IamWitness SubPropsWitness StateMachineProofs.
Import Verif.Model.Rules.
Import ListNotations.
Local Open Scope string_scope.

Definition machine_type : string := "AWS::StepFunctions::StateMachine".
Definition no_show (v : val) : string := "?".
(** A reader that knows one text. *)
Definition reads (v : val) (w : val) : string + val :=
  match w with VStr "def" => inr v | _ => inl "not JSON" end.
Definition machine_run (json x : val) : res (list string) :=
  rmap (map f_msg) (snd (coll_run sample_sp (mkColl [machine_rule (reads json) no_show] default_settings) (cfn_of (with_resource machine_type [("DefinitionString", x)])))).
Definition sample_states : list (string * val) :=
  [("A", VDict [("Type", VStr "Task"); ("Seconds", VInt 1)]); ("B", VDict [("Type", VStr "Pas")]); ("C", VDict [("End", VBool true)])].
Definition sample_machine : list (string * val) := [("StartAt", VStr "A"); ("Name", VStr "x"); ("States", VDict sample_states)].
Lemma text_single t q w r : single (VStr t) q w r -> w = VStr t /\ r = q.
Proof.
  intros H. assert (A : forall w r, alternative (VStr t) q w r -> w = VStr t /\ r = q).
  { intros w' r' K. inversion K; subst. auto. }
  inversion H as [v p w' q' K _|v p l q' i x w' r' K _ _]; subst; [now apply A|]. apply A in K as [K _]. discriminate K.
Qed.
Lemma machine_example : let pd := [("DefinitionString", VStr "def")] in let json := VDict sample_machine in
  wf (template (cfn_of (with_resource machine_type pd))) /\
  resource_of (template (cfn_of (with_resource machine_type pd))) "R" machine_type [("Type", VStr machine_type); ("Properties", VDict pd)] /\
  machine_shaped (reads json) pd (props_path "R") /\
  machine_fault (reads json) no_show (VStr "def") (props_path "R" ++ [PKey "DefinitionString"])%list (props_path "R" ++ [PKey "DefinitionString"])%list
    "State Machine Definition required key (Resource) for State (A) of Type (Task) is missing" /\
  machine_run json (VStr "def") =
    Ok ["State Machine Definition key (Name) is not valid";
        "State Machine Definition key (Seconds) for State (A) of Type (Task) is not valid";
        "State Machine Definition required key (Resource) for State (A) of Type (Task) is missing";
        "State Machine Definition Type (Pas) is not valid";
        "State Machine Definition required key (Type) for State (C) is missing"] /\
  machine_run json (VDict [("Fn::Sub", VList [VStr "def"; VDict []])]) = machine_run json (VStr "def") /\
  machine_run json (VStr "other") = Ok ["State Machine Definition needs to be formatted as JSON. Error not JSON"] /\
  machine_run json (VDict [("Fn::Sub", VStr "other")]) = Ok [].
Proof.
  cbv zeta. match goal with |- context [cfn_of ?x] => change (template (cfn_of x)) with x end. split; [apply wfb_sound; reflexivity|]. split; [apply the_resource|]. split; [|split; [|split; [|split; [|split]]]].
  - intros x [= <-]. split.
    + intros q H. inversion H.
    + intros w r H. apply text_single in H as [-> ->]. split; [|intros y [=]]. intros _ v [= <-]. eexists. split; [reflexivity|]. intros s [= <-]. eexists. split; [reflexivity|].
      intros name st Hi. destruct Hi as [[= <- <-]|[[= <- <-]|[[= <- <-]|[]]]]; (eexists; split; [reflexivity|]; intros ty [= <-]; split; discriminate).
  - eapply mf_value; [intros [fn [y [[=] _]]] | reflexivity |]. eapply df_state; [reflexivity | now left |]. exact (st_missing no_show "A" [("Type", VStr "Task"); ("Seconds", VInt 1)] "Task" _ _ "Resource" eq_refl k_task (or_introl eq_refl) eq_refl).
  - vm_compute. reflexivity.
  - vm_compute. reflexivity.
  - vm_compute. reflexivity.
  - vm_compute. reflexivity.
Qed.
(** A machine that starts at, and goes to, states that it does not have is accepted. *)
Lemma dangling_witness : machine_run (VDict [("StartAt", VStr "X"); ("States", VDict [("A", VDict [("Type", VStr "Pass"); ("Next", VStr "Y")])])]) (VStr "def") = Ok [].
Proof. vm_compute. reflexivity. Qed.
(** The states in the branches of a state are not looked at, and a Map needs no Iterator. *)
Lemma nested_states_witness : machine_run (VDict [("StartAt", VStr "A"); ("States", VDict [("A", VDict [("Type", VStr "Parallel"); ("End", VBool true); ("Branches", VList [VDict [("States", VDict [("B", VDict [])])]])])])]) (VStr "def") = Ok [].
Proof. vm_compute. reflexivity. Qed.
Lemma map_witness : machine_run (VDict [("StartAt", VStr "A"); ("States", VDict [("A", VDict [("Type", VStr "Map"); ("End", VBool true)])])]) (VStr "def") = Ok [].
Proof. vm_compute. reflexivity. Qed.
(** A Parallel state that has Parameters is reported, although the states language allows them there. *)
Lemma parallel_witness : machine_run (VDict [("StartAt", VStr "A"); ("States", VDict [("A", VDict [("Type", VStr "Parallel"); ("Branches", VList []); ("Parameters", VDict []); ("End", VBool true)])])]) (VStr "def") =
  Ok ["State Machine Definition key (Parameters) for State (A) of Type (Parallel) is not valid"].
Proof. vm_compute. reflexivity. Qed.
(** JSON that is no object, and states that are no objects, end the check with an exception; a state that is a list lacks a Type. *)
Lemma no_object_witness : machine_check (reads (VList [])) no_show (VDict [("DefinitionString", VStr "def")]) [] = Err EAttribute /\
  machine_check (reads (VDict [("StartAt", VStr "A"); ("States", VDict [("A", VInt 1)])])) no_show (VDict [("DefinitionString", VStr "def")]) [] = Err ETypeErr /\
  machine_run (VDict [("StartAt", VStr "A"); ("States", VDict [("A", VList [])])]) (VStr "def") = Ok ["State Machine Definition required key (Type) for State (A) is missing"].
Proof. vm_compute. repeat split. Qed.
