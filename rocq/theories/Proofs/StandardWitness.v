(** A run of the linter with the rules it ships with (C93). *)
From Coq Require Import QArith Permutation.
From Verif.Model Require Import Base Node Locate Helpers Rules Runner Config Core PropertyRules Standard.
From Verif.Spec Require Import Pipeline Paths Limited ConditionUse RuleSets Shipped.
From Verif.Proofs Require Import BaseFacts PipelineProofs RunProofs ReportProofs Samples RuleSetMain RuleSetWitness WfDecide PlaceholderProofs StandardProofs StandardMain.
Import Verif.Model.Rules.
Local Open Scope string_scope.

(** No specification and no data files. *)
Definition bare : world := mkWorld
  template (fun _ => VDict []) (fun _ => Some 100%Z) ["us-east-1"]
  (mkRS [] [] []) [("us-east-1", [("AWS::SNS::Topic", [])])] ["AWS::SNS::Topic"] [] [] (fun _ _ => None) [] [] [] [] [] ([], []) ([], []) ([], []) ([], []) ([], []) [] [] [] (fun _ => None)
  (fun _ => 0%Z) 0%Z (fun l => l) (fun l => l) 10%nat
  (fun _ => "") (fun _ => "") (fun _ => "") (fun _ => "") (fun s => s) (fun _ => "") (fun _ => None) (fun _ => false) (fun _ => false)
  (fun _ _ => true) (fun _ _ => Some true) (fun s => s) (fun _ => None) (fun _ => inl "") (fun _ _ => Ok None) (fun s => Ok s) (fun _ => false) "" (fun _ _ => None).

(** A template with a parameter, a condition and a mapping that nothing uses, a bad parameter name, a non-existent
    resource to depend on, and an output without a value. *)
Definition ln (n a b : Z) : mark := mkMark n a n b.
Definition faulty : mval :=
  MDict (mkMark 0 0 20 0)
    [(("Parameters", Some (ln 0 0 10)), MDict (mkMark 1 2 5 0)
       [(("Bad-Name", Some (ln 1 2 10)), MDict (mkMark 2 4 3 0) [(("Type", Some (ln 2 4 8)), MStr (ln 2 10 16) "String")])]);
     (("Conditions", Some (ln 5 0 10)), MDict (mkMark 6 2 8 0)
       [(("Unused", Some (ln 6 2 8)), MDict (mkMark 7 4 8 0) [(("Fn::Equals", Some (ln 7 4 14)), MList (ln 7 16 26) [MStr (ln 7 17 20) "a"; MStr (ln 7 22 25) "b"])])]);
     (("Resources", Some (ln 8 0 9)), MDict (mkMark 9 2 14 0)
       [(("Topic", Some (ln 9 2 7)), MDict (mkMark 10 4 12 0)
          [(("Type", Some (ln 10 4 8)), MStr (ln 10 10 25) "AWS::SNS::Topic");
           (("DependsOn", Some (ln 11 4 13)), MStr (ln 11 15 20) "Other")])]);
     (("Outputs", Some (ln 14 0 7)), MDict (mkMark 15 2 18 0)
       [(("Empty", Some (ln 15 2 7)), MDict (mkMark 16 4 17 0) [(("Description", Some (ln 16 4 15)), MStr (ln 16 17 20) "x")])])].
Definition faulty_cfn : cfn := mkCfn "t.yaml" "us-east-1" faulty.
(** The ids and lines of what is reported. *)
Definition brief (fi : finding) : string * Z := (f_rule fi, f_line fi).
Definition faults : list (string * Z) := [("E2003", 2%Z); ("W2001", 2%Z); ("W8001", 7%Z); ("E3005", 12%Z); ("E6002", 16%Z)].
Lemma faulty_report : exists l, map brief l = faults /\
  snd (lint_all (fun _ => "") no_spec no_translator (shipped bare) [] [] initial_state [("t.yaml", DecOk faulty)] []) = Ok (Findings l).
Proof. eexists. split; [|vm_compute; reflexivity]. vm_compute. reflexivity. Qed.
(** Loaded from the last to the first. *)
Lemma faulty_reversed : Permutation (shipped bare) (rev (shipped bare)) /\ exists l, List.length l = 5%nat /\
  snd (lint_all (fun _ => "") no_spec no_translator (rev (shipped bare)) [] [] initial_state [("t.yaml", DecOk faulty)] []) = Ok (Findings l).
Proof. split; [apply Permutation_rev|]. eexists. split; [|vm_compute; reflexivity]. vm_compute. reflexivity. Qed.
(** Without configuration every rule is selected that is neither informational nor experimental. *)
Definition normal : list string := filter (fun id => (prefix "W" id || prefix "E" id)%bool) shipped_ids.
Lemma faulty_lints : exists l, map brief l = faults /\ forall id, In id normal ->
  lints bare no_spec no_translator (mkColl (shipped bare) default_settings) ["us-east-1"] [] faulty_cfn [] id l.
Proof.
  eexists. split; [|intros id Hid]. 2:{
    split; [exact (proj1 (loaded_with bare _ (Permutation_refl _)))|]. split; [intros ? ? []|]. split; [apply e0002_iff; reflexivity|].
    split. { apply is_enabled_spec. assert (A : forallb (fun i => is_enabled i false false [] ["W"; "E"] []) normal = true) by (vm_compute; reflexivity).
      rewrite forallb_forall in A. exact (A id Hid). }
    split; [split; [reflexivity | split; reflexivity]|]. split; [eexists; eexists; reflexivity|]. split; [vm_compute; reflexivity|].
    vm_compute. reflexivity. }
  vm_compute. reflexivity.
Qed.
Lemma normal_many : List.length normal = 123%nat /\ In "W2001" normal /\ In "E6002" normal.
Proof. split; [vm_compute; reflexivity|]. split; apply smem_iff; vm_compute; reflexivity. Qed.

(** It meets what the theorems on single rules assume. *)
Definition parts (k : string) : list (string * val) := match template faulty_cfn with VDict d => match assoc k d with Some (VDict s) => s | _ => [] end | _ => [] end.
Lemma faulty_meets : wf (template faulty_cfn) /\ section (template faulty_cfn) "Parameters" (parts "Parameters") /\
  section (template faulty_cfn) "Outputs" (parts "Outputs") /\
  (forall n x, In (n, x) (parts "Parameters") -> forall t, n <> t ++ String "010" "") /\
  (forall n x, In (n, x) (parts "Outputs") -> exists def, x = VDict def) /\
  plain_uses (template faulty_cfn) (VDict []).
Proof.
  split; [apply wfb_sound; reflexivity|]. split; [cbv; eauto|]. split; [cbv; eauto|]. split; [|split].
  - intros n x [H|[]] t E. injection H as <- _. subst. destruct t as [|? t]; [discriminate|]. cbn in E. injection E as _ E.
    do 7 (destruct t as [|? t]; [discriminate|]; cbn in E; injection E as _ E). destruct t; discriminate.
  - intros n x [H|[]]. injection H as _ <-. eauto.
  - split; [|split; [reflexivity|]].
    + eexists. split; [reflexivity|]. split; intros s E; vm_compute in E; injection E as <-; eexists; [reflexivity|]. split; [reflexivity|].
      intros n x [H|[]]. injection H as _ <-. eexists. split; [reflexivity|]. intros c E. discriminate E.
    + intros p H. apply (occurs_search "Fn::If") in H; [|apply wfb_sound; reflexivity]. vm_compute in H. destruct H.
Qed.
