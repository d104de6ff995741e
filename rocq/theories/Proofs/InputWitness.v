(** Runs at two moments (C113). *)
From Coq Require Import List String Bool ZArith.
From Verif.Model Require Import Base Node Locate Helpers Rules Runner Config Core Search Functions Standard.
From Verif.Spec Require Import Pipeline Paths ConditionUse References Shipped FunctionArguments Inputs.
From Verif.Proofs Require Import BaseFacts WfDecide SearchProofs ConditionUseProofs Samples RuleSetWitness ReportProofs PropertyWitness StandardMain StandardWitness StandardPropWitness StandardFunctionWitness InputRules InputProofs.
Import Verif.Model.Rules.
Import ListNotations.
Local Open Scope string_scope.

Definition earlier : world := with_clock stocked (-5)%Z.
Definition told_by (id : string) (l : list finding) : bool := existsb (fun fi => String.eqb (f_rule fi) id) l.
Lemma input_case : input ["E2531"; "W2531"] stocked earlier /\ spec_ok small_sp /\
  exists k k' l l', coll_new (fun _ => "") (shipped stocked) [] ["I"] [] false [] = Ok k /\ coll_new (fun _ => "") (shipped earlier) [] ["I"] [] false [] = Ok k' /\ e0002_selected (k_set k) /\
    snd (run_checks small_sp no_translator k ["us-east-1"] [] busy_cfn) = Findings l /\ snd (run_checks small_sp no_translator k' ["us-east-1"] [] busy_cfn) = Findings l' /\
    existsb (fun fi => String.eqb (f_rule fi) "E2531") l = true /\ existsb (fun fi => String.eqb (f_rule fi) "E2531") l' = false /\ existsb (fun fi => String.eqb (f_rule fi) "E2520") l' = true.
Proof.
  split; [constructor|]. split; [exact small_spec_ok|].
  exists (mkColl (shipped stocked) (mkSettings false [] ["I"; "W"; "E"] [] [])), (mkColl (shipped earlier) (mkSettings false [] ["I"; "W"; "E"] [] [])). eexists. eexists.
  split; [reflexivity|]. split; [reflexivity|]. split; [apply e0002_iff; reflexivity|]. split; [vm_compute; reflexivity|]. split; [vm_compute; reflexivity|]. split; [|split]; vm_compute; reflexivity.
Qed.

(** A known region that the run is not for. *)
Definition zones : val := VDict [("Resources", VDict [("Group", resource_with "AWS::AutoScaling::AutoScalingGroup" [("AvailabilityZones", fn "GetAZs" (VStr "eu-west-1"))])])].
Lemma foreign_zone : exists t p, wf t /\ occurs "Fn::GetAZs" t (VDict []) p (VStr "eu-west-1") /\ In "eu-west-1" REGIONS /\
  exists m, getaz_match t (VDict []) ["us-east-1"] = Ok [m] /\ rm_path m = (p ++ [PKey "Fn::GetAZs"])%list /\ getaz_match t (VDict []) REGIONS = Ok [].
Proof.
  exists zones, [PKey "Resources"; PKey "Group"; PKey "Properties"; PKey "AvailabilityZones"]. split; [apply wfb_sound; vm_compute; reflexivity|].
  split; [|split; [cbn; repeat first [left; reflexivity | right] | eexists; split; [vm_compute; reflexivity | split; vm_compute; reflexivity]]].
  match goal with |- occurs ?f ?t ?g ?p ?v => assert (H : In ((p ++ [PKey f])%list, v) (Search.search_deep_keys f t g)) by (vm_compute; auto);
    apply in_search_deep in H as [p' [E H]]; [apply app_inj_tail in E as [<- _]; exact H | apply wfb_sound; reflexivity | apply wfb_sound; reflexivity] end.
Qed.
