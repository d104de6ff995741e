(** Further counterexamples on conditions (C22, C33). *)
From Coq Require Import Permutation List String.
From Verif.Model Require Import Base Helpers Conditions Search Resolve Rules Relationship ConditionRules.
From Verif.Spec Require Import Truth Resolved Paths References ConditionUse.
From Verif.Proofs Require Import BaseFacts ConditionProofs ConditionWitness ScenarioMain ResolveProofs RelationProofs RelationRule SearchProofs WfDecide EqualsProofs.
Import ListNotations.
Local Open Scope string_scope.

(** A place in two branches that exclude each other. *)
Definition never_resources : list (string * val) :=
  [("R", VDict [("Type", VStr "AWS::SNS::Topic"); ("Condition", VStr "IsProd")]);
   ("S", VDict [("Type", VStr "AWS::SNS::Topic"); ("Properties", VDict [("P", if_ "IsDev" (if_ "IsDev" (VStr "x") (ref "R")) (VStr "y"))])])].
Definition never_shop : val := VDict [("Parameters", VDict env_params); ("Conditions", VDict env_defs); ("Resources", VDict never_resources)].
Definition never_place : path := [PKey "Resources"; PKey "S"; PKey "Properties"; PKey "P"; PKey "Fn::If"; PIdx 1; PKey "Fn::If"; PIdx 2; PKey "Ref"].
Lemma never_there b : ~ place_exists b never_shop never_place.
Proof.
  intros H. assert (A : b "IsDev" = true). { apply H. left. unfold never_place. do 4 (eapply ps_key; [reflexivity|]). eapply ps_then. reflexivity. }
  assert (B : b "IsDev" = false). { apply H. left. unfold never_place. do 5 (eapply ps_key; [reflexivity|]). eapply ps_item; [reflexivity|]. eapply ps_else. reflexivity. }
  rewrite A in B. discriminate B.
Qed.
Lemma never_reported : exists hash order template defs parameters fuel p resource rc,
  (forall v, digest (hash v)) /\ (forall l, Permutation (order l) l) /\
  section_of "Conditions" template defs /\ section_of "Parameters" template parameters /\ plain_conditions template /\ condition_of "Resources" resource template rc /\
  at_path p template = Some (VStr resource) /\ (forall b, ~ place_exists b template p) /\
  exists sc out, is_resource_available order (load hash fuel template) template p resource = Ok (sc :: out).
Proof.
  exists toy_hash, (fun l => l), never_shop, env_defs, env_params, 9, never_place, "R", "IsProd".
  split; [apply toy_digest|]. split; [intros; apply Permutation_refl|]. split; [eexists; split; [reflexivity|]; left; reflexivity|]. split; [eexists; split; [reflexivity|]; left; reflexivity|].
  split. { eexists. split; [reflexivity|]. intros section s [<-|[<-|[]]]; [|discriminate]. intros [= <-]. eexists. split; [reflexivity|].
    intros n x H. apply assoc_In in H as [[= <- <-]|[[= <- <-]|[]]]; eexists; (split; [reflexivity|]); [right; eexists; reflexivity | left; reflexivity]. }
  split; [do 3 eexists; split; [reflexivity|]; repeat (split; [reflexivity|]); discriminate|]. split; [reflexivity|]. split; [exact never_there|].
  eexists. eexists. vm_compute. reflexivity.
Qed.

(** An output whose condition is not defined. *)
Definition lone_output : val := VDict [("Outputs", VDict [("Name", VDict [("Value", VStr "a"); ("Condition", VStr "Missing")])])].
Lemma output_place : exists template o attrs n m, wf template /\ defined_in "Outputs" template o attrs /\ assoc "Condition" attrs = Some (VStr n) /\ ~ condition_defined template n /\
  exists_match template (VDict []) (fun _ => "") = Ok [m] /\ at_path (rm_path m) template = None.
Proof.
  exists lone_output, "Name". eexists. eexists. eexists. split; [apply wfb_sound; vm_compute; reflexivity|]. split; [do 2 eexists; split; [reflexivity|]; split; reflexivity|]. split; [reflexivity|].
  split; [|split; [vm_compute; reflexivity | reflexivity]]. intros [d [cs [[= <-] [H _]]]]. discriminate.
Qed.
(** An output whose condition is a list. *)
Lemma output_list : exists template, wf template /\ (forall p, ~ occurs "Fn::If" template (VDict []) p (VList [])) /\ exists_match template (VDict []) (fun _ => "") = Err ETypeErr.
Proof.
  exists (VDict [("Outputs", VDict [("Name", VDict [("Value", VStr "a"); ("Condition", VList [VStr "A"])])])]). split; [apply wfb_sound; vm_compute; reflexivity|].
  split; [|vm_compute; reflexivity]. intros p H. apply EqualsProofs.found in H; [|apply wfb_sound; vm_compute; reflexivity]. vm_compute in H. exact H.
Qed.
