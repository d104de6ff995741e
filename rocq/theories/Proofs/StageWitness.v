(** C84: samples and deviations. *)
From Coq Require Import List Permutation ZArith.
From Verif.Model Require Import Base Locate Helpers Node Conditions Search Resolve Rules Relationship PropertyRules SubProps Pipelines.
From Verif.Spec Require Import Paths Branches References Required Walk Values Truth Resolved Groups SubProps Nested Pipelines.
From Verif.Proofs Require Import BaseFacts WfDecide BranchProofs ConditionWitness Samples PropertyWitness GroupWitness ValueWitness PropertyRuleProofs IamWitness SubPropsProofs SubPropsWitness NestedProofs DeepProofs ElbWitness StageProofs StageMain.
Import Verif.Model.Rules.
Import ListNotations.
Local Open Scope string_scope.

Definition pipeline_type_name : string := "AWS::CodePipeline::Pipeline".
Definition stages_sample : rule := stages_rule toy_hash (fun l => l) 9 (VDict []).
Definition stages_run (t : val) : res (list string) := rmap (map f_msg) (snd (coll_run sample_sp (mkColl [stages_sample] default_settings) (cfn_of t))).
Definition pipeline_template (stages : val) : val :=
  VDict [("Parameters", VDict env_params); ("Conditions", VDict env_defs); ("Resources", VDict [("R", VDict [("Type", VStr pipeline_type_name); ("Properties", VDict [("Stages", stages)])])])].
Definition stages_checked (stages : val) : res (list rulematch) :=
  let t := pipeline_template stages in stages_match (fun l => l) (load toy_hash 9 t) t (VDict []).
Definition an_action (category : val) : val := VDict [("ActionTypeId", VDict [("Category", category)])].
Definition a_stage (name : string) (categories : list string) : val := VDict [("Name", VStr name); ("Actions", VList (map (fun c => an_action (VStr c)) categories))].
Lemma the_pipeline stages : pipeline (pipeline_template stages) "R" [("Stages", stages)].
Proof. exists [("Type", VStr pipeline_type_name); ("Properties", VDict [("Stages", stages)])]. split; [|reflexivity]. do 2 eexists. split; [reflexivity|]. split; [reflexivity|]. split; [now left | reflexivity]. Qed.
Lemma only_pipeline stages name attrs : resource_of (pipeline_template stages) name pipeline_type_name attrs -> name = "R" /\ attrs = [("Type", VStr pipeline_type_name); ("Properties", VDict [("Stages", stages)])].
Proof. intros [top [rs [[= <-] [Hr [Hi _]]]]]. injection Hr as <-. destruct Hi as [[= <- <-]|[]]. auto. Qed.
Lemma a_stage_shaped l : (forall x, In x l -> exists n cs, x = a_stage n cs) -> stages_shaped l.
Proof.
  intros H n x Hn. apply nth_error_In in Hn. destruct (H x Hn) as [nm [cs ->]]. eexists. split; [reflexivity|]. split; [discriminate|].
  intros y [= <-]. eexists. split; [reflexivity|]. intros a Ha. apply in_map_iff in Ha as [c [<- _]]. eexists. exists (Some c). split; [reflexivity|]. eexists. split; reflexivity.
Qed.
Definition bad_stages : list val := [a_stage "A" ["Source"; "Build"]; a_stage "B" ["Build"; "Source"]; a_stage "A" ["Deploy"]].
Lemma stages_example : let t := pipeline_template (VList bad_stages) in
  wf (template (cfn_of t)) /\ wf (VDict []) /\ (exists m d, c_tmpl (cfn_of t) = MDict m d) /\
  (forall name attrs, resource_of t name pipeline_type_name attrs -> assoc "Properties" attrs = None \/ exists d, assoc "Properties" attrs = Some (VDict d)) /\
  (forall name d, pipeline t name d -> ~ In name FUNCTIONS /\ at_path (props_path name ++ [PKey "Stages"])%list (VDict []) = None /\
     forall v, assoc "Stages" d = Some v -> tidy v /\ (forall n, ~ rests_on v n) /\ forall l, v = VList l -> stages_shaped l) /\
  pipeline t "R" [("Stages", VList bad_stages)] /\
  stages_fault bad_stages [PIdx 0; PKey "Name"] "The first stage of a pipeline must contain only source actions." /\
  stages_fault bad_stages [PIdx 1; PKey "Actions"; PIdx 1] "Only the first stage of a pipeline may contain source actions." /\
  stages_fault bad_stages [PIdx 2; PKey "Name"] "All stage names within a pipeline must be unique. (A)" /\
  stages_run t = Ok ["The first stage of a pipeline must contain only source actions."; "Only the first stage of a pipeline may contain source actions."; "All stage names within a pipeline must be unique. (A)"] /\
  stages_run (pipeline_template (VList [a_stage "A" ["Source"; "Source"]; a_stage "B" ["Build"]])) = Ok [] /\
  stages_run (pipeline_template (VList [a_stage "A" ["Source"]])) = Ok ["CodePipeline has 1 stages. There must be at least two stages."; "At least one stage in pipeline must contain an action that is not a source action."].
Proof.
  cbv zeta. split; [apply wfb_sound; reflexivity|]. split; [apply wfb_sound; reflexivity|]. split; [do 2 eexists; reflexivity|]. split; [|split; [|split; [|split; [|split; [|split; [|split; [|split]]]]]]].
  - intros n attrs H. apply only_pipeline in H as [_ ->]. right. eexists. reflexivity.
  - intros n d [attrs [H Hp]]. apply only_pipeline in H as [-> ->]. injection Hp as <-. split; [cbn; intuition discriminate|]. split; [reflexivity|]. intros v [= <-].
    destruct (ifless_tidy (VList bad_stages) eq_refl) as [H1 H2]. split; [exact H1|]. split; [exact H2|]. intros l [= <-]. apply a_stage_shaped. intros x [<-|[<-|[<-|[]]]]; eauto.
  - apply the_pipeline.
  - refine (st_mixed bad_stages _ 0 _ (Some "Source") 1 _ (Some "Build") eq_refl _ _ _ _ _); try (eexists; split; reflexivity). discriminate.
  - refine (st_later bad_stages 1 _ 1 _ eq_refl _ _ _); try (eexists; split; reflexivity). constructor.
  - refine (st_same_name bad_stages 0 2 _ _ "A" eq_refl eq_refl _ eq_refl eq_refl). constructor. constructor.
  - vm_compute. reflexivity.
  - vm_compute. reflexivity.
  - vm_compute. reflexivity.
Qed.

(** A second stage that is there in development only. *)
Definition sometimes_two : val := VList [a_stage "A" ["Source"]; if_ "IsDev" (a_stage "B" ["Build"]) no_value].
Lemma deep_action decide c : deep decide (an_action (VStr c)) (Some (an_action (VStr c))).
Proof. unfold an_action. apply de_object; [cbn; intuition discriminate | discriminate|]. apply dm_keep; [|constructor]. apply de_object; [cbn; intuition discriminate | discriminate|]. apply dm_keep; constructor. Qed.
Lemma deep_stage decide n cs : deep decide (a_stage n cs) (Some (a_stage n cs)).
Proof.
  unfold a_stage. apply de_object; [cbn; intuition discriminate | discriminate|]. apply dm_keep; [constructor|]. apply dm_keep; [|constructor]. apply de_list.
  induction cs as [|c cs IH]; [constructor|]. apply di_keep; [apply deep_action | exact IH].
Qed.
Lemma two_then b : b "IsDev" = true -> deep (known ["IsDev"] b) sometimes_two (Some (VList [a_stage "A" ["Source"]; a_stage "B" ["Build"]])).
Proof. intros Hb. apply de_list. apply di_keep; [apply deep_stage|]. apply di_keep; [|constructor]. apply de_then; [unfold known; cbn; now rewrite Hb | apply deep_stage]. Qed.
Lemma two_else b : b "IsDev" = false -> deep (known ["IsDev"] b) sometimes_two (Some (VList [a_stage "A" ["Source"]])).
Proof. intros Hb. apply de_list. apply di_keep; [apply deep_stage|]. apply di_drop; [|constructor]. apply de_else; [unfold known; cbn; now rewrite Hb | constructor]. Qed.
Lemma sometimes_stages_example : let t := pipeline_template sometimes_two in
  wf t /\ section_of "Conditions" t env_defs /\ section_of "Parameters" t env_params /\
  (forall name d, pipeline t name d -> ~ In name FUNCTIONS /\ at_path (props_path name ++ [PKey "Stages"])%list (VDict []) = None /\
     forall v, assoc "Stages" d = Some v -> tidy v /\ NoDup ["IsDev"] /\ (forall n, In n ["IsDev"] <-> rests_on v n) /\ (forall n, In n ["IsDev"] -> In n (keys env_defs)) /\
       (List.length ["IsDev"] <= 4 \/ some_related env_defs ["IsDev"]) /\ (exists w b, deployment toy_hash env_params w /\ gives env_defs w ["IsDev"] b) /\
       forall b l, stages_left ["IsDev"] b v l -> stages_shaped l) /\
  pipeline t "R" [("Stages", sometimes_two)] /\ deployment toy_hash env_params env_values /\ gives env_defs env_values ["IsDev"] env_bools /\
  stages_left ["IsDev"] env_bools sometimes_two [a_stage "A" ["Source"]] /\
  stages_fault [a_stage "A" ["Source"]] [] "CodePipeline has 1 stages. There must be at least two stages." /\
  stages_run t = Ok ["CodePipeline has 1 stages. There must be at least two stages. When condition ""IsDev"" is False";
                     "At least one stage in pipeline must contain an action that is not a source action. When condition ""IsDev"" is False"].
Proof.
  cbv zeta. split; [apply wfb_sound; reflexivity|]. split; [eexists; split; [reflexivity | now left]|]. split; [eexists; split; [reflexivity | now left]|]. split; [|split; [|split; [|split; [|split; [|split]]]]].
  - intros n d [attrs [H Hp]]. apply only_pipeline in H as [-> ->]. injection Hp as <-. split; [cbn; intuition discriminate|]. split; [reflexivity|]. intros v [= <-].
    assert (Hn : NoDup ["IsDev"]) by (constructor; [intros [] | constructor]).
    split; [apply ti_list; intros x [<-|[<-|[]]]; [now apply ifless_tidy|]; apply ti_if; now apply ifless_tidy|]. split; [exact Hn|]. split; [|split; [|split; [|split]]].
    + intros n. split.
      * intros [<-|[]]. eapply ro_item; [right; now left|]. constructor.
      * intros H. inversion H as [| | |l x n' Hx Hr|]; subst. destruct Hx as [<-|[<-|[]]]; [now elim (proj2 (ifless_tidy (a_stage "A" ["Source"]) eq_refl) n)|].
        inversion Hr as [|c t e n' Ht|c t e n' He| |d k x n' Hx' Hk' Hr'']; subst; [now left | now elim (proj2 (ifless_tidy (a_stage "B" ["Build"]) eq_refl) n) | elim (proj2 (ifless_tidy no_value eq_refl) n He)|].
        destruct Hx' as [[= <- <-]|[]]. elim Hk'. apply smem_iff. reflexivity.
    + intros n [<-|[]]. cbn; auto.
    + left. cbn. auto.
    + exists env_values, env_bools. split; [apply env_deployment | apply env_one; cbn; auto].
    + intros b l Hd. cbn [stages_left] in Hd. destruct (b "IsDev") eqn:Eb.
      * pose proof (deep_unique _ _ _ _ _ Hn Hd (two_then b Eb)) as E. injection E as ->. apply a_stage_shaped. intros x [<-|[<-|[]]]; eauto.
      * pose proof (deep_unique _ _ _ _ _ Hn Hd (two_else b Eb)) as E. injection E as ->. apply a_stage_shaped. intros x [<-|[]]; eauto.
  - apply the_pipeline.
  - apply env_deployment.
  - apply env_one; cbn; auto.
  - now apply two_else.
  - apply (st_few [a_stage "A" ["Source"]]). cbn. auto.
  - vm_compute. reflexivity.
Qed.

(** * Deviations *)
(** A first stage without actions, and a category that is a reference, end the check with an exception. *)
Lemma no_actions_witness : stages_checked (VList [VDict [("Name", VStr "A")]; a_stage "B" ["Build"]]) = Err EKey.
Proof. vm_compute. reflexivity. Qed.
Lemma category_ref_witness : stages_checked (VList [VDict [("Name", VStr "A"); ("Actions", VList [an_action (VDict [("Ref", VStr "Kind")])])]; a_stage "B" ["Build"]]) = Err ETypeErr.
Proof. vm_compute. reflexivity. Qed.
(** A stage that is AWS::NoValue is counted when there are no conditions. *)
Lemma gone_stage_witness : rmap (map rm_msg) (stages_checked (VList [a_stage "A" ["Source"]; no_value])) =
    Ok ["At least one stage in pipeline must contain an action that is not a source action."] /\
  rmap (map rm_msg) (stages_checked (VList [if_ "IsDev" (a_stage "A" ["Source"]) (a_stage "A" ["Source"]); no_value])) =
    Ok ["CodePipeline has 1 stages. There must be at least two stages. When condition ""IsDev"" is True"; "At least one stage in pipeline must contain an action that is not a source action. When condition ""IsDev"" is True";
        "CodePipeline has 1 stages. There must be at least two stages. When condition ""IsDev"" is False"; "At least one stage in pipeline must contain an action that is not a source action. When condition ""IsDev"" is False"].
Proof. split; vm_compute; reflexivity. Qed.
(** An action without a type silently ends the checks of the pipeline: the two stages with the same name are not reported. *)
Lemma no_type_witness : stages_checked (VList [VDict [("Name", VStr "A"); ("Actions", VList [VDict []])]; a_stage "A" ["Build"]]) = Ok [].
Proof. vm_compute. reflexivity. Qed.
(** Where a stage is left out, the index of a later one is that in what is left, which may not exist in the template: the run then crashes. *)
Definition shifted : val := VList [a_stage "A" ["Source"]; if_ "IsDev" (a_stage "B" ["Build"]) no_value; a_stage "C" ["Build"]; a_stage "D" ["Build"; "Source"]].
Lemma shifted_witness :
  stages_checked shifted = Ok [mkRM (props_path "R" ++ [PKey "Stages"; PIdx 3; PKey "Actions"; PIdx 1])%list "Only the first stage of a pipeline may contain source actions. When condition ""IsDev"" is True";
                               mkRM (props_path "R" ++ [PKey "Stages"; PIdx 2; PKey "Actions"; PIdx 1])%list "Only the first stage of a pipeline may contain source actions. When condition ""IsDev"" is False"] /\
  at_path (props_path "R" ++ [PKey "Stages"; PIdx 2; PKey "Actions"; PIdx 1])%list (pipeline_template shifted) = None /\
  exists f, snd (coll_run sample_sp (mkColl [stages_sample] default_settings) (cfn_of (pipeline_template shifted))) = Ok [f] /\ f_rule f = "E0002".
Proof. split; [vm_compute; reflexivity|]. split; [reflexivity|]. eexists. split; vm_compute; reflexivity. Qed.
