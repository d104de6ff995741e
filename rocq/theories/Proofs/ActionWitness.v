(** C85: samples and deviations. *)
From Coq Require Import List Permutation ZArith.
From Verif.Model Require Import Base Locate Helpers Node Conditions Search Resolve Rules Relationship PropertyRules SubProps Pipelines.
From Verif.Spec Require Import Paths Branches References Required Walk Values Truth Resolved Groups Nested Pipelines.
From Verif.Proofs Require Import BaseFacts WfDecide BranchProofs ConditionWitness Samples PropertyWitness GroupWitness ValueWitness PropertyRuleProofs IamWitness SubPropsProofs SubPropsWitness ElbWitness StageMain StageWitness ActionProofs ActionMain.
Import Verif.Model.Rules.
Import ListNotations.
Local Open Scope string_scope.

Definition shown (_ : val) : string := "...".
Definition actions_run (t : val) : res (list string) := rmap (map f_msg) (snd (coll_run sample_sp (mkColl [actions_rule shown] default_settings) (cfn_of t))).
Definition actions_checked (stages : val) : res (list rulematch) := actions_match shown (pipeline_template stages).
Definition type_of (owner category provider version : string) : val :=
  VDict [("Owner", VStr owner); ("Category", VStr category); ("Provider", VStr provider); ("Version", VStr version)].
Definition arts (names : list string) : val := VList (map (fun x => VDict [("Name", VStr x)]) names).
Definition act (name : string) (t : val) (inputs outputs : list string) : val :=
  VDict [("Name", VStr name); ("ActionTypeId", t); ("InputArtifacts", arts inputs); ("OutputArtifacts", arts outputs)].
Definition phase (actions : list val) : val := VDict [("Actions", VList actions)].
Definition source (name : string) (outputs : list string) : val := act name (type_of "AWS" "Source" "S3" "1") [] outputs.
Definition build (name version : string) (inputs outputs : list string) : val := act name (type_of "AWS" "Build" "CodeBuild" version) inputs outputs.

Lemma pruned_same d : forallb (fun kv => negb (Node.is_novalue (snd kv))) d = true -> pruned d d.
Proof.
  induction d as [|[k x] d IH]; intros H; [constructor|]. cbn in H. apply Bool.andb_true_iff in H as [H1 H2]. apply pr_keep; [|now apply IH]. apply is_novalue_false. now apply Bool.negb_true_iff in H1.
Qed.
Lemma arts_objects names y : In y (map (fun x => VDict [("Name", VStr x)]) names) -> exists d, y = VDict d.
Proof. intros H. apply in_map_iff in H as [x [<- _]]. eauto. Qed.
Lemma act_shaped name o c p v inputs outputs : exists e a, act name (type_of o c p v) inputs outputs = VDict e /\ (forall z, e <> [("Fn::If", z)]) /\ pruned e a /\ action_shaped a.
Proof.
  do 2 eexists. split; [reflexivity|]. split; [discriminate|]. split; [apply pruned_same; reflexivity|]. split; [eexists; reflexivity|]. split.
  - eexists. split; [reflexivity|]. intros key l [<-|[<-|[<-|[]]]]; discriminate.
  - intros key x [<-|[<-|[]]] [= <-]; eexists; (split; [reflexivity | apply arts_objects]).
Qed.
Lemma phases_shaped l : (forall x, In x l -> exists actions, x = phase actions /\ forall a, In a actions -> exists name o c p v i u, a = act name (type_of o c p v) i u) -> actions_shaped l.
Proof.
  intros H x Hx. destruct (H x Hx) as [actions [-> Ha]]. right. do 2 eexists. split; [reflexivity|]. split; [discriminate|]. split; [apply pruned_same; reflexivity|]. eexists. split; [reflexivity|].
  intros y Hy. right. destruct (Ha y Hy) as [name [o [c [p [v [i [u ->]]]]]]]. apply act_shaped.
Qed.
Lemma phase_action l n i actions name o c p v ins outs : nth_error l n = Some (phase actions) -> nth_error actions i = Some (act name (type_of o c p v) ins outs) ->
  action_in l n i [("Name", VStr name); ("ActionTypeId", type_of o c p v); ("InputArtifacts", arts ins); ("OutputArtifacts", arts outs)].
Proof.
  intros Hn Hi. exists [("Actions", VList actions)], actions. eexists. split; [eexists; split; [exact Hn|]; split; [discriminate | apply pruned_same; reflexivity]|]. split; [reflexivity|]. split; [exact Hi|]. split; [discriminate | apply pruned_same; reflexivity].
Qed.

Definition bad_phases : list val :=
  [phase [source "A" ["one"]; source "A" ["two"]];
   phase [build "B" "1.0" ["three"] ["one"]];
   phase [build "C" "1234567890" [] []]].
Lemma actions_example : let t := pipeline_template (VList bad_phases) in
  wf (template (cfn_of t)) /\ (exists m d, c_tmpl (cfn_of t) = MDict m d) /\
  (forall name attrs, resource_of t name "AWS::CodePipeline::Pipeline" attrs -> assoc "Properties" attrs = None \/ exists d, assoc "Properties" attrs = Some (VDict d)) /\
  (forall name d, pipeline t name d -> d = [] \/ exists l, assoc "Stages" d = Some (VList l) /\ actions_shaped l) /\
  pipeline t "R" [("Stages", VList bad_phases)] /\
  action_fault bad_phases 0 1 [PKey "Name"] "All action names within a stage must be unique. (A)" /\
  action_fault bad_phases 1 0 [PKey "ActionTypeId"; PKey "Version"] "Version string must match the pattern [0-9A-Za-z_-]+." /\
  action_fault bad_phases 2 0 [PKey "InputArtifacts"] "Action ""C"" declares 0 InputArtifacts which is not in expected range [1, 5]." /\
  action_fault bad_phases 1 0 [PKey "OutputArtifacts"; PKey "Name"] "Every output artifact in the pipeline must have a unique name. (one)" /\
  actions_run t = Ok ["All action names within a stage must be unique. (A)";
    "Version string must match the pattern [0-9A-Za-z_-]+.";
    "Every input artifact for an action must match the output artifact of an action earlier in the pipeline. (three)";
    "Every output artifact in the pipeline must have a unique name. (one)";
    "Version string (1234567890) must be between 1 and 9 characters in length.";
    "Action ""C"" declares 0 InputArtifacts which is not in expected range [1, 5]."] /\
  actions_run (pipeline_template (VList [phase [source "A" ["one"]]; phase [build "B" "1" ["one"] ["two"]]; phase [build "B" "2" ["one"; "two"] []]])) = Ok [].
Proof.
  cbv zeta. split; [apply wfb_sound; reflexivity|]. split; [do 2 eexists; reflexivity|]. split; [|split; [|split; [|split; [|split; [|split; [|split; [|split]]]]]]].
  - intros n attrs H. apply only_pipeline in H as [_ ->]. right. eexists. reflexivity.
  - intros n d [attrs [H Hp]]. apply only_pipeline in H as [-> ->]. injection Hp as <-. right. eexists. split; [reflexivity|]. apply phases_shaped.
    intros x [<-|[<-|[<-|[]]]]; eexists; (split; [reflexivity|]); intros a Ha; cbn [In] in Ha; [destruct Ha as [<-|[<-|[]]] | destruct Ha as [<-|[]] | destruct Ha as [<-|[]]]; do 7 eexists; reflexivity.
  - apply the_pipeline.
  - refine (af_same_name bad_phases 0 1 _ 0 _ "A" _ _ _ _ _); [eapply phase_action; reflexivity | eapply phase_action; reflexivity | constructor | reflexivity | reflexivity].
  - refine (af_letters bad_phases 1 0 _ "1.0" _ _ _ _); [eapply phase_action; reflexivity| | |].
    + eexists. split; reflexivity.
    + cbn. split; repeat constructor.
    + intros H. apply version_matches_iff in H. discriminate H.
  - refine (af_count bad_phases 2 0 _ "InputArtifacts" 1 5 0 "C" _ _ _ _ _); [eapply phase_action; reflexivity| | | |reflexivity].
    + do 6 eexists. split; [reflexivity|]. split; [reflexivity|]. split; [reflexivity|]. split; [reflexivity|]. split; [|left; split; reflexivity]. do 5 right. now left.
    + right. eexists. split; reflexivity.
    + intros [H _]. inversion H.
  - refine (af_output bad_phases 1 0 _ 0 "one" 0 0 _ 0 _ _ _ _ _); [eapply phase_action; reflexivity| |eapply phase_action; reflexivity| |].
    + do 2 eexists. split; [reflexivity|]. split; reflexivity.
    + do 2 eexists. split; [reflexivity|]. split; reflexivity.
    + left. left. constructor.
  - vm_compute. reflexivity.
  - vm_compute. reflexivity.
Qed.

(** * Deviations *)
(** A pipeline with one source in development and another with the same output otherwise: the output is reported though no deployment has both. *)
Lemma exclusive_outputs_witness :
  rmap (map rm_msg) (actions_checked (VList [if_ "IsDev" (phase [source "A" ["one"]]) (phase [source "B" ["one"]])])) =
    Ok ["Every output artifact in the pipeline must have a unique name. (one)"].
Proof. vm_compute. reflexivity. Qed.
(** An input that is there in development only, from an output that is there otherwise only, is not reported. *)
Lemma exclusive_inputs_witness :
  actions_checked (VList [if_ "IsDev" (phase [source "A" ["one"]]) (phase [source "B" ["two"]]); if_ "IsDev" (phase [build "C" "1" ["two"] []]) no_value]) = Ok [].
Proof. vm_compute. reflexivity. Qed.
(** Artifacts given by an Fn::If are counted as one. *)
Lemma if_counted_witness :
  rmap (map rm_msg) (actions_checked (VList [phase [VDict [("Name", VStr "A"); ("ActionTypeId", type_of "AWS" "Approval" "Manual" "1"); ("InputArtifacts", if_ "IsDev" (VList []) (VList []))]]])) =
    Ok ["Action ""A"" declares 1 InputArtifacts which is not the expected number [0]."].
Proof. vm_compute. reflexivity. Qed.
(** Stages that are not a list end the check for all pipelines that follow. *)
Definition two_pipelines (first : val) : val :=
  VDict [("Resources", VDict [("P", VDict [("Type", VStr pipeline_type_name); ("Properties", VDict [("Stages", first)])]);
                              ("Q", VDict [("Type", VStr pipeline_type_name); ("Properties", VDict [("Stages", VList bad_phases)])])])].
Lemma stages_not_list_witness : actions_match shown (two_pipelines (VStr "none")) = Ok [] /\
  rmap (@List.length rulematch) (actions_match shown (two_pipelines (VList []))) = Ok 6.
Proof. split; vm_compute; reflexivity. Qed.
(** A stage without actions raises an exception. *)
Lemma missing_actions_witness : actions_checked (VList [VDict [("Name", VStr "A")]]) = Err EAttribute /\
  actions_match shown (VDict [("Resources", VDict [("P", VDict [("Type", VStr pipeline_type_name); ("Properties", VDict [("Name", VStr "A")])])])]) = Err EAttribute.
Proof. split; vm_compute; reflexivity. Qed.
(** So does an action without a name that has a wrong number of artifacts, and an owner that is a list. *)
Lemma missing_name_witness : actions_checked (VList [phase [VDict [("ActionTypeId", type_of "AWS" "Approval" "Manual" "1"); ("InputArtifacts", arts ["one"])]]]) = Err EKey /\
  actions_checked (VList [phase [VDict [("Name", VStr "A"); ("ActionTypeId", VDict [("Owner", VList [VStr "AWS"])])]]]) = Err ETypeErr.
Proof. split; vm_compute; reflexivity. Qed.
(** The outputs of an action without a type are not known to later actions. *)
Lemma missing_type_witness :
  rmap (map rm_msg) (actions_checked (VList [phase [VDict [("Name", VStr "A"); ("OutputArtifacts", arts ["one"])]]; phase [build "B" "1" ["one"] []]])) =
    Ok ["Every input artifact for an action must match the output artifact of an action earlier in the pipeline. (one)"].
Proof. vm_compute. reflexivity. Qed.
(** A version that ends in a line feed is accepted. *)
Lemma version_newline_witness : actions_checked (VList [phase [act "A" (type_of "AWS" "Source" "S3" ("1" ++ String (Ascii.ascii_of_nat 10) "")) [] ["one"]]]) = Ok [].
Proof. vm_compute. reflexivity. Qed.
