(** C85 The actions of pipelines: their names, versions, and artifacts. *)
From Coq Require Import List Permutation.
Import ListNotations.
From Verif.Model Require Import Base Helpers Locate Node Conditions Search Resolve Rules Relationship PropertyRules SubProps Pipelines.
From Verif.Spec Require Import Paths Branches References Required Walk Values Truth Resolved Groups Nested Pipelines.
From Verif.Proofs Require Import Samples PropertyWitness PropertyRuleProofs IamWitness ConditionWitness GroupWitness StageMain StageWitness ActionProofs ActionMain ActionWitness.
Import Verif.Model.Rules.
Local Open Scope string_scope.

(** For stages and actions that are no Fn::If, E2541 reports exactly their faults. *)
Theorem actions_judged_partial : forall show template,
  wf template ->
  (forall name attrs, resource_of template name "AWS::CodePipeline::Pipeline" attrs -> assoc "Properties" attrs = None \/ exists d, assoc "Properties" attrs = Some (VDict d)) ->
  (forall name d, pipeline template name d -> d = [] \/ exists l, assoc "Stages" d = Some (VList l) /\ actions_shaped l) ->
  exists ms, actions_match show template = Ok ms /\
  forall m, In m ms <-> exists name d l n i q words, pipeline template name d /\ assoc "Stages" d = Some (VList l) /\ action_fault l n i q words /\
    m = mkRM (props_path name ++ [PKey "Stages"; PIdx n; PKey "Actions"; PIdx i] ++ q)%list words.
Proof. exact c85. Qed.
Print Assumptions actions_judged_partial.

(** In a run, each of these faults leads to a finding of E2541. *)
Theorem action_findings_partial : forall show sp k c raw m0 d0 name d l n i q words,
  wf (template c) ->
  snd (coll_run sp k c) = Ok raw -> In (actions_rule show) (k_all k) -> enabled (k_set k) (actions_rule show) = true -> c_tmpl c = MDict m0 d0 ->
  (forall name attrs, resource_of (template c) name "AWS::CodePipeline::Pipeline" attrs -> assoc "Properties" attrs = None \/ exists d, assoc "Properties" attrs = Some (VDict d)) ->
  (forall name d, pipeline (template c) name d -> d = [] \/ exists l, assoc "Stages" d = Some (VList l) /\ actions_shaped l) ->
  pipeline (template c) name d -> assoc "Stages" d = Some (VList l) -> action_fault l n i q words ->
  exists f, locate_match c "E2541" (mkRM (props_path name ++ [PKey "Stages"; PIdx n; PKey "Actions"; PIdx i] ++ q)%list words) = Ok f /\ In f raw.
Proof. exact c85_run. Qed.
Print Assumptions action_findings_partial.

(** Outputs in branches that exclude each other are reported as not unique. *)
Theorem exclusive_outputs_refuted : rmap (map rm_msg) (actions_checked (VList [if_ "IsDev" (phase [source "A" ["one"]]) (phase [source "B" ["one"]])])) =
    Ok ["Every output artifact in the pipeline must have a unique name. (one)"].
Proof. exact exclusive_outputs_witness. Qed.
Print Assumptions exclusive_outputs_refuted.

(** An input whose output is never deployed with it is not reported. *)
Theorem exclusive_inputs_refuted : actions_checked (VList [if_ "IsDev" (phase [source "A" ["one"]]) (phase [source "B" ["two"]]); if_ "IsDev" (phase [build "C" "1" ["two"] []]) no_value]) = Ok [].
Proof. exact exclusive_inputs_witness. Qed.
Print Assumptions exclusive_inputs_refuted.

(** An Fn::If in place of artifacts is counted as one artifact. *)
Theorem counted_if_refuted : rmap (map rm_msg) (actions_checked (VList [phase [VDict [("Name", VStr "A"); ("ActionTypeId", type_of "AWS" "Approval" "Manual" "1"); ("InputArtifacts", if_ "IsDev" (VList []) (VList []))]]])) =
    Ok ["Action ""A"" declares 1 InputArtifacts which is not the expected number [0]."].
Proof. exact if_counted_witness. Qed.
Print Assumptions counted_if_refuted.

(** Stages that are not a list end the check of all pipelines that follow. *)
Theorem stages_text_refuted : actions_match shown (two_pipelines (VStr "none")) = Ok [] /\
  rmap (@List.length rulematch) (actions_match shown (two_pipelines (VList []))) = Ok 6.
Proof. exact stages_not_list_witness. Qed.
Print Assumptions stages_text_refuted.

(** A stage without actions, and a pipeline without stages, end the check with an exception. *)
Theorem missing_members_refuted : actions_checked (VList [VDict [("Name", VStr "A")]]) = Err EAttribute /\
  actions_match shown (VDict [("Resources", VDict [("P", VDict [("Type", VStr pipeline_type_name); ("Properties", VDict [("Name", VStr "A")])])])]) = Err EAttribute.
Proof. exact missing_actions_witness. Qed.
Print Assumptions missing_members_refuted.

(** So do an action without a name but with a wrong number of artifacts and an owner that is a list. *)
Theorem missing_name_refuted : actions_checked (VList [phase [VDict [("ActionTypeId", type_of "AWS" "Approval" "Manual" "1"); ("InputArtifacts", arts ["one"])]]]) = Err EKey /\
  actions_checked (VList [phase [VDict [("Name", VStr "A"); ("ActionTypeId", VDict [("Owner", VList [VStr "AWS"])])]]]) = Err ETypeErr.
Proof. exact missing_name_witness. Qed.
Print Assumptions missing_name_refuted.

(** The outputs of an action without a type are forgotten, so that inputs that match them are reported. *)
Theorem missing_action_type_refuted : rmap (map rm_msg) (actions_checked (VList [phase [VDict [("Name", VStr "A"); ("OutputArtifacts", arts ["one"])]]; phase [build "B" "1" ["one"] []]])) =
    Ok ["Every input artifact for an action must match the output artifact of an action earlier in the pipeline. (one)"].
Proof. exact missing_type_witness. Qed.
Print Assumptions missing_action_type_refuted.

(** A version that ends in a line feed is accepted. *)
Theorem version_line_refuted : actions_checked (VList [phase [act "A" (type_of "AWS" "Source" "S3" ("1" ++ String (Ascii.ascii_of_nat 10) "")) [] ["one"]]]) = Ok [].
Proof. exact version_newline_witness. Qed.
Print Assumptions version_line_refuted.

Example bad_actions_example : let t := pipeline_template (VList bad_phases) in
  wf (template (cfn_of t)) /\ (exists m d, c_tmpl (cfn_of t) = MDict m d) /\
  (forall name attrs, resource_of t name "AWS::CodePipeline::Pipeline" attrs -> assoc "Properties" attrs = None \/ exists d, assoc "Properties" attrs = Some (VDict d)) /\
  (forall name d, pipeline t name d -> d = [] \/ exists l, assoc "Stages" d = Some (VList l) /\ actions_shaped l) /\
  pipeline t "R" [("Stages", VList bad_phases)] /\
  action_fault bad_phases 0 1 [PKey "Name"] "All action names within a stage must be unique. (A)" /\
  action_fault bad_phases 1 0 [PKey "ActionTypeId"; PKey "Version"] "Version string must match the pattern [0-9A-Za-z_-]+." /\
  action_fault bad_phases 2 0 [PKey "InputArtifacts"] "Action ""C"" declares 0 InputArtifacts which is not in expected range [1, 5]." /\
  action_fault bad_phases 1 0 [PKey "OutputArtifacts"; PKey "Name"] "Every output artifact in the pipeline must have a unique name. (one)" /\
  actions_run t = Ok ["All action names within a stage must be unique. (A)";
    "Version string must match the pattern [0-9A-Za-z_-]+.";
    "Every input artifact for an action must match the output artifact of an action earlier in the pipeline. (three)";
    "Every output artifact in the pipeline must have a unique name. (one)";
    "Version string (1234567890) must be between 1 and 9 characters in length.";
    "Action ""C"" declares 0 InputArtifacts which is not in expected range [1, 5]."] /\
  actions_run (pipeline_template (VList [phase [source "A" ["one"]]; phase [build "B" "1" ["one"] ["two"]]; phase [build "B" "2" ["one"; "two"] []]])) = Ok [].
Proof. exact actions_example. Qed.
