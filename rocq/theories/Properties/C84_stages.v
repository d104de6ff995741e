(** C84 The stages of pipelines: their number, their sources and their names. *)
From Coq Require Import List Permutation.
Import ListNotations.
From Verif.Model Require Import Base Helpers Locate Node Conditions Search Resolve Rules Relationship PropertyRules SubProps Pipelines.
From Verif.Spec Require Import Paths Branches References Required Walk Values Truth Resolved Groups SubProps Nested Pipelines.
From Verif.Proofs Require Import Samples PropertyWitness PropertyRuleProofs IamWitness ConditionWitness GroupWitness StageProofs StageMain StageWitness.
Import Verif.Model.Rules.
Local Open Scope string_scope.

(** Without conditions in stages, E2540 reports exactly their faults. *)
Theorem stages_judged_partial : forall order c template globals,
  wf template -> wf globals ->
  (forall name attrs, resource_of template name "AWS::CodePipeline::Pipeline" attrs -> assoc "Properties" attrs = None \/ exists d, assoc "Properties" attrs = Some (VDict d)) ->
  (forall name d, pipeline template name d -> ~ In name FUNCTIONS /\ at_path (props_path name ++ [PKey "Stages"])%list globals = None /\
     forall v, assoc "Stages" d = Some v -> tidy v /\ (forall n, ~ rests_on v n) /\ forall l, v = VList l -> stages_shaped l) ->
  exists ms, stages_match order c template globals = Ok ms /\
  forall m, In m ms <-> exists name d l q words, pipeline template name d /\ assoc "Stages" d = Some (VList l) /\ stages_fault l q words /\
    m = mkRM (props_path name ++ [PKey "Stages"] ++ q)%list words.
Proof. exact c84_plain. Qed.
Print Assumptions stages_judged_partial.

(** With conditions, each fault of the stages that some deployment has is reported with the values of the conditions, and each report is about what values of the conditions leave of the stages. *)
Theorem stages_in_deployments_partial : forall hash order template globals defs parameters (names : string -> list string),
  (forall v, digest (hash v)) -> (forall l, Permutation (order l) l) ->
  section_of "Conditions" template defs -> section_of "Parameters" template parameters ->
  NoDup (keys defs) -> (forall n v, In (n, v) defs -> well_formed defs v) ->
  NoDup (keys parameters) -> (forall n p, In (n, p) parameters -> plain_parameter p) -> told_apart hash parameters ->
  wf template -> wf globals ->
  (forall name attrs, resource_of template name "AWS::CodePipeline::Pipeline" attrs -> assoc "Properties" attrs = None \/ exists d, assoc "Properties" attrs = Some (VDict d)) ->
  (forall name d, pipeline template name d -> ~ In name FUNCTIONS /\ at_path (props_path name ++ [PKey "Stages"])%list globals = None /\
     forall v, assoc "Stages" d = Some v -> tidy v /\ NoDup (names name) /\ (forall n, In n (names name) <-> rests_on v n) /\ (forall n, In n (names name) -> In n (keys defs)) /\
       (List.length (names name) <= 4 \/ some_related defs (names name)) /\ (exists w b, deployment hash parameters w /\ gives defs w (names name) b) /\
       forall b l, stages_left (names name) b v l -> stages_shaped l) ->
  exists limit, forall fuel, limit <= fuel ->
  exists ms, stages_match order (load hash fuel template) template globals = Ok ms /\
    (forall name d v w b l q words, pipeline template name d -> assoc "Stages" d = Some v -> deployment hash parameters w -> gives defs w (names name) b ->
       stages_left (names name) b v l -> stages_fault l q words ->
       exists sc, Permutation sc (scenario_of (names name) b) /\ In (mkRM (props_path name ++ [PKey "Stages"] ++ q)%list (stage_message words (Some sc))) ms) /\
    (forall m, In m ms -> exists name d v b sc l q words, pipeline template name d /\ assoc "Stages" d = Some v /\ Permutation sc (scenario_of (names name) b) /\
       stages_left (names name) b v l /\ stages_fault l q words /\ m = mkRM (props_path name ++ [PKey "Stages"] ++ q)%list (stage_message words (Some sc)) /\
       ((some_related defs (names name) \/ forall n, In n (names name) -> exists w, deployment hash parameters w /\ gives defs w [n] b) ->
        exists w, deployment hash parameters w /\ gives defs w (names name) b)).
Proof. exact c84_conditional. Qed.
Print Assumptions stages_in_deployments_partial.

(** In a run, each fault of stages without conditions leads to a finding of E2540. *)
Theorem stage_findings_partial : forall hash order fuel globals sp k c raw m0 d0 name d l q words,
  wf (template c) -> wf globals ->
  snd (coll_run sp k c) = Ok raw -> In (stages_rule hash order fuel globals) (k_all k) -> enabled (k_set k) (stages_rule hash order fuel globals) = true -> c_tmpl c = MDict m0 d0 ->
  (forall name attrs, resource_of (template c) name "AWS::CodePipeline::Pipeline" attrs -> assoc "Properties" attrs = None \/ exists d, assoc "Properties" attrs = Some (VDict d)) ->
  (forall name d, pipeline (template c) name d -> ~ In name FUNCTIONS /\ at_path (props_path name ++ [PKey "Stages"])%list globals = None /\
     forall v, assoc "Stages" d = Some v -> tidy v /\ (forall n, ~ rests_on v n) /\ forall l, v = VList l -> stages_shaped l) ->
  pipeline (template c) name d -> assoc "Stages" d = Some (VList l) -> stages_fault l q words ->
  exists f, locate_match c "E2540" (mkRM (props_path name ++ [PKey "Stages"] ++ q)%list words) = Ok f /\ In f raw.
Proof. exact c84_run. Qed.
Print Assumptions stage_findings_partial.

(** A first stage without actions ends the check with an exception. *)
Theorem missing_actions_refuted : stages_checked (VList [VDict [("Name", VStr "A")]; a_stage "B" ["Build"]]) = Err EKey.
Proof. exact no_actions_witness. Qed.
Print Assumptions missing_actions_refuted.

(** So does a category that is a reference. *)
Theorem category_reference_refuted : stages_checked (VList [VDict [("Name", VStr "A"); ("Actions", VList [an_action (VDict [("Ref", VStr "Kind")])])]; a_stage "B" ["Build"]]) = Err ETypeErr.
Proof. exact category_ref_witness. Qed.
Print Assumptions category_reference_refuted.

(** A stage that is AWS::NoValue is counted, but not if there is a condition elsewhere in the stages. *)
Theorem removed_stage_refuted : rmap (map rm_msg) (stages_checked (VList [a_stage "A" ["Source"]; no_value])) =
    Ok ["At least one stage in pipeline must contain an action that is not a source action."] /\
  rmap (map rm_msg) (stages_checked (VList [if_ "IsDev" (a_stage "A" ["Source"]) (a_stage "A" ["Source"]); no_value])) =
    Ok ["CodePipeline has 1 stages. There must be at least two stages. When condition ""IsDev"" is True"; "At least one stage in pipeline must contain an action that is not a source action. When condition ""IsDev"" is True";
        "CodePipeline has 1 stages. There must be at least two stages. When condition ""IsDev"" is False"; "At least one stage in pipeline must contain an action that is not a source action. When condition ""IsDev"" is False"].
Proof. exact gone_stage_witness. Qed.
Print Assumptions removed_stage_refuted.

(** An action without a type ends the checks of the pipeline, so that two stages with the same name are not reported. *)
Theorem missing_type_refuted : stages_checked (VList [VDict [("Name", VStr "A"); ("Actions", VList [VDict []])]; a_stage "A" ["Build"]]) = Ok [].
Proof. exact no_type_witness. Qed.
Print Assumptions missing_type_refuted.

(** Where a stage is left out, later faults are reported at places that are shifted. If the place does not exist the run reports a crash of the rule instead. *)
Theorem shifted_stage_refuted : stages_checked shifted = Ok [mkRM (props_path "R" ++ [PKey "Stages"; PIdx 3; PKey "Actions"; PIdx 1])%list "Only the first stage of a pipeline may contain source actions. When condition ""IsDev"" is True";
                               mkRM (props_path "R" ++ [PKey "Stages"; PIdx 2; PKey "Actions"; PIdx 1])%list "Only the first stage of a pipeline may contain source actions. When condition ""IsDev"" is False"] /\
  at_path (props_path "R" ++ [PKey "Stages"; PIdx 2; PKey "Actions"; PIdx 1])%list (pipeline_template shifted) = None /\
  exists f, snd (coll_run sample_sp (mkColl [stages_sample] default_settings) (cfn_of (pipeline_template shifted))) = Ok [f] /\ f_rule f = "E0002".
Proof. exact shifted_witness. Qed.
Print Assumptions shifted_stage_refuted.

Example bad_stages_example : let t := pipeline_template (VList bad_stages) in
  wf (template (cfn_of t)) /\ wf (VDict []) /\ (exists m d, c_tmpl (cfn_of t) = MDict m d) /\
  (forall name attrs, resource_of t name pipeline_type_name attrs -> assoc "Properties" attrs = None \/ exists d, assoc "Properties" attrs = Some (VDict d)) /\
  (forall name d, pipeline t name d -> ~ In name FUNCTIONS /\ at_path (props_path name ++ [PKey "Stages"])%list (VDict []) = None /\
     forall v, assoc "Stages" d = Some v -> tidy v /\ (forall n, ~ rests_on v n) /\ forall l, v = VList l -> stages_shaped l) /\
  pipeline t "R" [("Stages", VList bad_stages)] /\
  stages_fault bad_stages [PIdx 0; PKey "Name"] "The first stage of a pipeline must contain only source actions." /\
  stages_fault bad_stages [PIdx 1; PKey "Actions"; PIdx 1] "Only the first stage of a pipeline may contain source actions." /\
  stages_fault bad_stages [PIdx 2; PKey "Name"] "All stage names within a pipeline must be unique. (A)" /\
  stages_run t = Ok ["The first stage of a pipeline must contain only source actions."; "Only the first stage of a pipeline may contain source actions."; "All stage names within a pipeline must be unique. (A)"] /\
  stages_run (pipeline_template (VList [a_stage "A" ["Source"; "Source"]; a_stage "B" ["Build"]])) = Ok [] /\
  stages_run (pipeline_template (VList [a_stage "A" ["Source"]])) = Ok ["CodePipeline has 1 stages. There must be at least two stages."; "At least one stage in pipeline must contain an action that is not a source action."].
Proof. exact stages_example. Qed.

Example conditional_stages_example : let t := pipeline_template sometimes_two in
  wf t /\ section_of "Conditions" t env_defs /\ section_of "Parameters" t env_params /\
  (forall name d, pipeline t name d -> ~ In name FUNCTIONS /\ at_path (props_path name ++ [PKey "Stages"])%list (VDict []) = None /\
     forall v, assoc "Stages" d = Some v -> tidy v /\ NoDup ["IsDev"] /\ (forall n, In n ["IsDev"] <-> rests_on v n) /\ (forall n, In n ["IsDev"] -> In n (keys env_defs)) /\
       (List.length ["IsDev"] <= 4 \/ some_related env_defs ["IsDev"]) /\ (exists w b, deployment toy_hash env_params w /\ gives env_defs w ["IsDev"] b) /\
       forall b l, stages_left ["IsDev"] b v l -> stages_shaped l) /\
  pipeline t "R" [("Stages", sometimes_two)] /\ deployment toy_hash env_params env_values /\ gives env_defs env_values ["IsDev"] env_bools /\
  stages_left ["IsDev"] env_bools sometimes_two [a_stage "A" ["Source"]] /\
  stages_fault [a_stage "A" ["Source"]] [] "CodePipeline has 1 stages. There must be at least two stages." /\
  stages_run t = Ok ["CodePipeline has 1 stages. There must be at least two stages. When condition ""IsDev"" is False";
                     "At least one stage in pipeline must contain an action that is not a source action. When condition ""IsDev"" is False"].
Proof. exact sometimes_stages_example. Qed.
