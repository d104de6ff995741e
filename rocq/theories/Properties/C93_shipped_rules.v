(** C93 The rules the linter ships with. *)
From Coq Require Import List String ZArith Bool Permutation.
Import ListNotations.
From Verif.Model Require Import Base Node Locate Helpers Rules Runner Config Core Standard.
From Verif.Spec Require Import Pipeline Paths Limited ConditionUse RuleSets Shipped.
From Verif.Proofs Require Import PipelineProofs ReportProofs RuleSetMain RuleSetLint Samples RuleSetWitness StandardProofs StandardMain StandardWitness.
Import Verif.Model.Rules.
Local Open Scope string_scope.

(** The documented ids are those of the built-in findings and of the shipped rules. *)
Theorem documented_rules : forall w,
  forall id, In id documented_ids <-> In id built_in_ids \/ exists r, In r (shipped w) /\ r_id r = id.
Proof. exact c93_documented. Qed.
Print Assumptions documented_rules.

(** No two shipped rules share an id, and none takes the id of a built-in finding. *)
Theorem rules_told_apart : forall w,
  NoDup (map r_id (shipped w)) /\ forall r, In r (shipped w) -> ~ In (r_id r) built_in_ids.
Proof. exact c93_once. Qed.
Print Assumptions rules_told_apart.

(** Exactly the rules documented as experimental are, and each rule has the settings and defaults the documentation gives it. *)
Theorem documented_settings_hold : forall w r,
  In r (shipped w) ->
  (r_experimental r = true <-> In (r_id r) experimental_ids) /\ r_definition r = documented_settings (r_id r) /\
  r_config r = map (fun d => (fst d, snd (snd d))) (r_definition r).
Proof. exact c93_settings. Qed.
Print Assumptions documented_settings_hold.

(** Each documented id says whether it is an error, a warning or informational. *)
Theorem severity_known : forall id,
  In id documented_ids -> first_letter "e" "E" id \/ first_letter "w" "W" id \/ first_letter "i" "I" id.
Proof. exact c93_severity. Qed.
Print Assumptions severity_known.

(** Whatever templates are linted, and however, what is reported has a documented id. *)
Theorem only_documented_reported : forall str sp tr all cli fl w files l,
  only_shipped w all ->
  (forall c fi, In fi (fst (tr c)) -> In (f_rule fi) documented_ids) ->
  (forall name es fi, In (name, DecErr es) files -> In fi es -> In (f_rule fi) documented_ids) ->
  snd (lint_all str sp tr all cli fl initial_state files []) = Ok (Findings l) -> forall fi, In fi l -> In (f_rule fi) documented_ids.
Proof. exact c93_reported. Qed.
Print Assumptions only_documented_reported.

(** Unless they are asked for, informational and experimental rules are silent. *)
Theorem silent_unless_asked : forall w sp tr k rg man c l,
  only_shipped w (k_all k) -> (forall fi, In fi (fst (tr c)) -> f_rule fi = "E0001") ->
  (forall p, In p (s_include (k_set k)) -> p = "W" \/ p = "E") -> s_experimental (k_set k) = false ->
  snd (run_checks sp tr k rg man c) = Findings l -> forall fi, In fi l -> (is_error fi \/ is_warning fi) /\ ~ In (f_rule fi) experimental_ids.
Proof. exact c93_default. Qed.
Print Assumptions silent_unless_asked.

(** Whatever was linted before in the process, a template is linted with the shipped rules and the settings given for it. *)
Theorem every_run_uses_them : forall (str : val -> string) (sp : spec) (tr : translator) (all : list rule) (cli fl : args) (w : world),
  forall files acc name t st' l,
  with_shipped w all -> truthy (erase t) = true ->
  lint_one str sp tr all cli fl (fst (lint_all str sp tr all cli fl initial_state files acc)) name (DecOk t) = (st', Ok (Findings l)) ->
  exists k targs rg man inc, set_template_args (erase t) = Ok targs /\ regions (src cli fl targs) = Ok rg /\ with_shipped w (k_all k) /\
    (only_shipped w all -> only_shipped w (k_all k)) /\
    s_experimental (k_set k) = include_experimental (src cli fl targs) /\ ignore_checks (src cli fl targs) = Ok (s_ignore (k_set k)) /\
    include_checks (src cli fl targs) = Ok inc /\ (forall p, In p (s_include (k_set k)) <-> p = "W" \/ p = "E" \/ In p inc) /\
    mandatory_checks (src cli fl targs) = Ok man /\ s_mandatory (k_set k) = man /\
    snd (run_checks sp tr k rg man (mkCfn name (hd "us-east-1" rg) t)) = Findings l.
Proof. exact c93_runs. Qed.
Print Assumptions every_run_uses_them.

(** The order in which the files of the rules are read does not show in what is reported ... *)
Theorem order_of_files : forall w str sp tr cli fl all files,
  Permutation (shipped w) all ->
  alike_end (snd (lint_all str sp tr (shipped w) cli fl initial_state files [])) (snd (lint_all str sp tr all cli fl initial_state files [])).
Proof. exact c93_order. Qed.
Print Assumptions order_of_files.

(** ... nor in the exit status. *)
Theorem order_of_files_status : forall w str sp tr cli fl all files o o',
  Permutation (shipped w) all ->
  snd (lint_all str sp tr (shipped w) cli fl initial_state files []) = Ok o -> snd (lint_all str sp tr all cli fl initial_state files []) = Ok o' ->
  exit_status o = exit_status o'.
Proof. exact c93_order_status. Qed.
Print Assumptions order_of_files_status.

Example bare_loaded_ : forall w all,
  Permutation (shipped w) all -> with_shipped w all /\ only_shipped w all.
Proof. exact loaded_with. Qed.

Example faulty_report_ : exists l, map brief l = faults /\
  snd (lint_all (fun _ => "") no_spec no_translator (shipped bare) [] [] initial_state [("t.yaml", DecOk faulty)] []) = Ok (Findings l).
Proof. exact faulty_report. Qed.

Example faulty_reversed_ : Permutation (shipped bare) (rev (shipped bare)) /\ exists l, List.length l = 5%nat /\
  snd (lint_all (fun _ => "") no_spec no_translator (rev (shipped bare)) [] [] initial_state [("t.yaml", DecOk faulty)] []) = Ok (Findings l).
Proof. exact faulty_reversed. Qed.
