(** C102 Configuration files and the whole program. *)
From Coq Require Import List String Ascii ZArith.
From Verif.Model Require Import Loading.
Import ListNotations.
From Verif.Model Require Import Base Node Locate Helpers Rules Runner Config Core Loading CommandLine Startup.
From Verif.Spec Require Import Options CommandLine Startup.
From Verif.Proofs Require Import StartupProofs StartupWitness.
Import Verif.Model.Rules.
Local Open Scope string_scope.

(** The schema of configuration files accepts what the specification permits and nothing else. *)
Theorem configuration_file_accepted : forall v,
  valid_config v = true <-> sound_config v.
Proof. exact c102_valid. Qed.
Print Assumptions configuration_file_accepted.

(** Without --config-file a run reads ~/.cfnlintrc and the first existing one of .cfnlintrc.yaml, .cfnlintrc.yml and .cfnlintrc in the current folder; it takes every value of the latter and those of the former that it leaves open.  If one of them says something that is not permitted, the program ends with status 1. *)
Theorem configuration_files_used : forall is_file load, forall argv cli ex u p q,
  parse_args argv = Values cli ex -> empty_value (lookup cli "config_file") ->
  content is_file load (Home ".cfnlintrc") u -> project_file is_file q -> content is_file load q p ->
  (sound_config u -> sound_config p -> exists file, make_config is_file load argv = Config cli file /\ merged_from u p file) /\
  (~ (sound_config u /\ sound_config p) -> make_config is_file load argv = NoConfig 1).
Proof. exact c102_config. Qed.
Print Assumptions configuration_files_used.

Example configuration_files_case : content some_files their_contents (Home ".cfnlintrc") user_settings /\ project_file some_files (Here ".cfnlintrc.yml") /\ content some_files their_contents (Here ".cfnlintrc.yml") project_settings /\
  sound_config user_settings /\ sound_config project_settings.
Proof. exact files_case. Qed.

Example configuration_files_values : exists cli file, make_config some_files their_contents ["a.yaml"; "-e"] = Config cli file /\ lookup cli "include_experimental" = VBool true /\
  at_keys ["regions"] (VDict file) = Some (texts_of ["us-east-1"; "us-west-2"]) /\ at_keys ["configure_rules"; "E3012"; "strict"] (VDict file) = Some (VBool false) /\
  at_keys ["configure_rules"; "E9000"; "limit"] (VDict file) = Some (VInt 3).
Proof. exact config_case. Qed.

(** With --config-file it reads only that file. *)
Theorem custom_file_used : forall is_file load, forall argv cli ex s c,
  parse_args argv = Values cli ex -> lookup cli "config_file" = VStr s -> s <> "" -> content is_file load (At s) c ->
  (sound_config c -> exists file, make_config is_file load argv = Config cli file /\ c = VDict file) /\ (~ sound_config c -> make_config is_file load argv = NoConfig 1).
Proof. exact c102_custom. Qed.
Print Assumptions custom_file_used.

(** A refused configuration, or command line, ends the program before any template is read. *)
Theorem refused_configuration_ends : forall is_file load update_specs update_documentation update_iam_policies isatty glob str_other default_dir directory imported sp tr decode name_of prelude emit, forall argv z,
  make_config is_file load argv = NoConfig z -> main is_file load update_specs update_documentation update_iam_policies isatty glob str_other default_dir directory imported sp tr decode name_of prelude emit argv = Left z.
Proof. exact c102_refused. Qed.
Print Assumptions refused_configuration_ends.

(** The options for maintenance end the program with status 0 after their work, the first of them in this order. *)
Theorem maintenance_ends : forall is_file load update_specs update_documentation update_iam_policies isatty glob str_other default_dir directory imported sp tr decode name_of prelude emit, forall argv cli file,
  make_config is_file load argv = Config cli file ->
  (lookup cli "update_specs" = VBool true -> main is_file load update_specs update_documentation update_iam_policies isatty glob str_other default_dir directory imported sp tr decode name_of prelude emit argv = match update_specs with Ok _ => Left 0 | Err e => Failed e end) /\
  (lookup cli "update_specs" = VBool false -> lookup cli "update_documentation" = VBool true -> main is_file load update_specs update_documentation update_iam_policies isatty glob str_other default_dir directory imported sp tr decode name_of prelude emit argv = match update_documentation with Ok _ => Left 0 | Err e => Failed e end) /\
  (lookup cli "update_specs" = VBool false -> lookup cli "update_documentation" = VBool false -> lookup cli "update_iam_policies" = VBool true ->
     main is_file load update_specs update_documentation update_iam_policies isatty glob str_other default_dir directory imported sp tr decode name_of prelude emit argv = match update_iam_policies with Ok _ => Left 0 | Err e => Failed e end).
Proof. exact c102_tasks. Qed.
Print Assumptions maintenance_ends.

(** Otherwise the program is a run of lint_all, the subject of the other properties, over the named templates, with the rules it loads. *)
Theorem program_lints : forall is_file load update_specs update_documentation update_iam_policies isatty glob str_other default_dir directory imported sp tr decode name_of prelude emit, forall argv cli file names ap rs,
  make_config is_file load argv = Config cli file -> Forall (fun n => lookup cli n = VBool false) ["update_specs"; "update_documentation"; "update_iam_policies"; "listrules"] ->
  templates glob (mkSources cli [] file) = Ok (Some names) -> names <> [] ->
  append_rules (mkSources cli [] file) = Ok ap -> concat_res (load_path directory imported) (default_dir :: ap) = Ok rs ->
  (forall s n t, prelude s n t = Ok None) -> (forall f o l, emit f o l = Ok tt) ->
  main is_file load update_specs update_documentation update_iam_policies isatty glob str_other default_dir directory imported sp tr decode name_of prelude emit argv = match snd (lint_all str_other sp tr rs cli file initial_state (map (fun n => (name_of (Some n), decode (Some n))) names) []) with
                 | Ok (Findings l) => Linted l | Ok (Exit z) => Left z | Err e => Failed e end.
Proof. exact c102_lints. Qed.
Print Assumptions program_lints.

Example program_case : exists cli, make_config (fun _ => false) (fun _ => Err EKey) ["b.yaml"; "a.yaml"; "-e"] = Config cli [] /\
  Forall (fun n => lookup cli n = VBool false) ["update_specs"; "update_documentation"; "update_iam_policies"; "listrules"] /\
  templates (fun _ => []) (mkSources cli [] []) = Ok (Some ["a.yaml"; "b.yaml"]) /\ append_rules (mkSources cli [] []) = Ok [].
Proof. exact run_case. Qed.

(** Without templates, also if all of them are ignored, it reads the standard input, or shows its help and ends with status 1. *)
Theorem standard_input_linted : forall is_file load update_specs update_documentation update_iam_policies isatty glob str_other default_dir directory imported sp tr decode name_of prelude emit, forall argv cli file ap rs,
  make_config is_file load argv = Config cli file -> Forall (fun n => lookup cli n = VBool false) ["update_specs"; "update_documentation"; "update_iam_policies"; "listrules"] ->
  templates glob (mkSources cli [] file) = Ok None \/ templates glob (mkSources cli [] file) = Ok (Some []) ->
  append_rules (mkSources cli [] file) = Ok ap -> concat_res (load_path directory imported) (default_dir :: ap) = Ok rs ->
  (forall s n t, prelude s n t = Ok None) -> (forall f o l, emit f o l = Ok tt) ->
  (isatty = true -> main is_file load update_specs update_documentation update_iam_policies isatty glob str_other default_dir directory imported sp tr decode name_of prelude emit argv = Left 1) /\
  (isatty = false -> main is_file load update_specs update_documentation update_iam_policies isatty glob str_other default_dir directory imported sp tr decode name_of prelude emit argv = match snd (lint_all str_other sp tr rs cli file initial_state [(name_of None, decode None)] []) with
                 | Ok (Findings l) => Linted l | Ok (Exit z) => Left z | Err e => Failed e end).
Proof. exact c102_input. Qed.
Print Assumptions standard_input_linted.

Example all_ignored_case : exists cli, make_config (fun _ => false) (fun _ => Err EKey) ["a.yaml"; "--ignore-templates"; "a.yaml"] = Config cli [] /\ templates (fun _ => []) (mkSources cli [] []) = Ok (Some []).
Proof. exact ignored_case. Qed.

(** Rules that cannot be loaded end it at the first template that can be read. *)
Theorem unloadable_rules_end : forall is_file load update_specs update_documentation update_iam_policies isatty glob str_other default_dir directory imported sp tr decode name_of prelude emit, forall argv cli file names n names' ap e t,
  make_config is_file load argv = Config cli file -> Forall (fun n => lookup cli n = VBool false) ["update_specs"; "update_documentation"; "update_iam_policies"; "listrules"] ->
  templates glob (mkSources cli [] file) = Ok (Some names) -> names = n :: names' ->
  append_rules (mkSources cli [] file) = Ok ap -> concat_res (load_path directory imported) (default_dir :: ap) = Err e ->
  (exists st k, get_template_rules str_other [] cli file initial_state (decode (Some n)) = (st, Ok (Ready t k))) ->
  main is_file load update_specs update_documentation update_iam_policies isatty glob str_other default_dir directory imported sp tr decode name_of prelude emit argv = if caught e then Left 1 else Failed e.
Proof. exact c102_unloadable. Qed.
Print Assumptions unloadable_rules_end.

(** Three settings that the README allows in configuration files are refused there. *)
Theorem documented_settings_refuted : forall is_file load a b c isatty glob str_other default_dir directory imported sp tr decode name_of prelude emit argv cli ex k v q,
  In k ["format"; "include_experimental"; "ignore_bad_template"] -> parse_args argv = Values cli ex -> lookup cli "config_file" = VNull ->
  is_file (Home ".cfnlintrc") = false -> project_file is_file q -> is_file q = true -> load q = Ok (VDict [(k, v)]) ->
  main is_file load a b c isatty glob str_other default_dir directory imported sp tr decode name_of prelude emit argv = Left 1.
Proof. exact documented_refused. Qed.
Print Assumptions documented_settings_refuted.

(** A file named by --config-file that does not exist is no error; also the other configuration files are then not read. *)
Theorem missing_file_refuted : forall is_file load n s,
  undashed n -> undashed s -> s <> "" -> is_file (At s) = false -> exists cli,
  make_config is_file load [n; "--config-file"; s] = Config cli [] /\ lookup cli "templates" = texts_of [n].
Proof. exact missing_ignored. Qed.
Print Assumptions missing_file_refuted.

(** Run as python -m cfnlint, the program ends with status 0 after some exceptions that end the command cfn-lint with status 1. *)
Theorem module_status_refuted : forall t k str_other,
  set_template_args (erase t) = Ok [] -> coll_new str_other [] [] ["W"; "E"] [] false [] = Ok k ->
  forall is_file load a b c isatty glob default_dir directory imported sp tr decode name_of prelude emit rs,
  (forall p, is_file p = false) -> (forall p, glob p = []) -> decode (Some "a.yaml") = DecOk t -> load_path directory imported default_dir = Ok rs ->
  let f := main is_file load a b c isatty glob str_other default_dir directory imported sp tr decode name_of prelude emit ["-t"; "a.yaml"; "-a"; ""] in
  f = Failed EValue /\ command_status f = 1%Z /\ module_status f = 0%Z.
Proof. exact dropped_exception. Qed.
Print Assumptions module_status_refuted.

Example module_status_case : set_template_args (VDict [("Resources", VDict [])]) = Ok [] /\ exists k, coll_new (fun _ => "") [] [] ["W"; "E"] [] false [] = Ok k.
Proof. exact dropped_case. Qed.
