(** The program from its arguments to its exit status: configuration files (config.py:44-228), ConfigMixIn (config.py:475-483),
    get_args_filenames (core.py:118-162), run_cli (core.py:43-60) and main (__main__.py:15-60). *)
From Coq Require Import ZArith QArith Ascii.
From Verif.Model Require Import Base Node Locate Helpers Rules Runner Config Core Loading CommandLine.
Import Verif.Model.Rules.
Local Open Scope string_scope.
Local Open Scope nat_scope.

(** * The schema of configuration files, data/CfnLintCli/config/schema.json *)
(** re.search('^.*$', key): a line feed may only be the last character. *)
Fixpoint any_name (k : string) : bool :=
  match k with
  | EmptyString => true
  | String c r => if Ascii.eqb c "010" then String.eqb r "" else any_name r
  end.
(** Lines 45-68 of the schema: jsonschema counts floats without a fraction as integers, and no booleans. *)
Definition setting_ok (v : val) : bool :=
  match v with
  | VStr _ | VInt _ | VBool _ => true
  | VFloat q => Pos.eqb (Qden (Qred q)) 1
  | _ => false
  end.
Definition settings_ok (v : val) : bool :=
  match v with
  | VDict rs => forallb (fun kv => any_name (fst kv) &&
                  match snd kv with
                  | VDict os => forallb (fun s => negb (any_name (fst s)) || setting_ok (snd s)) os
                  | _ => false
                  end) rs
  | _ => false
  end.
Definition texts_ok (v : val) : bool := match v with VList l => forallb is_str l | _ => false end.
(** jsonschema.validate with the schema. *)
Definition valid_config (v : val) : bool :=
  match v with
  | VDict d =>
      forallb (fun kv =>
        if smem (fst kv) ["append_rules"; "ignore_checks"; "include_checks"; "mandatory_checks"; "regions"; "templates"; "ignore_templates"; "registry_schemas"]
        then texts_ok (snd kv)
        else if smem (fst kv) ["override_spec"; "output_file"] then is_str (snd kv)
        else if String.eqb (fst kv) "configure_rules" then settings_ok (snd kv)
        else false) d
  | _ => false
  end.

(** * Configuration files *)
(** Places of files: in the home folder, in the current one, or where the user says. *)
Inductive spot := Home (name : string) | Here (name : string) | At (path : string).
Section Program.
(** Path.is_file and cfn_yaml.load. *)
Variable is_file : spot -> bool.
Variable load : spot -> res val.
(** _find_config, config.py:71-108. *)
Definition find_config : option spot * option spot :=
  let project :=
    if is_file (Here ".cfnlintrc.yaml") then Here ".cfnlintrc.yaml"
    else if is_file (Here ".cfnlintrc.yml") then Here ".cfnlintrc.yml"
    else Here ".cfnlintrc" in
  (if is_file (Home ".cfnlintrc") then Some (Home ".cfnlintrc") else None,
   if is_file project then Some project else None).
(** _read_config, config.py:211-228.  The path '' of a file that was not found is the current folder, which is no file. *)
Definition read_config (p : option spot) : res val :=
  match p with
  | None => Ok (VDict [])
  | Some p =>
      if is_file p then do v <- load p; Ok (if truthy v then v else VDict [])
      else Ok (VDict [])
  end.
(** validate_config, config.py:151-171. *)
Definition validate_config (v : val) : res unit := if valid_config v then Ok tt else Err (EOther "ValidationError").
(** ConfigFileArgs.__init__ and load, config.py:55-69, 123-149. *)
Definition load_config (config_file : val) : res args :=
  if truthy config_file then
    do c <- read_config (match config_file with VStr s => Some (At s) | _ => None end);
    do _ <- validate_config c;
    Ok (dict_of c)
  else
    let '(user, project) := find_config in
    do u <- read_config user; do _ <- validate_config u;
    do p <- read_config project; do _ <- validate_config p;
    Ok (dict_of (merge_config u p)).

(** * Starting *)
(** ConfigMixIn.__init__, config.py:478-483, with the ValidationError of core.py:120-124. *)
Inductive config := Config (cli file : args) | NoConfig (status : Z) | ConfigRaises (e : exn).
Definition make_config (argv : list string) : config :=
  match parse_args argv with
  | Stop z => NoConfig z
  | Crash e => ConfigRaises e
  | Values ns _ =>
      match load_config (get_argument_value (mkSources ns [] []) "config_file" false false) with
      | Ok file => Config ns file
      | Err (EOther s) => if String.eqb s "ValidationError" then NoConfig 1 else ConfigRaises (EOther s)
      | Err e => ConfigRaises e
      end
  end.
(** The three kinds of maintenance, and whether the standard input is a terminal. *)
Variables update_specs update_documentation update_iam_policies : res unit.
Variable isatty : bool.
Variable glob : string -> list string.
(** What Loading needs. *)
Variable str_other : val -> string.
Variable default_dir : string.
Variable directory : string -> option (list entry).
Variable imported : string -> module.
Inductive begun := Leave (status : Z) | Fail (e : exn) | Go (cli file : args) (names : list (option string)).
Definition leave_after (r : res unit) : begun := match r with Ok _ => Leave 0 | Err e => Fail e end.
Definition append_rules (s : sources) : res (list string) := string_list (option_value s "append_rules").
(** get_args_filenames, core.py:118-162.  [None] among the names: the standard input. *)
Definition get_args_filenames (argv : list string) : begun :=
  match make_config argv with
  | NoConfig z => Leave z
  | ConfigRaises e => Fail e
  | Config ns file =>
      let s := mkSources ns [] file in
      if truthy (option_value s "update_specs") then leave_after update_specs
      else if truthy (option_value s "update_documentation") then leave_after update_documentation
      else if truthy (option_value s "update_iam_policies") then leave_after update_iam_policies
      else if truthy (option_value s "listrules") then
        match append_rules s, ignore_checks s, include_checks s, mandatory_checks s with
        | Ok ap, Ok ig, Ok inc, Ok man =>
            match rules_to_list str_other directory imported default_dir ap ig inc (configure_rules s) man with
            | Rules _ => Leave 0
            | Unexpected z => Leave z
            | Raises e => Fail e
            end
        | Err e, _, _, _ | _, Err e, _, _ | _, _, Err e, _ | _, _, _, Err e => Fail e
        end
      else
        match templates glob s with
        | Err e => Fail e
        | Ok (Some (n :: l)) => Go ns file (map Some (n :: l))
        | Ok _ => if isatty then Leave 1 else Go ns file [None]
        end
  end.

(** * Main *)
Variable sp : spec.
Variable tr : translator.
(** cfnlint.decode.decode, and the name findings carry. *)
Variable decode : option string -> decoded.
Variable name_of : option string -> string.
(** The start of run_cli, core.py:46-58: override_specs, build_graph and the reading of schemas.  They may end the program (helpers.py:520-532)
    or raise.  What they change (the specifications, the file of a graph, the schemas) is not modelled here. *)
Variable prelude : sources -> string -> mval -> res (option Z).
(** Printing the findings or writing them to a file, __main__.py:40-47. *)
Variable emit : val -> val -> list finding -> res unit.
Inductive finish := Linted (found : list finding) | Left (status : Z) | Failed (e : exn).
Section Files.
Variables cli_args file_args : args.
(** The rules of get_rules, core.py:97-109, or what its failure does. *)
Variable all_rules : list rule.
Variable unloadable : option finish.
(** One turn of the loop of main, __main__.py:26-38. *)
Definition lint_file (st : state) (n : option string) : state * finish :=
  match get_template_rules str_other all_rules cli_args file_args st (decode n) with
  | (st', Err e) => (st', Failed e)
  | (st', Ok (Errors l)) => (st', Linted l)
  | (st', Ok (Ready t _)) =>
      match unloadable with
      | Some f => (st', f)
      | None =>
          match (if truthy (erase t) then prelude (src cli_args file_args (st_targs st')) (name_of n) t else Ok None) with
          | Err e => (st', Failed e)
          | Ok (Some z) => (st', Left z)
          | Ok None =>
              match lint_one str_other sp tr all_rules cli_args file_args st (name_of n) (decode n) with
              | (st'', Ok (Findings l)) => (st'', Linted l)
              | (st'', Ok (Exit z)) => (st'', Left z)
              | (st'', Err e) => (st'', Failed e)
              end
          end
      end
  end.
Fixpoint lint_files (st : state) (names : list (option string)) (acc : list finding) : finish :=
  match names with
  | [] => Linted acc
  | n :: rest =>
      match lint_file st n with
      | (st', Linted l) => lint_files st' rest (acc ++ l)
      | (_, f) => f
      end
  end.
End Files.
(** main, __main__.py:15-52. *)
Definition main (argv : list string) : finish :=
  match get_args_filenames argv with
  | Leave z => Left z
  | Fail e => Failed e
  | Go ns file names =>
      let s := mkSources ns [] file in
      match append_rules s with
      | Err e => Failed e
      | Ok ap =>
          let found :=
            match concat_res (load_path directory imported) (default_dir :: ap) with
            | Ok rs => lint_files ns file rs None initial_state names []
            | Err e => lint_files ns file [] (Some (if caught e then Left 1 else Failed e)) initial_state names []
            end in
          match found with
          | Linted l => match emit (option_value s "format") (option_value s "output_file") l with Ok _ => Linted l | Err e => Failed e end
          | f => f
          end
      end
  end.
End Program.
(** The exit status of the command cfn-lint (setup.py:61-65): that of main, or 1 after an exception that nobody handles. *)
Definition command_status (f : finish) : Z :=
  match f with Linted l => get_exit_code l | Left z => z | Failed _ => 1 end.
(** The exit status of python -m cfnlint, __main__.py:55-60: two kinds of exceptions are logged and dropped. *)
Definition module_status (f : finish) : Z :=
  match f with Failed EValue | Failed ETypeErr => 0 | _ => command_status f end.
