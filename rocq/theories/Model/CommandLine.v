(** Model of the command line of config.py: the parser that create_parser builds, and what argparse (of Python 3.8, from the standard
    library: ArgumentParser.parse_known_args) makes of the arguments with it. *)
From Coq Require Import ZArith Ascii.
From Verif.Model Require Import Base Config.
Local Open Scope string_scope.

(** * The options, config.py:326-427 *)
(** What an option does: it sets a switch (action 'store_true'); keeps one value (the default action); keeps one of the formats; adds
    its values (ExtendAction, config.py:307-318), as they are or split at commas; adds settings of rules (RuleConfigurationAction);
    prints the help or the version. *)
Inductive deed := Switch | Keep | KeepFormat | Add | AddSplit | Configure | PrintHelp | PrintVersion.
Record opt := mkOpt { o_names : list string; o_dest : string; o_deed : deed }.
Definition formats : list string := ["quiet"; "parseable"; "json"; "junit"; "pretty"].
(** -h is an option of every parser of argparse. *)
Definition options : list opt :=
  [mkOpt ["-h"; "--help"] "help" PrintHelp;
   mkOpt ["-t"; "--template"] "template_alt" Add;
   mkOpt ["-b"; "--ignore-bad-template"] "ignore_bad_template" Switch;
   mkOpt ["--ignore-templates"] "ignore_templates" Add;
   mkOpt ["-D"; "--debug"] "debug" Switch;
   mkOpt ["-I"; "--info"] "info" Switch;
   mkOpt ["-f"; "--format"] "format" KeepFormat;
   mkOpt ["-l"; "--list-rules"] "listrules" Switch;
   mkOpt ["-r"; "--regions"] "regions" AddSplit;
   mkOpt ["-a"; "--append-rules"] "append_rules" AddSplit;
   mkOpt ["-i"; "--ignore-checks"] "ignore_checks" AddSplit;
   mkOpt ["-c"; "--include-checks"] "include_checks" AddSplit;
   mkOpt ["-m"; "--mandatory-checks"] "mandatory_checks" AddSplit;
   mkOpt ["-e"; "--include-experimental"] "include_experimental" Switch;
   mkOpt ["-x"; "--configure-rule"] "configure_rules" Configure;
   mkOpt ["--config-file"] "config_file" Keep;
   mkOpt ["-o"; "--override-spec"] "override_spec" Keep;
   mkOpt ["-g"; "--build-graph"] "build_graph" Switch;
   mkOpt ["-s"; "--registry-schemas"] "registry_schemas" AddSplit;
   mkOpt ["-v"; "--version"] "version" PrintVersion;
   mkOpt ["-u"; "--update-specs"] "update_specs" Switch;
   mkOpt ["--update-documentation"] "update_documentation" Switch;
   mkOpt ["--update-iam-policies"] "update_iam_policies" Switch;
   mkOpt ["--output-file"] "output_file" Keep].
(** _option_string_actions of argparse: the options by each of their names. *)
Definition option_strings : list (string * opt) := flat_map (fun o => map (fun n => (n, o)) (o_names o)) options.
(** How many values an option takes: none, one, or one and more. *)
Inductive arity := NoValue | OneValue | SomeValues.
Definition arity_of (o : opt) : arity :=
  match o_deed o with
  | Switch | PrintHelp | PrintVersion => NoValue
  | Keep | KeepFormat => OneValue
  | Add | AddSplit | Configure => SomeValues
  end.
(** The values before anything is parsed; the list of templates becomes empty if there are none (_get_values of argparse). *)
Definition default_of (o : opt) : list (string * val) :=
  match o_deed o with
  | Switch => [(o_dest o, VBool false)]
  | Keep | KeepFormat => [(o_dest o, VNull)]
  | Add => [(o_dest o, VList [])]
  | AddSplit => [(o_dest o, if String.eqb (o_dest o) "registry_schemas" then VNull else VList [])]
  | Configure => [(o_dest o, VDict [])]
  | PrintHelp | PrintVersion => []
  end.
Definition defaults : args := ("templates", VNull) :: flat_map default_of options.

(** * What an argument is, _parse_optional and _get_option_tuples of argparse *)
Inductive token :=
| Plain (s : string)                                                          (* 'A' *)
| Dashes                                                                      (* '-' *)
| Option (o : option opt) (written name : string) (value : option string).    (* 'O', unknown options included *)
Definition dash : ascii := "-".
Definition equals : ascii := "=".
(** split('=', 1) of a text with an '='. *)
Fixpoint split_first (c : ascii) (s : string) : option (string * string) :=
  match s with
  | EmptyString => None
  | String x r => if Ascii.eqb x c then Some (EmptyString, r)
                  else match split_first c r with Some (a, b) => Some (String x a, b) | None => None end
  end.
Definition option_tuples (s : string) : list (opt * string * option string) :=
  match s with
  | String _ (String d rest) =>
      if Ascii.eqb d dash then
        let '(p, v) := match split_first equals s with Some (p, v) => (p, Some v) | None => (s, None) end in
        map (fun no => (snd no, fst no, v)) (filter (fun no => starts_with p (fst no)) option_strings)
      else
        flat_map (fun no => if String.eqb (fst no) (String dash (String d EmptyString)) then [(snd no, fst no, Some rest)]
                            else if starts_with s (fst no) then [(snd no, fst no, None)] else []) option_strings
  | _ => []
  end.
(** '^-\d+$|^-\d*\.\d+$' *)
Definition digit (c : ascii) : bool := Nat.leb 48 (nat_of_ascii c) && Nat.leb (nat_of_ascii c) 57.
Fixpoint all_digits (s : string) : bool := match s with EmptyString => true | String c r => digit c && all_digits r end.
Definition digits (s : string) : bool := negb (String.eqb s "") && all_digits s.
Definition negative_number (s : string) : bool :=
  match s with
  | String _ r => digits r || match split_first "." r with Some (a, b) => all_digits a && digits b | None => false end
  | EmptyString => false
  end.
(** [None]: the error about an ambiguous option. *)
Definition parse_optional (s : string) : option token :=
  match s with
  | EmptyString => Some (Plain s)
  | String c r =>
      if negb (Ascii.eqb c dash) then Some (Plain s)
      else
        match assoc s option_strings with
        | Some o => Some (Option (Some o) s s None)
        | None =>
            if String.eqb r "" then Some (Plain s)
            else
              let prefixes :=
                match option_tuples s with
                | _ :: _ :: _ => None
                | [(o, n, v)] => Some (Option (Some o) s n v)
                | [] =>
                    if negative_number s then Some (Plain s)
                    else if has_char " " s then Some (Plain s)
                    else Some (Option None s s None)
                end in
              match split_first equals s with
              | Some (n, v) => match assoc n option_strings with
                               | Some o => Some (Option (Some o) s n (Some v))
                               | None => prefixes
                               end
              | None => prefixes
              end
        end
  end.
(** The loop over the arguments at the start of _parse_known_args: all arguments after '--' are plain. *)
Fixpoint tokens (l : list string) : option (list token) :=
  match l with
  | [] => Some []
  | s :: rest =>
      if String.eqb s "--" then Some (Dashes :: map Plain rest)
      else match parse_optional s, tokens rest with
           | Some t, Some ts => Some (t :: ts)
           | _, _ => None
           end
  end.
(** The argument a token was made of. *)
Definition text_of (t : token) : string :=
  match t with Plain s => s | Dashes => "--" | Option _ s _ _ => s end.

(** * Parsing, _parse_known_args *)
(** The program goes on with values and the arguments that were not understood, or ends: with a status, or by an exception of Python. *)
Inductive parsed := Stop (status : Z) | Crash (e : exn) | Values (ns : args) (extras : list string).
Definition is_option (t : token) : bool := match t with Option _ _ _ _ => true | _ => false end.
Definition is_plain (t : token) : bool := match t with Plain _ => true | _ => false end.
(** Longest beginning of tokens that satisfy a test: what the patterns '[A-]*' and 'A[A]*' match. *)
Fixpoint span (f : token -> bool) (l : list token) : list token * list token :=
  match l with
  | [] => ([], [])
  | t :: rest => if f t then let '(a, b) := span f rest in (t :: a, b) else ([], l)
  end.
(** _get_values: the first '--' is taken out. *)
Fixpoint remove_first (s : string) (l : list string) : list string :=
  match l with [] => [] | x :: r => if String.eqb x s then r else x :: remove_first s r end.
(** The settings of rules as a value. *)
Definition settings_value (rc : rule_configs) : val :=
  VDict (map (fun kv => (fst kv, VDict (map (fun s => (fst s, VStr (snd s))) (snd kv)))) rc).
Definition text_or_empty (v : val) : string := match v with VStr s => s | _ => "" end.
Definition settings_of (v : val) : rule_configs :=
  map (fun kv => (fst kv, map (fun s => (fst s, text_or_empty (snd s))) (dict_of (snd kv)))) (dict_of v).
Definition items_of (v : val) : list val := match v with VList l => l | _ => [] end.
(** take_action of argparse, with _get_values: the option with its values. *)
Definition take_action (ns : args) (o : opt) (given : list string) : parsed :=
  let vs := remove_first "--" given in
  match o_deed o with
  | Switch => Values (set_assoc (o_dest o) (VBool true) ns) []
  | PrintHelp | PrintVersion => Stop 0
  | Keep => match vs with [v] => Values (set_assoc (o_dest o) (VStr v) ns) [] | _ => Crash EValue end
  | KeepFormat =>
      match vs with
      | [v] => if smem v formats then Values (set_assoc (o_dest o) (VStr v) ns) [] else Stop 32
      | _ => Crash EValue
      end
  | Add => Values (set_assoc (o_dest o) (VList (items_of (lookup ns (o_dest o)) ++ map VStr vs)) ns) []
  | AddSplit => Values (set_assoc (o_dest o) (VList (items_of (lookup ns (o_dest o)) ++ map VStr (flat_map comma_separated_arg vs))) ns) []
  | Configure =>
      match rule_configuration_action vs (settings_of (lookup ns (o_dest o))) with
      | Some rc => Values (set_assoc (o_dest o) (settings_value rc) ns) []
      | None => Stop 0                                        (* parser.print_help(); parser.exit(), config.py:285-287 *)
      end
  end.
(** consume_optional of argparse: the options one argument names (several switches may be written in one), the values of the last, and
    what is left. *)
Inductive consumed := Wrong | Broken (e : exn) | Took (deeds : list (opt * list string)) (rest : list token).
Fixpoint chain (v : string) (o : opt) (name : string) (rest : list token) {struct v} : consumed :=
  match arity_of o with
  | OneValue | SomeValues => Took [(o, [v])] rest
  | NoValue =>
      if starts_with "--" name then Wrong
      else
        match v with
        | EmptyString => Broken EIndex                          (* explicit_arg[0] *)
        | String c v' =>
            match assoc (String dash (String c EmptyString)) option_strings with
            | None => Wrong
            | Some o' =>
                let more :=
                  match v' with
                  | EmptyString =>
                      match arity_of o' with
                      | NoValue => Took [(o', [])] rest
                      | OneValue => match rest with Plain s :: rest' => Took [(o', [s])] rest' | _ => Wrong end
                      | SomeValues => match span is_plain rest with ([], _) => Wrong | (a, b) => Took [(o', map text_of a)] b end
                      end
                  | _ => chain v' o' (String dash (String c EmptyString)) rest
                  end in
                match more with Took ds r => Took ((o, []) :: ds) r | x => x end
            end
        end
  end.
Definition consume_optional (o : opt) (name : string) (value : option string) (rest : list token) : consumed :=
  match value with
  | Some v => chain v o name rest
  | None =>
      match arity_of o with
      | NoValue => Took [(o, [])] rest
      | OneValue => match rest with Plain s :: rest' => Took [(o, [s])] rest' | _ => Wrong end
      | SomeValues => match span is_plain rest with ([], _) => Wrong | (a, b) => Took [(o, map text_of a)] b end
      end
  end.
Fixpoint take_actions (ns : args) (ds : list (opt * list string)) : parsed :=
  match ds with
  | [] => Values ns []
  | (o, vs) :: rest => match take_action ns o vs with Values ns' _ => take_actions ns' rest | x => x end
  end.
(** The names of the templates: [pending] until the first of them are met. *)
Definition take_names (ns : args) (l : list token) : args :=
  set_assoc "templates" (VList (map VStr (remove_first "--" (map text_of l)))) ns.
Fixpoint parse_loop (fuel : nat) (pending : bool) (ns : args) (extras : list string) (l : list token) : parsed :=
  match fuel with
  | 0 => Crash EOutOfFuel
  | S fuel =>
      if existsb is_option l then
        match l with
        | Option None s _ _ :: rest => parse_loop fuel pending ns (extras ++ [s]) rest
        | Option (Some o) _ n v :: rest =>
            match consume_optional o n v rest with
            | Wrong => Stop 32
            | Broken e => Crash e
            | Took ds rest' =>
                match take_actions ns ds with
                | Values ns' _ => parse_loop fuel pending ns' extras rest'
                | x => x
                end
            end
        | _ =>
            let '(a, b) := span (fun t => negb (is_option t)) l in
            if pending then parse_loop fuel false (take_names ns a) extras b
            else parse_loop fuel false ns (extras ++ map text_of a) b
        end
      else if pending then Values (take_names ns l) extras
      else Values ns (extras ++ map text_of l)
  end.
(** parse_known_args, config.py:296; errors end the program with status 32 (config.py:303-305). *)
Definition parse_args (argv : list string) : parsed :=
  match tokens argv with
  | None => Stop 32
  | Some ts => parse_loop (S (List.length ts)) true defaults [] ts
  end.
