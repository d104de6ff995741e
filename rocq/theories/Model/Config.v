(** Model of src/cfnlint/config.py: where option values come from. *)
From Verif.Model Require Import Base Helpers.

Definition args := list (string * val).

(** ConfigFileArgs.merge_config, config.py:173-209.  Both documents are dicts; the first loop runs over the keys of the
    user configuration (whose key set it does not change), the second appends the project's own keys. *)
Fixpoint merge_config (user : val) (project : val) {struct user} : val :=
  match user, project with
  | VDict u, VDict p =>
      let merged :=
        (fix go (u : list (string * val)) : list (string * val) :=
           match u with
           | [] => []
           | (k, uv) :: rest =>
               let uv' := match assoc k p with
                          | None => uv
                          | Some pv => match uv, pv with
                                       | VDict _, VDict _ => merge_config uv pv
                                       | _, _ => pv
                                       end
                          end in
               (k, uv') :: go rest
           end) u in
      VDict (merged ++ filter (fun kv => negb (mem_assoc (fst kv) u)) p)
  | _, _ => user
  end.

(** comma_separated_arg, config.py:231-233. *)
Definition comma_separated_arg (s : string) : list string := split_on "," s.

(** RuleConfigurationAction._parse_rule_configuration, config.py:259-271: results maps rule id to its settings.
    IndexError when there is no ':' or no '='. *)
Definition rule_configs := list (string * list (string * string)).

Definition add_setting (rid name value : string) (rs : rule_configs) : rule_configs :=
  let old := match assoc rid rs with Some o => o | None => [] end in
  set_assoc rid (set_assoc name value old) rs.

Definition parse_one_config (c : string) : res (string * string * string) :=
  match split_on ":" c with
  | rid :: body :: _ =>
      match split_on "=" body with
      | name :: value :: _ => Ok (rid, name, value)
      | _ => Err EIndex
      end
  | _ => Err EIndex
  end.

Fixpoint parse_configs (cs : list string) (rs : rule_configs) : res rule_configs :=
  match cs with
  | [] => Ok rs
  | c :: rest => do x <- parse_one_config c;
                 let '(rid, name, value) := x in
                 parse_configs rest (add_setting rid name value rs)
  end.
Definition parse_rule_configuration (s : string) : res rule_configs := parse_configs (comma_separated_arg s) [].

(** RuleConfigurationAction.__call__, config.py:273-287.  [None] stands for the help text and exit at lines 285-287. *)
Definition merge_settings (items : rule_configs) (nv : rule_configs) : rule_configs :=
  fold_left (fun its kv =>
      match assoc (fst kv) its with
      | Some old => set_assoc (fst kv) (fold_left (fun o s => set_assoc (fst s) (snd s) o) (snd kv) old) its
      | None => set_assoc (fst kv) (snd kv) its
      end) nv items.
Fixpoint rule_configuration_action (values : list string) (items : rule_configs) : option rule_configs :=
  match values with
  | [] => Some items
  | v :: rest => match parse_rule_configuration v with
                 | Ok nv => rule_configuration_action rest (merge_settings items nv)
                 | Err _ => None
                 end
  end.

(** TemplateArgs.set_template_args, config.py:441-470.  [.get] on a Metadata that is not a dict raises. *)
Definition template_arg_ok (name : string) (v : val) : bool :=
  if smem name ["ignore_checks"; "regions"; "append_rules"; "include_checks"] then is_list v
  else if String.eqb name "override_spec" then is_str v
  else if String.eqb name "ignore_bad_template" then is_bool v
  else if String.eqb name "configure_rules" then is_dict v
  else false.
Definition set_template_args (template : val) : res args :=
  match template with
  | VDict _ =>
      do m <- vget_def "Metadata" (VDict []) template;
      do l <- vget_def "cfn-lint" (VDict []) m;
      do configs <- vget_def "config" (VDict []) l;
      Ok (match configs with
          | VDict cs => filter (fun kv => template_arg_ok (fst kv) (snd kv)) cs
          | _ => []
          end)
  | _ => Ok []
  end.

(** The three sources; [cli] always has an entry for every option (argparse), missing entries read as None. *)
Record sources := mkSources { cli : args; tmpl : args; file : args }.

Definition lookup (a : args) (name : string) : val := match assoc name a with Some v => v | None => VNull end.

(** ConfigMixIn._get_argument_value, config.py:486-496. *)
Definition get_argument_value (s : sources) (name : string) (is_template is_config_file : bool) : val :=
  let cli_value := lookup (cli s) name in
  let template_value := lookup (tmpl s) name in
  let file_value := lookup (file s) name in
  if truthy cli_value then cli_value
  else if truthy template_value && is_template then template_value
  else if truthy file_value && is_config_file then file_value
  else cli_value.

(** The option properties, config.py:498-644: which sources each option may come from: (template, file). *)
Definition option_sources (name : string) : bool * bool :=
  if smem name ["ignore_checks"; "include_checks"; "include_experimental"; "regions"; "ignore_bad_template";
                "configure_rules"] then (true, true)
  else if smem name ["mandatory_checks"; "format"; "templates"; "ignore_templates"; "append_rules"; "override_spec";
                     "output_file"; "registry_schemas"] then (false, true)
  else (false, false).
Definition option_value (s : sources) (name : string) : val :=
  let '(t, f) := option_sources name in get_argument_value s name t f.

(** A list of strings as an option value.  An entry that is not a string makes [str.startswith] raise TypeError. *)
Fixpoint strings_of (l : list val) : res (list string) :=
  match l with
  | [] => Ok []
  | VStr s :: rest => do r <- strings_of rest; Ok (s :: r)
  | _ :: _ => Err ETypeErr
  end.
Definition string_list (v : val) : res (list string) :=
  match v with
  | VList l => strings_of l
  | VNull => Ok []                         (* [x or []] in is_enabled and configure *)
  | _ => Err ETypeErr
  end.

Definition ignore_checks (s : sources) : res (list string) := string_list (option_value s "ignore_checks").
(** config.py:502-505: ['W', 'E'] + results. *)
Definition include_checks (s : sources) : res (list string) :=
  do r <- string_list (option_value s "include_checks"); Ok (["W"; "E"] ++ r).
Definition mandatory_checks (s : sources) : res (list string) := string_list (option_value s "mandatory_checks").
Definition include_experimental (s : sources) : bool := truthy (option_value s "include_experimental").
Definition ignore_bad_template (s : sources) : bool := truthy (option_value s "ignore_bad_template").
Definition configure_rules (s : sources) : list (string * val) := dict_of (option_value s "configure_rules").

(** ConfigMixIn.regions, config.py:515-522. *)
Definition regions (s : sources) : res (list string) :=
  let results := option_value s "regions" in
  if negb (truthy results) then Ok ["us-east-1"]
  else do l <- string_list results;
       if smem "ALL_REGIONS" l then Ok REGIONS else Ok l.

(** ConfigMixIn.templates and _ignore_templates, config.py:536-600, with the result of glob.glob as an argument.
    A single string is turned into a one-element list.  [None] when no template is given. *)
Section Glob.
Variable glob : string -> list string.
Definition filenames_of (v : val) : res (list string) :=
  match v with VStr s => Ok [s] | _ => string_list v end.
Definition expand_or_self (f : string) : list string := match glob f with [] => [f] | l => l end.
Definition ignored_templates (s : sources) : res (list string) :=
  let v := option_value s "ignore_templates" in
  if truthy v then do l <- filenames_of v; Ok (flat_map expand_or_self l) else Ok [].
Fixpoint insert_str (x : string) (l : list string) : list string :=
  match l with
  | [] => [x]
  | y :: ys => if str_leb x y then x :: l else y :: insert_str x ys
  end.
Definition sort_strings (l : list string) : list string := fold_right insert_str [] l.
Definition templates (s : sources) : res (option (list string)) :=
  let alt := option_value s "template_alt" in
  let pos := option_value s "templates" in
  if truthy alt || truthy pos then
    do names <- filenames_of (if truthy alt then alt else pos);
    do ign <- ignored_templates s;
    Ok (Some (sort_strings (filter (fun f => negb (smem f ign)) (flat_map expand_or_self names))))
  else Ok None.
End Glob.
