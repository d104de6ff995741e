(** How a command line is written, and what it says (C101). *)
From Coq Require Import ZArith Ascii.
From Verif.Model Require Import Base Config CommandLine.
From Verif.Spec Require Import Options.
Local Open Scope string_scope.

(** An argument that does not begin with a dash. *)
Definition undashed (s : string) : Prop := forall r, s <> "-" ++ r.
(** Values that follow an option as arguments of their own. *)
Inductive values_after (o : opt) : list string -> Prop :=
| no_value : arity_of o = NoValue -> values_after o []
| one_value v : arity_of o = OneValue -> undashed v -> values_after o [v]
| some_values v vs : arity_of o = SomeValues -> undashed v -> Forall undashed vs -> values_after o (v :: vs).
(** A long name of an option may be cut short as long as no other option has a name that begins in the same way. *)
Inductive long_name (o : opt) : string -> Prop :=
| whole_name n : In o options -> In n (o_names o) -> long_name o n
| cut_name p rest : In o options -> (exists x, p = "--" ++ x /\ x <> "") -> In (p ++ rest) (o_names o) ->
    (forall o' n r, In o' options -> In n (o_names o') -> n = p ++ r -> n = p ++ rest) -> long_name o p.
(** Letters behind one dash: switches, and at last an option that may have values, of which one may be written without a space. *)
Definition letter_of (c : ascii) (o : opt) : Prop := In o options /\ In (String dash (String c "")) (o_names o).
Inductive letters : string -> list string -> list (opt * list string) -> Prop :=
| last_letter c o vs : letter_of c o -> values_after o vs -> letters (String c "") vs [(o, vs)]
| with_value c o v : letter_of c o -> arity_of o <> NoValue -> v <> "" -> v <> "--" -> (forall r, v <> "=" ++ r) -> letters (String c v) [] [(o, [v])]
| switch_first c o rest vs l : letter_of c o -> arity_of o = NoValue -> letters rest vs l -> letters (String c rest) vs ((o, []) :: l).
(** Arguments that name options and give their values.  [open]: further values could follow. *)
Inductive says : list string -> list (opt * list string) -> bool -> Prop :=
| by_name o n vs : long_name o n -> values_after o vs -> says (n :: vs) [(o, vs)] (match arity_of o with SomeValues => true | _ => false end)
| with_equals o n v : long_name o n -> arity_of o <> NoValue -> v <> "--" -> says [n ++ "=" ++ v] [(o, [v])] false
| by_letters s vs l : letters s vs l -> says (("-" ++ s) :: vs) l (match vs with [] => false | _ => match arity_of (fst (last l (mkOpt [] "" Switch, []))) with SomeValues => true | _ => false end end).
Inductive all_say : list string -> list (opt * list string) -> bool -> Prop :=
| say_nothing : all_say [] [] false
| say_more a l b a' l' b' : says a l b -> all_say a' l' b' -> all_say (a ++ a') (l ++ l') (match a' with [] => b | _ => b' end).
(** A command line has options and, at one place, names of templates: where no values can follow, or behind two dashes at the end. *)
Inductive command : list string -> list (opt * list string) -> list string -> Prop :=
| only_options a l b : all_say a l b -> command a l []
| names_among a l a' l' b n ns : all_say a l false -> undashed n -> Forall undashed ns -> all_say a' l' b -> command (a ++ (n :: ns) ++ a') (l ++ l') (n :: ns)
| names_behind a l b ns : all_say a l b -> command (a ++ "--" :: ns) l ns.

(** What is said about one option: its values, in their order, for each time it is named. *)
Definition said (l : list (opt * list string)) (o : opt) : list (list string) :=
  map snd (filter (fun x => String.eqb (o_dest (fst x)) (o_dest o)) l).
(** The parts of a text between commas. *)
Definition texts_of (l : list string) : val := VList (map VStr l).
(** The value of an option: whether it is named; the last of its values; all of its values; all their parts; all the settings. *)
Definition means (l : list (opt * list string)) (o : opt) (v : val) : Prop :=
  match o_deed o with
  | Switch => v = VBool true /\ said l o <> [] \/ v = VBool false /\ said l o = []
  | Keep | KeepFormat => (exists before x, List.concat (said l o) = (before ++ [x])%list /\ v = VStr x) \/ List.concat (said l o) = [] /\ v = VNull
  | Add => v = texts_of (List.concat (said l o))
  | AddSplit =>
      (exists parts, Forall2 (fun x ps => ps <> [] /\ x = join_str "," ps /\ Forall (free_of ",") ps) (List.concat (said l o)) parts /\ v = texts_of (List.concat parts) /\
         (said l o <> [] \/ o_dest o <> "registry_schemas")) \/
      said l o = [] /\ o_dest o = "registry_schemas" /\ v = VNull
  | Configure =>
      exists d, v = VDict d /\
        forall arguments, Forall (fun a => a <> [] /\ Forall plain_setting a) arguments -> List.concat (said l o) = map render_settings arguments ->
        forall rule name x, (exists r, assoc rule d = Some (VDict r) /\ assoc name r = Some (VStr x)) <-> last_value rule name (List.concat arguments) = Some x
  | PrintHelp | PrintVersion => True
  end.
(** The options are used as they should be: no help or version is wanted, formats are known, settings are written as they should be. *)
Definition good_use (x : opt * list string) : Prop :=
  match o_deed (fst x) with
  | PrintHelp | PrintVersion => False
  | KeepFormat => Forall (fun v => In v ["quiet"; "parseable"; "json"; "junit"; "pretty"]) (snd x)
  | Configure => exists arguments, Forall (fun a => a <> [] /\ Forall plain_setting a) arguments /\ snd x = map render_settings arguments
  | _ => True
  end.
(** What is said under a name of an option. *)
Definition under (l : list (opt * list string)) (n : string) : list (list string) := map snd (filter (fun x => existsb (String.eqb n) (o_names (fst x))) l).
(** The documented options by their names, with the settings they are about: switches; those with one value; those with several values, as they are; and those whose values may be separated by commas. *)
Definition switch_options : list (string * string) :=
  [("ignore_bad_template", "-b"); ("ignore_bad_template", "--ignore-bad-template"); ("debug", "-D"); ("debug", "--debug"); ("info", "-I"); ("info", "--info"); ("listrules", "-l"); ("listrules", "--list-rules");
   ("include_experimental", "-e"); ("include_experimental", "--include-experimental"); ("build_graph", "-g"); ("build_graph", "--build-graph"); ("update_specs", "-u"); ("update_specs", "--update-specs");
   ("update_documentation", "--update-documentation"); ("update_iam_policies", "--update-iam-policies")].
Definition value_options : list (string * string) :=
  [("format", "-f"); ("format", "--format"); ("config_file", "--config-file"); ("override_spec", "-o"); ("override_spec", "--override-spec"); ("output_file", "--output-file")].
Definition list_options : list (string * string) := [("template_alt", "-t"); ("template_alt", "--template"); ("ignore_templates", "--ignore-templates")].
Definition comma_options : list (string * string) :=
  [("regions", "-r"); ("regions", "--regions"); ("append_rules", "-a"); ("append_rules", "--append-rules"); ("ignore_checks", "-i"); ("ignore_checks", "--ignore-checks"); ("include_checks", "-c");
   ("include_checks", "--include-checks"); ("mandatory_checks", "-m"); ("mandatory_checks", "--mandatory-checks"); ("registry_schemas", "-s"); ("registry_schemas", "--registry-schemas")].
