(** C105 What the options about rules mean for the report of the program. *)
From Coq Require Import List String Ascii Bool Permutation ZArith.
From Verif.Model Require Import Loading.
Import ListNotations.
From Verif.Model Require Import Base Node Locate Helpers Rules Runner Config Core Refs CommandLine Startup Standard.
From Verif.Spec Require Import Pipeline Options CommandLine Startup RuleSets Paths References Faults Shipped Selection.
From Verif.Proofs Require Import PropertyWitness StandardPropWitness CrashWitness SilenceWitness CommandLineWitness SelectionProofs SelectionWitness.
Import Verif.Model.Rules.
Local Open Scope string_scope.

(** A rule whose id begins with a value of --ignore-checks reports nothing, unless its id begins with a mandatory check: one of --mandatory-checks or, if there are none, one of the configuration file.  The ids of the program itself (E0000 for templates that cannot be read, E0001, E0002) are no rules. *)
Theorem ignored_not_reported : forall is_file load update_specs update_documentation update_iam_policies isatty glob str_other default_dir directory imported sp (tr : translator) decode name_of prelude emit,
  (forall n es fi, decode n = DecErr es -> In fi es -> In (f_rule fi) built_in_ids) ->
  (forall c fi, In fi (fst (tr c)) -> In (f_rule fi) built_in_ids) ->
  forall argv l names r fi ig p,
  main is_file load update_specs update_documentation update_iam_policies isatty glob str_other default_dir directory imported sp tr decode name_of prelude emit argv = Linted r -> command argv l names -> Forall good_use l ->
  comma_said l "--ignore-checks" ig -> In p ig -> p <> "" -> In fi r -> is_prefix p (f_rule fi) -> ~ In (f_rule fi) built_in_ids ->
  exists m, is_prefix m (f_rule fi) /\
    ((exists man, comma_said l "--mandatory-checks" man /\ In m man) \/
     comma_said l "--mandatory-checks" [] /\ exists cli file, make_config is_file load argv = Config cli file /\ has_text (value_in file "mandatory_checks") m).
Proof. exact c105_ignored. Qed.
Print Assumptions ignored_not_reported.

(** A rule that is neither a warning nor an error reports only if a value of --include-checks asks for it or, if there are none, one in the Metadata of a template or in the configuration file. *)
Theorem unasked_not_reported : forall is_file load update_specs update_documentation update_iam_policies isatty glob str_other default_dir directory imported sp (tr : translator) decode name_of prelude emit,
  (forall n es fi, decode n = DecErr es -> In fi es -> In (f_rule fi) built_in_ids) ->
  (forall c fi, In fi (fst (tr c)) -> In (f_rule fi) built_in_ids) ->
  forall argv l names r fi,
  main is_file load update_specs update_documentation update_iam_policies isatty glob str_other default_dir directory imported sp tr decode name_of prelude emit argv = Linted r -> command argv l names -> Forall good_use l ->
  In fi r -> ~ In (f_rule fi) built_in_ids -> ~ is_prefix "W" (f_rule fi) -> ~ is_prefix "E" (f_rule fi) ->
  exists p, is_prefix p (f_rule fi) /\
    ((exists inc, comma_said l "--include-checks" inc /\ In p inc) \/
     comma_said l "--include-checks" [] /\
       ((exists n t cs v, decode n = DecOk t /\ at_keys ["Metadata"; "cfn-lint"; "config"] (erase t) = Some (VDict cs) /\ In ("include_checks", v) cs /\ has_text v p) \/
        exists cli file, make_config is_file load argv = Config cli file /\ has_text (value_in file "include_checks") p)).
Proof. exact c105_included. Qed.
Print Assumptions unasked_not_reported.

(** An experimental rule reports only with --include-experimental, or if the configuration file says so. *)
Theorem experimental_not_reported : forall is_file load update_specs update_documentation update_iam_policies isatty glob str_other default_dir directory imported sp (tr : translator) decode name_of prelude emit,
  (forall n es fi, decode n = DecErr es -> In fi es -> In (f_rule fi) built_in_ids) ->
  (forall c fi, In fi (fst (tr c)) -> In (f_rule fi) built_in_ids) ->
  forall argv l names r fi cli file ap rs,
  main is_file load update_specs update_documentation update_iam_policies isatty glob str_other default_dir directory imported sp tr decode name_of prelude emit argv = Linted r -> command argv l names -> Forall good_use l ->
  make_config is_file load argv = Config cli file -> append_rules (mkSources cli [] file) = Ok ap -> concat_res (load_path directory imported) (default_dir :: ap) = Ok rs ->
  In fi r -> ~ In (f_rule fi) built_in_ids -> (forall q, In q rs -> r_id q = f_rule fi -> r_experimental q = true) ->
  under l "--include-experimental" <> [] \/ nonempty (value_in file "include_experimental").
Proof. exact c105_experimental. Qed.
Print Assumptions experimental_not_reported.

(** A warning or an error that nobody ignores is looked for in each template of the run: the report of the program includes that of a run of its rule as in C94 to C99. *)
Theorem selected_rules_report : forall is_file load update_specs update_documentation update_iam_policies isatty glob str_other default_dir directory imported sp (tr : translator) decode name_of prelude emit,
  forall argv l names r n t w ds id ig,
  main is_file load update_specs update_documentation update_iam_policies isatty glob str_other default_dir directory imported sp tr decode name_of prelude emit argv = Linted r -> command argv l names -> Forall good_use l ->
  (exists cli file ap rs, make_config is_file load argv = Config cli file /\ append_rules (mkSources cli [] file) = Ok ap /\
     concat_res (load_path directory imported) (default_dir :: ap) = Ok rs /\ with_shipped w rs /\
     (forall i, In i [id; "E0002"] -> unnamed i (value_in file "ignore_checks"))) ->
  (exists ns, get_args_filenames is_file load update_specs update_documentation update_iam_policies isatty glob str_other default_dir directory imported argv = Go (fst ns) (fst (snd ns)) (snd (snd ns)) /\ In n (snd (snd ns))) ->
  decode n = DecOk t -> truthy (erase t) = true ->
  comma_said l "--ignore-checks" ig -> (forall i p, In i [id; "E0002"] -> In p ig -> p <> "" -> ~ is_prefix p i) ->
  (forall i cs v, In i [id; "E0002"] -> at_keys ["Metadata"; "cfn-lint"; "config"] (erase t) = Some (VDict cs) -> In ("ignore_checks", v) cs -> unnamed i v) ->
  is_prefix "W" id \/ is_prefix "E" id ->
  spec_ok sp -> (forall region, seen_as_is w (mkCfn (name_of n) region t) id) -> (exists m d, t = MDict m d) -> get_directives t = Ok ds ->
  exists k regions mandatory region lt, lints w sp tr k regions mandatory (mkCfn (name_of n) region t) ds id lt /\ incl lt r.
Proof. exact c105_reported. Qed.
Print Assumptions selected_rules_report.

(** Composed with C94: the program reports every reference to what does not exist in every template it reads.  The hypotheses on the template are those of C94. *)
Theorem undefined_references_end_to_end : forall is_file load update_specs update_documentation update_iam_policies isatty glob str_other default_dir directory imported sp (tr : translator) decode name_of prelude emit,
  forall argv l names r n t w ig ms q s,
  main is_file load update_specs update_documentation update_iam_policies isatty glob str_other default_dir directory imported sp tr decode name_of prelude emit argv = Linted r -> command argv l names -> Forall good_use l ->
  (exists cli file ap rs, make_config is_file load argv = Config cli file /\ append_rules (mkSources cli [] file) = Ok ap /\
     concat_res (load_path directory imported) (default_dir :: ap) = Ok rs /\ with_shipped w rs /\
     (forall i, In i ["E1012"; "E0002"] -> unnamed i (value_in file "ignore_checks"))) ->
  (exists ns, get_args_filenames is_file load update_specs update_documentation update_iam_policies isatty glob str_other default_dir directory imported argv = Go (fst ns) (fst (snd ns)) (snd (snd ns)) /\ In n (snd (snd ns))) ->
  decode n = DecOk t -> truthy (erase t) = true ->
  comma_said l "--ignore-checks" ig -> (forall i p, In i ["E1012"; "E0002"] -> In p ig -> p <> "" -> ~ is_prefix p i) ->
  at_keys ["Metadata"] (erase t) = None -> spec_ok sp -> (forall region, seen_as_is w (mkCfn (name_of n) region t) "E1012") -> (exists m d, t = MDict m d) -> get_directives t = Ok [] ->
  wf (erase t) -> plain_sections (erase t) -> at_path [PKey "Ref"] (erase t) = None -> ref_exist_match (erase t) (VDict []) = Ok ms ->
  at_path (q ++ [PKey "Ref"])%list (erase t) = Some (VStr s) -> (forall x rest, References.names (erase t) x \/ References.module (erase t) x -> s <> x ++ rest) ->
  exists fi, In fi r /\ f_rule fi = "E1012" /\ f_msg fi = "Ref " ++ s ++ " not found as a resource or parameter" /\ f_file fi = name_of n.
Proof. exact c105_dangling. Qed.
Print Assumptions undefined_references_end_to_end.

(** cfn-lint a.yaml -i E2,E6 -m E2015 -c I2,I6 -e -a trial *)
Example selection_case : exists l, the_program told_line = Linted l /\ command told_line told_groups ["a.yaml"] /\ Forall good_use told_groups /\
  comma_said told_groups "--ignore-checks" ["E2"; "E6"] /\
  (exists fi, In fi l /\ f_rule fi = "E2015") /\ (exists fi, In fi l /\ f_rule fi = "I2012") /\ (exists fi, In fi l /\ f_rule fi = "E9009") /\ (exists fi, In fi l /\ f_rule fi = "E1012") /\
  (forall c fi, In fi (fst (keeping c)) -> In (f_rule fi) built_in_ids).
Proof. exact told_case. Qed.

Example selection_reported_case : (exists cli file ap rs, make_config (fun _ => false) (fun _ => Err EKey) told_line = Config cli file /\ append_rules (mkSources cli [] file) = Ok ap /\
     concat_res (load_path (fun _ => None) module_of) ("cfnlint.rules" :: ap) = Ok rs /\ with_shipped ample rs /\
     (forall i, In i ["E1012"; "E0002"] -> unnamed i (value_in file "ignore_checks"))) /\
  (forall i p, In i ["E1012"; "E0002"] -> In p ["E2"; "E6"] -> p <> "" -> ~ is_prefix p i) /\
  truthy (erase (marked rich)) = true /\ at_keys ["Metadata"; "cfn-lint"; "config"] (erase (marked rich)) = None /\ spec_ok small_sp /\
  (forall region, seen_as_is ample (mkCfn "t.yaml" region (marked rich)) "E1012") /\ (exists m d, marked rich = MDict m d) /\ get_directives (marked rich) = Ok [].
Proof. exact told_reported. Qed.

Example undefined_references_case : wf (erase (marked rich)) /\ plain_sections (erase (marked rich)) /\ at_path [PKey "Ref"] (erase (marked rich)) = None /\
  (exists ms, ref_exist_match (erase (marked rich)) (VDict []) = Ok ms) /\
  at_path ([PKey "Resources"; PKey "B"; PKey "Properties"; PKey "Name"] ++ [PKey "Ref"])%list (erase (marked rich)) = Some (VStr "Missing") /\
  (forall x rest, References.names (erase (marked rich)) x \/ References.module (erase (marked rich)) x -> "Missing" <> x ++ rest).
Proof. exact told_dangling. Qed.
