(** C101 What a command line says. *)
From Coq Require Import List String Ascii.
Import ListNotations.
From Verif.Model Require Import Base Config CommandLine.
From Verif.Spec Require Import Options CommandLine.
From Verif.Proofs Require Import CommandLineProofs CommandLineWitness.

Local Open Scope string_scope.

(** Options may be written by whole or cut names, with values behind them or behind an equals sign, or by letters that share one dash; each of them ends up with what the command line says about it, and the templates with their names. *)
Theorem command_line_meaning : forall argv l names,
  command argv l names -> Forall good_use l ->
  exists ns, parse_args argv = Values ns [] /\ (forall o, In o options -> means l o (lookup ns (o_dest o))) /\ lookup ns "templates" = texts_of names.
Proof. exact c101_meaning. Qed.
Print Assumptions command_line_meaning.

(** cfn-lint a.yaml b.yaml --include-e -bi E3012 W2001,W2002 --form=json -x E3012:strict=true -rus-east-1 *)
Example command_line_case : command a_line its_groups ["a.yaml"; "b.yaml"].
Proof. exact line_said. Qed.

Example command_line_use : Forall good_use its_groups.
Proof. exact line_good. Qed.

Example command_line_values : exists ns, parse_args a_line = Values ns [] /\ lookup ns "templates" = texts_of ["a.yaml"; "b.yaml"] /\ lookup ns "ignore_checks" = texts_of ["E3012"; "W2001"; "W2002"] /\
  lookup ns "include_experimental" = VBool true /\ lookup ns "format" = VStr "json" /\ lookup ns "regions" = texts_of ["us-east-1"] /\ lookup ns "debug" = VBool false /\
  lookup ns "configure_rules" = VDict [("E3012", VDict [("strict", VStr "true")])].
Proof. exact line_case. Qed.

(** The documented options, each under all of its names: switches are on if they are named, the last value of an option with one value counts, values of options with several are collected, and where commas may separate values they do. *)
Theorem documented_options : forall argv l names,
  command argv l names -> Forall good_use l -> exists ns, parse_args argv = Values ns [] /\
  (forall dest n, In (dest, n) switch_options -> lookup ns dest = VBool true /\ under l n <> [] \/ lookup ns dest = VBool false /\ under l n = []) /\
  (forall dest n, In (dest, n) value_options -> (exists before x, List.concat (under l n) = (before ++ [x])%list /\ lookup ns dest = VStr x) \/ List.concat (under l n) = [] /\ lookup ns dest = VNull) /\
  (forall dest n, In (dest, n) list_options -> lookup ns dest = texts_of (List.concat (under l n))) /\
  (forall dest n, In (dest, n) comma_options ->
     (exists parts, Forall2 (fun x ps => ps <> [] /\ x = join_str "," ps /\ Forall (free_of ",") ps) (List.concat (under l n)) parts /\ lookup ns dest = texts_of (List.concat parts)) \/ under l n = [] /\ dest = "registry_schemas" /\ lookup ns dest = VNull) /\
  lookup ns "templates" = texts_of names.
Proof. exact c101_documented. Qed.
Print Assumptions documented_options.

Example documented_options_case : under its_groups "--ignore-checks" = [["E3012"; "W2001,W2002"]] /\ under its_groups "-b" = [[]] /\ under its_groups "--debug" = [] /\ under its_groups "--format" = [["json"]].
Proof. exact documented_case. Qed.

(** Two command lines that say the same about each option, in any order and in any of the ways to write it, are the same to the program. *)
Theorem order_of_options : forall argv l names argv' l' names' ns ns',
  command argv l names -> Forall good_use l -> command argv' l' names' -> Forall good_use l' ->
  (forall o, In o options -> said l o = said l' o) -> names = names' -> parse_args argv = Values ns [] -> parse_args argv' = Values ns' [] ->
  (forall o, In o options -> lookup ns (o_dest o) = lookup ns' (o_dest o)) /\ lookup ns "templates" = lookup ns' "templates".
Proof. exact c101_order. Qed.
Print Assumptions order_of_options.

(** The first wish for help or the version ends the program with status 0, and the first unknown format with status 32. *)
Theorem command_line_stops : forall argv l1 x l2 names,
  command argv (l1 ++ x :: l2) names -> Forall good_use l1 ->
  match o_deed (fst x) with
  | PrintHelp | PrintVersion => parse_args argv = Stop 0
  | KeepFormat => Forall (fun v => ~ In v ["quiet"; "parseable"; "json"; "junit"; "pretty"]) (snd x) -> parse_args argv = Stop 32
  | _ => True
  end.
Proof. exact c101_stops. Qed.
Print Assumptions command_line_stops.

Example command_line_stop_case : command ["-f"; "text"; "a.yaml"] ([] ++ (an_option "-f", ["text"]) :: []) ["a.yaml"] /\ parse_args ["-f"; "text"; "a.yaml"] = Stop 32.
Proof. exact stop_case. Qed.

(** The same by the names of the options: the first --help or --version ends the program with status 0, and the first --format with an unknown format with status 32. *)
Theorem documented_stops : forall argv l1 x l2 names,
  command argv (l1 ++ x :: l2) names -> Forall good_use l1 ->
  ((exists n, In n ["-h"; "--help"; "-v"; "--version"] /\ In n (o_names (fst x))) -> parse_args argv = Stop 0) /\
  ((exists n, In n ["-f"; "--format"] /\ In n (o_names (fst x))) -> Forall (fun v => ~ In v ["quiet"; "parseable"; "json"; "junit"; "pretty"]) (snd x) -> parse_args argv = Stop 32).
Proof. exact c101_named_stops. Qed.
Print Assumptions documented_stops.

Example documented_stops_case : command ["-f"; "text"; "a.yaml"] ([] ++ (an_option "-f", ["text"]) :: []) ["a.yaml"] /\ In "-f" (o_names (an_option "-f")).
Proof. exact (conj (proj1 stop_case) (or_introl eq_refl)). Qed.

(** A cut name that two options could have ends the program with status 32, wherever it stands before two dashes. *)
Theorem ambiguous_name_stops : forall before p n o n' o' x rest,
  p = "--" ++ x -> x <> "" -> free_of "=" x -> In o options -> In n (o_names o) -> In o' options -> In n' (o_names o') -> n <> n' ->
  (exists r, n = p ++ r) -> (exists r, n' = p ++ r) -> ~ (exists o'', In o'' options /\ In p (o_names o'')) -> ~ In "--" before -> parse_args (before ++ p :: rest) = Stop 32.
Proof. exact c101_ambiguous. Qed.
Print Assumptions ambiguous_name_stops.

Example ambiguous_name_case : parse_args ["a.yaml"; "--include"; "I"] = Stop 32 /\ parse_args ["a.yaml"; "--include-c"; "I"] <> Stop 32.
Proof. exact ambiguous_case. Qed.

(** Settings of a rule that cannot be read are no error: the program ends with status 0, as after a template without findings, and checks nothing. *)
Theorem unreadable_settings_refuted : forall n s,
  undashed n -> undashed s -> free_of ":" s -> parse_args [n; "-x"; s] = Stop 0.
Proof. exact unreadable_settings. Qed.
Print Assumptions unreadable_settings_refuted.

(** The name of a template behind an option that takes several values is one more value: no template is checked. *)
Theorem template_after_values_refuted : forall r n,
  undashed r -> undashed n -> exists ns, parse_args ["-i"; r; n] = Values ns [] /\ lookup ns "templates" = texts_of [] /\
  lookup ns "ignore_checks" = texts_of (split_on "," r ++ split_on "," n).
Proof. exact swallowed. Qed.
Print Assumptions template_after_values_refuted.

(** Of names of templates at two places only those of the first place are checked, without a word. *)
Theorem templates_at_two_places_refuted : forall n m,
  undashed n -> undashed m -> exists ns, parse_args [n; "-b"; m] = Values ns [m] /\ lookup ns "templates" = texts_of [n].
Proof. exact second_place. Qed.
Print Assumptions templates_at_two_places_refuted.

(** An unknown option is no error, and what was meant as its value becomes the name of a template. *)
Theorem unknown_option_refuted : forall u n,
  (forall o m r, In o options -> In m (o_names o) -> m <> "--" ++ u ++ r) -> free_of "=" u -> free_of " " u -> undashed n ->
  exists ns, parse_args ["--" ++ u; n] = Values ns ["--" ++ u] /\ lookup ns "templates" = texts_of [n].
Proof. exact mistyped. Qed.
Print Assumptions unknown_option_refuted.

Example unknown_option_case : (forall o m r, In o options -> In m (o_names o) -> m <> "--" ++ "ignore-rules" ++ r) /\ free_of "=" "ignore-rules" /\ free_of " " "ignore-rules" /\ undashed "E3012".
Proof. exact mistyped_case. Qed.

(** On some command lines the parser itself ends in an exception. *)
Theorem command_line_crash_refuted : parse_args ["-b="] = Crash EIndex /\ parse_args ["--config-file=--"] = Crash EValue.
Proof. exact parser_crashes. Qed.
Print Assumptions command_line_crash_refuted.
