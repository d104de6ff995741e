(** C35 Text reports are lossless. *)
From Coq Require Import Sorting.Sorted Permutation.
From Verif.Model Require Import Base Rules Formatters.
From Verif.Spec Require Import Options Report.
From Verif.Proofs Require Import FormatProofs.
Import Verif.Model.Rules.
Local Open Scope string_scope.

(** The lines of the parseable report are those of the findings, in order, whatever the messages contain. *)
Theorem parseable_report_has_one_line_per_finding : forall ms,
  (forall m, In m ms -> free_of "010" (f_file m) /\ free_of "010" (f_rule m)) ->
  (print_matches parseable ms = None <-> ms = []) /\ forall out, print_matches parseable ms = Some out -> split_on lf out = map parseable ms.
Proof. exact c35_parseable_lines. Qed.
Print Assumptions parseable_report_has_one_line_per_finding.

(** Such a line shows the file, the place, the rule and the message, in this order. *)
Theorem parseable_line_shows_the_finding : forall m t,
  parseable m = t <-> parseable_line m t.
Proof. exact c35_line. Qed.
Print Assumptions parseable_line_shows_the_finding.

(** What becomes of a message: each longest run of line ends becomes one space. *)
Theorem parseable_message_is_one_line : forall s t,
  one_line_message s = t <-> one_line s t.
Proof. exact c35_message. Qed.
Print Assumptions parseable_message_is_one_line.

(** Two lists of findings with the same parseable report agree in everything but the line ends in messages.  Missing for the full property: file names containing a colon (refuted below). *)
Theorem parseable_report_is_lossless_partial : forall ms ms',
  (forall m, In m ms -> plain_names m) -> (forall m, In m ms' -> plain_names m) ->
  print_matches parseable ms = print_matches parseable ms' -> Forall2 same_finding ms ms'.
Proof. exact c35_parseable. Qed.
Print Assumptions parseable_report_is_lossless_partial.

(** Two lists of findings with the same standard report agree.  Missing for the full property: messages containing line feeds (refuted below). *)
Theorem standard_report_is_lossless_partial : forall ms ms',
  (forall m, In m ms -> plain_finding m) -> (forall m, In m ms' -> plain_finding m) ->
  print_matches standard ms = print_matches standard ms' -> Forall2 shown_alike ms ms'.
Proof. exact c35_standard. Qed.
Print Assumptions standard_report_is_lossless_partial.

(** Two lists of findings with the same JSON report are equal. *)
Theorem json_report_is_lossless : forall rule_info path_of ms ms',
  json_report rule_info path_of ms = json_report rule_info path_of ms' -> ms = ms'.
Proof. exact c35_json. Qed.
Print Assumptions json_report_is_lossless.

(** The JUnit report has each finding once.  Missing for the full property: findings of rules that are not in the collection (refuted below). *)
Theorem junit_report_has_every_finding_partial : forall rules ms,
  NoDup (map jr_id rules) -> existsb jr_enabled rules = true ->
  (forall m, In m ms -> exists r, In r rules /\ jr_enabled r = true /\ jr_id r = f_rule m) ->
  exists cs, junit rules ms = Some cs /\ Permutation (flat_map failures cs) (map failure_of ms).
Proof. exact c35_junit. Qed.
Print Assumptions junit_report_has_every_finding_partial.

(** The pretty report has each finding once, grouped by file and then by level. *)
Theorem pretty_report_has_every_finding : forall tty templates rules ms,
  exists gs blocks,
  grouped gs /\ List.concat (map snd gs) = ms /\
  Forall2 (fun g b => exists fs, Permutation fs (snd g) /\ StronglySorted by_level fs /\ (forall s, of_level s fs = of_level s (snd g)) /\
     b = (colored tty (fst g) (String "027" "[4m") :: map (pretty_line tty) fs ++ [""])%list) gs blocks /\
  pretty tty templates rules ms = join_str (String lf "") (List.concat blocks ++ [pretty_summary tty templates rules ms])%list.
Proof. exact c35_pretty. Qed.
Print Assumptions pretty_report_has_every_finding.

(** The counts in the summary. *)
Theorem pretty_summary_counts_findings : forall templates rules ms,
  pretty_summary false templates rules ms =
  "Cfn-lint scanned " ++ str_of_nat templates ++ " templates against " ++ str_of_nat rules ++ " rules and found " ++ str_of_nat (count_level Error ms) ++ " errors, " ++
  str_of_nat (count_level Warning ms) ++ " warnings, and " ++ str_of_nat (count_level Informational ms) ++ " informational violations" /\
  count_level Error ms + count_level Warning ms + count_level Informational ms + count_level Unknown ms = List.length ms.
Proof. exact c35_summary. Qed.
Print Assumptions pretty_summary_counts_findings.

(** A line of the pretty report determines position, rule and message. *)
Theorem pretty_line_is_lossless : forall m m',
  free_of " " (f_rule m) -> free_of " " (f_rule m') -> String.length (f_rule m) < 10 -> String.length (f_rule m') < 10 ->
  pretty_line false m = pretty_line false m' -> f_line m = f_line m' /\ f_col m = f_col m' /\ f_rule m = f_rule m' /\ f_msg m = f_msg m'.
Proof. exact c35_pretty_line. Qed.
Print Assumptions pretty_line_is_lossless.

(** With colons in file names two different findings have the same parseable line. *)
Theorem file_name_with_colon_refuted : exists m m', print_matches parseable [m] = print_matches parseable [m'] /\ f_file m <> f_file m' /\ f_line m <> f_line m'.
Proof. exact c35_colon. Qed.
Print Assumptions file_name_with_colon_refuted.

(** With line feeds in messages one finding looks like two in the standard report. *)
Theorem standard_report_is_ambiguous_refuted : exists m m1 m2, print_matches standard [m] = print_matches standard [m1; m2].
Proof. exact c35_standard_forged. Qed.
Print Assumptions standard_report_is_ambiguous_refuted.

(** A carriage return that is not followed by a line feed stays in the parseable line, which tools reading universal line ends take for two lines. *)
Theorem carriage_return_is_kept_refuted : exists s, free_of "010" (one_line_message s) /\ ~ free_of "013" (one_line_message s).
Proof. exact c35_return. Qed.
Print Assumptions carriage_return_is_kept_refuted.

(** Errors of the transform are not in the JUnit report, whatever the rules: E0001 belongs to none of the collection's files. *)
Theorem transform_error_is_not_in_junit_refuted : forall rules ms,
  (forall r, In r rules -> jr_id r <> "E0001") -> (forall m, In m ms -> f_rule m = "E0001") ->
  forall cs, junit_of_run [(rules, ms)] = Some cs -> flat_map failures cs = [].
Proof. exact c35_junit_crash. Qed.
Print Assumptions transform_error_is_not_in_junit_refuted.

(** There is no JUnit report at all if the last template cannot be read, whatever was found in the others. *)
Theorem junit_report_is_lost_refuted : forall rules ms m,
  junit_of_run [(rules, ms); ([], [m])] = None.
Proof. exact c35_junit_lost. Qed.
Print Assumptions junit_report_is_lost_refuted.

Example two_meet_the_hypotheses : forall m, In m two -> plain_names m.
Proof. exact two_plain. Qed.

Example two_are_printed : print_matches parseable two = Some ("a.yaml:3:7:3:12:W2001:first second: line" ++ String lf "b.yaml:4:1:5:2:E3002:x, y").
Proof. exact two_printed. Qed.

Example one_meets_the_hypotheses : forall m, In m one_plain -> plain_finding m.
Proof. exact one_plain_plain. Qed.

Example some_rules_meet_the_hypotheses : NoDup (map jr_id some_rules) /\ existsb jr_enabled some_rules = true /\ forall m, In m two -> exists r, In r some_rules /\ jr_enabled r = true /\ jr_id r = f_rule m.
Proof. exact some_rules_fit. Qed.
