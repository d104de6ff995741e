(** Model of src/cfnlint/formatters/__init__.py: how reports are written.  XML and JSON texts are written by libraries; the model
    stops at the test cases and values handed to them. *)
From Verif.Model Require Import Base Rules.
Local Open Scope string_scope.

Definition cr : ascii := "013".
Definition lf : ascii := "010".
Fixpoint times (n : nat) (c : ascii) : string := match n with O => "" | S m => String c (times m c) end.
(** [re.sub] of one or more line ends, a line end being any number of CR and one LF, by one space: formatters/__init__.py:191.
    [inside] says that a match has begun, [crs] counts the CRs read since. *)
Fixpoint sub_breaks (s : string) (crs : nat) (inside : bool) : string :=
  let flush rest := ((if inside then " " else "") ++ times crs cr ++ rest)%string in
  match s with
  | EmptyString => flush ""
  | String c rest =>
      if char_eqb c lf then sub_breaks rest 0 true
      else if char_eqb c cr then sub_breaks rest (S crs) inside
      else flush (String c (sub_breaks rest 0 false))
  end.
Definition one_line_message (s : string) : string := sub_breaks s 0 false.

(** ParseableFormatter._format, formatters/__init__.py:180-192. *)
Definition parseable (m : finding) : string :=
  f_file m ++ ":" ++ str_of_Z (f_line m) ++ ":" ++ str_of_Z (f_col m) ++ ":" ++ str_of_Z (f_line_end m) ++ ":" ++ str_of_Z (f_col_end m) ++ ":" ++
  f_rule m ++ ":" ++ one_line_message (f_msg m).
(** Formatter._format, formatters/__init__.py:59-68. *)
Definition standard (m : finding) : string :=
  f_rule m ++ " " ++ f_msg m ++ String lf (f_file m ++ ":" ++ str_of_Z (f_line m) ++ ":" ++ str_of_Z (f_col m) ++ String lf "").
(** QuietFormatter._format, formatters/__init__.py:167-174; a rule is written as its id and short description
    (rules/__init__.py:34-35).  [shortdesc] gives the description of the rule with an id. *)
Definition quiet (shortdesc : string -> string) (m : finding) : string :=
  f_rule m ++ ": " ++ shortdesc (f_rule m) ++ " " ++ f_file m ++ ":" ++ str_of_Z (f_line m).
(** BaseFormatter.print_matches, formatters/__init__.py:39-53: None when there is nothing to print. *)
Definition print_matches (format : finding -> string) (ms : list finding) : option string :=
  match ms with [] => None | _ => Some (join_str (String lf "") (map format ms)) end.

(** JUnitFormatter.print_matches, formatters/__init__.py:74-118.  A rule of the collection is its id, short description, whether it
    is experimental and whether it is enabled.  A report is None if no rules are enabled. *)
Record jrule := mkJR { jr_id : string; jr_desc : string; jr_experimental : bool; jr_enabled : bool }.
Inductive testcase := Skipped (name reason : string) | Tested (name : string) (failures : list (string * string)).
Definition failure_format (m : finding) : string :=
  f_msg m ++ " at " ++ f_file m ++ ":" ++ str_of_Z (f_line m) ++ ":" ++ str_of_Z (f_col m).
Definition junit_case (ms : list finding) (r : jrule) : list testcase :=
  let name := jr_id r ++ " " ++ jr_desc r in
  if jr_enabled r then
    [Tested name (map (fun m => (failure_format m, f_msg m)) (filter (fun m => String.eqb (f_rule m) (jr_id r)) ms))]
  else if String.eqb (jr_id r) "" then []
  else [Skipped name (if jr_experimental r then "Experimental rule - not enabled" else "Ignored rule")].
Definition junit (rules : list jrule) (ms : list finding) : option (list testcase) :=
  if existsb jr_enabled rules then Some (flat_map (junit_case ms) rules) else None.
(** get_template_rules, core.py:184-187: a template that cannot be read comes with an empty list of rules; __main__.py:28-41:
    the report is written with the rules of the last template. *)
Definition junit_of_run (files : list (list jrule * list finding)) : option (list testcase) :=
  junit (last (map fst files) []) (List.concat (map snd files)).

(** JsonFormatter, formatters/__init__.py:121-161: the value of each finding, members in sorted order.  [rule_info] gives the description,
    short description and source of the rule with an id; [path_of] the value of the match's path attribute, or null. *)
Definition level_name (s : severity) : string :=
  match s with Informational => "Informational" | Error => "Error" | Warning => "Warning" | Unknown => "Unknown" end.
Definition json_finding (rule_info : string -> string * string * string) (path_of : finding -> val) (m : finding) : val :=
  VDict
    [("Filename", VStr (f_file m));
     ("Level", VStr (level_name (severity_of (f_rule m))));
     ("Location", VDict
       [("End", VDict [("ColumnNumber", VInt (f_col_end m)); ("LineNumber", VInt (f_line_end m))]);
        ("Path", path_of m);
        ("Start", VDict [("ColumnNumber", VInt (f_col m)); ("LineNumber", VInt (f_line m))])]);
     ("Message", VStr (f_msg m));
     ("Rule", VDict
       [("Description", VStr (fst (fst (rule_info (f_rule m))))); ("Id", VStr (f_rule m));
        ("ShortDescription", VStr (snd (fst (rule_info (f_rule m))))); ("Source", VStr (snd (rule_info (f_rule m))))])].
Definition json_report rule_info path_of (ms : list finding) : val := VList (map (json_finding rule_info path_of) ms).

(** PrettyFormatter, formatters/__init__.py:194-252.  [tty] says whether standard output is a terminal (colored, lines 25-30). *)
Definition colored (tty : bool) (s c : string) : string := if tty then c ++ s ++ String "027" "[0m" else s.
Definition color_of (s : severity) : string :=
  String "027" (match s with Error => "[31m" | Warning => "[33m" | Informational => "[34m" | Unknown => "[37m" end).
(** Left-justified in a field of width [n]. *)
Definition pad (n : nat) (s : string) : string := s ++ times (n - String.length s) " ".
Definition pretty_line (tty : bool) (m : finding) : string :=
  colored tty (pad 20 (str_of_Z (f_line m) ++ ":" ++ str_of_Z (f_col m) ++ ":")) (String "027" "[0m") ++
  colored tty (pad 10 (f_rule m)) (color_of (severity_of (f_rule m))) ++ f_msg m.
(** itertools.groupby by file name. *)
Fixpoint group_by_file (ms : list finding) : list (string * list finding) :=
  match ms with
  | [] => []
  | m :: rest =>
      match group_by_file rest with
      | (n, g) :: gs => if String.eqb (f_file m) n then (n, m :: g) :: gs else (f_file m, [m]) :: (n, g) :: gs
      | [] => [(f_file m, [m])]
      end
  end.
Definition severity_eqb (a b : severity) : bool :=
  match a, b with Informational, Informational | Error, Error | Warning, Warning | Unknown, Unknown => true | _, _ => false end.
Definition of_level (s : severity) (ms : list finding) : list finding := filter (fun m => severity_eqb (severity_of (f_rule m)) s) ms.
(** The levels come in the order of the dictionary literal, as in Python 3.7 and later. *)
Definition pretty_block (tty : bool) (g : string * list finding) : list string :=
  (colored tty (fst g) (String "027" "[4m") ::
   map (pretty_line tty) (of_level Error (snd g) ++ of_level Warning (snd g) ++ of_level Informational (snd g) ++ of_level Unknown (snd g))%list ++ [""])%list.
Definition str_of_nat (n : nat) : string := str_of_Z (Z.of_nat n).
Definition pretty_summary (tty : bool) (templates rules : nat) (ms : list finding) : string :=
  let bold n := colored tty (str_of_nat n) (String "027" "[1:0m") in
  let count s := colored tty (str_of_nat (List.length (of_level s ms))) (color_of s) in
  "Cfn-lint scanned " ++ bold templates ++ " templates against " ++ bold rules ++ " rules and found " ++ count Error ++ " errors, " ++
  count Warning ++ " warnings, and " ++ count Informational ++ " informational violations".
Definition pretty (tty : bool) (templates rules : nat) (ms : list finding) : string :=
  join_str (String lf "") (flat_map (pretty_block tty) (group_by_file ms) ++ [pretty_summary tty templates rules ms])%list.
