(** Written reports (C35). *)
From Coq Require Import List String Ascii ZArith.
From Verif.Model Require Import Base Rules Formatters.
From Verif.Spec Require Import Options.
Import ListNotations.
Local Open Scope string_scope.

(** A line end: any number of carriage returns and a line feed.  A gap: one or more line ends. *)
Inductive line_end : string -> Prop :=
| le_feed : line_end (String "010" "")
| le_return : forall s, line_end s -> line_end (String "013" s).
Inductive gap : string -> Prop :=
| gap_one : forall s, line_end s -> gap s
| gap_more : forall s t, line_end s -> gap t -> gap (s ++ t).
(** [one_line s t]: [t] is [s] with every longest gap replaced by one space. *)
Inductive one_line : string -> string -> Prop :=
| ol_last : forall s, free_of "010" s -> one_line s s
| ol_gap : forall s g r t, free_of "010" s -> (forall u, s <> u ++ String "013" "") -> gap g -> (forall e v, line_end e -> r <> e ++ v) -> one_line r t ->
    one_line (s ++ g ++ r) (s ++ " " ++ t).
(** The parseable line of a finding: file, first line, first column, last line, last column, rule and message, between colons. *)
Definition parseable_line (m : finding) (t : string) : Prop :=
  exists msg, one_line (f_msg m) msg /\
    t = join_str ":" [f_file m; str_of_Z (f_line m); str_of_Z (f_col m); str_of_Z (f_line_end m); str_of_Z (f_col_end m); f_rule m; msg].
(** Two findings that differ at most in the line ends of their messages. *)
Definition same_finding (m m' : finding) : Prop :=
  f_file m = f_file m' /\ f_line m = f_line m' /\ f_col m = f_col m' /\ f_line_end m = f_line_end m' /\ f_col_end m = f_col_end m' /\ f_rule m = f_rule m' /\
  exists t, one_line (f_msg m) t /\ one_line (f_msg m') t.
(** Two findings with the same file, start, rule and message. *)
Definition shown_alike (m m' : finding) : Prop :=
  f_file m = f_file m' /\ f_line m = f_line m' /\ f_col m = f_col m' /\ f_rule m = f_rule m' /\ f_msg m = f_msg m'.
(** File names and rule ids without separators. *)
Definition plain_names (m : finding) : Prop :=
  free_of "010" (f_file m) /\ free_of ":" (f_file m) /\ free_of "010" (f_rule m) /\ free_of ":" (f_rule m).
Definition plain_finding (m : finding) : Prop :=
  plain_names m /\ free_of " " (f_rule m) /\ free_of "010" (f_msg m).
(** The groups of findings of one file. *)
Fixpoint grouped (gs : list (string * list finding)) : Prop :=
  match gs with
  | [] => True
  | (n, g) :: rest => g <> [] /\ (forall m, In m g -> f_file m = n) /\ (forall n' g' rest', rest = (n', g') :: rest' -> n' <> n) /\ grouped rest
  end.
Definition rank (s : severity) : nat := match s with Error => 0 | Warning => 1 | Informational => 2 | Unknown => 3 end.
Definition by_level (a b : finding) : Prop := rank (severity_of (f_rule a)) <= rank (severity_of (f_rule b)).
(** The number of findings of a level. *)
Fixpoint count_level (s : severity) (ms : list finding) : nat :=
  match ms with [] => 0 | m :: rest => (if Nat.eqb (rank (severity_of (f_rule m))) (rank s) then 1 else 0) + count_level s rest end.
(** The failures of a test case, and the failure a finding is to appear as: message, file, line and column; message. *)
Definition failures (c : testcase) : list (string * string) := match c with Skipped _ _ => [] | Tested _ fs => fs end.
Definition failure_of (m : finding) : string * string :=
  (f_msg m ++ " at " ++ f_file m ++ ":" ++ str_of_Z (f_line m) ++ ":" ++ str_of_Z (f_col m), f_msg m).
