(** C51 Which files are linted. *)
From Coq Require Import List Sorted.
Import ListNotations.
From Verif.Model Require Import Base Config.
From Verif.Spec Require Import Files.
From Verif.Proofs Require Import FilesProofs.

Local Open Scope string_scope.

(** Exactly the files the given names stand for and that are not ignored are linted, in order.  The positional names and -t are alternatives, the second winning.  Missing: a file two names stand for is linted twice (refuted below). *)
Theorem linted_files_are_the_named_ones_partial : forall glob, forall s names ignored vn,
  (given (option_value s "template_alt") /\ vn = option_value s "template_alt" \/
   ~ given (option_value s "template_alt") /\ vn = option_value s "templates" /\ given vn) -> file_names vn names ->
  (given (option_value s "ignore_templates") /\ file_names (option_value s "ignore_templates") ignored \/ ~ given (option_value s "ignore_templates") /\ ignored = []) ->
  exists l, templates glob s = Ok (Some l) /\ StronglySorted text_le l /\
    forall f, In f l <-> some_stand_for glob names f /\ ~ some_stand_for glob ignored f.
Proof. exact c51_files. Qed.
Print Assumptions linted_files_are_the_named_ones_partial.

(** Without names there is no list at all: standard input is read (cfnlint/core.py). *)
Theorem no_names_no_files : forall glob, forall s,
  ~ given (option_value s "template_alt") -> ~ given (option_value s "templates") -> templates glob s = Ok None.
Proof. exact c51_none. Qed.
Print Assumptions no_names_no_files.

(** A file that two names stand for is linted twice. *)
Theorem each_file_once_refuted : exists glob s f, templates glob s = Ok (Some [f; f]).
Proof. exact c51_twice. Qed.
Print Assumptions each_file_once_refuted.

Example files_example : templates (fun n => if String.eqb n "*.yaml" then ["b.yaml"; "a.yaml"; "c.yaml"] else []) (mkSources [("templates", VList [VStr "*.yaml"; VStr "0.json"])] [] [("ignore_templates", VStr "b.yaml")]) = Ok (Some ["0.json"; "a.yaml"; "c.yaml"]).
Proof. exact c51_example. Qed.

Example files_meet_the_hypotheses : let s := mkSources [("templates", VList [VStr "*.yaml"; VStr "0.json"])] [] [("ignore_templates", VStr "b.yaml")] in
  ~ given (option_value s "template_alt") /\ given (option_value s "templates") /\ file_names (option_value s "templates") ["*.yaml"; "0.json"] /\ given (option_value s "ignore_templates") /\ file_names (option_value s "ignore_templates") ["b.yaml"].
Proof. exact c51_hypotheses. Qed.
