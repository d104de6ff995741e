(** C92 The rules in a directory are loaded. *)
From Coq Require Import List String ZArith Bool.
Import ListNotations.
From Verif.Model Require Import Base Node Locate Helpers Rules Runner Config Core Loading.
From Verif.Spec Require Import Pipeline RuleSets Loading.
From Verif.Proofs Require Import ReportProofs Samples RuleSetMain RuleSetLint RuleSetWitness LoadingProofs LoadingWitness.
Import Verif.Model.Rules.
Local Open Scope string_scope.

(** The rules loaded from a directory are the instances of the rule classes of its files, at any depth.  The full property has no condition on names; it is missing for names with several dots and files next to packages of their names. *)
Theorem loaded_rules_partial : forall l rs,
  regular l -> load_plugins l = Ok rs -> forall r, In r rs <-> held_in l r.
Proof. exact c92_held. Qed.
Print Assumptions loaded_rules_partial.

(** Loading ends well exactly when each directory can be listed and each file executed and its classes instantiated. *)
Theorem loading_ends_partial : forall l,
  regular l ->
  ((exists rs, load_plugins l = Ok rs) <-> ~ closed_in l /\ forall sibs n m, file_in l sibs n m -> rule_name n -> sound m).
Proof. exact c92_ends. Qed.
Print Assumptions loading_ends_partial.

(** Whatever the names, a rule that is loaded is an instance of a rule class of a file of the directory. *)
Theorem loaded_from_files : forall l rs r,
  load_plugins l = Ok rs -> In r rs -> exists sibs n ms, file_in l sibs n (Ok ms) /\ made_by ms r.
Proof. exact c92_from. Qed.
Print Assumptions loaded_from_files.

(** Neither the order in which directories are listed nor where the files are in them matters. *)
Theorem listing_order_partial : forall l l',
  regular l -> regular l' -> same_files l l' -> (closed_in l <-> closed_in l') ->
  match load_plugins l, load_plugins l' with
  | Ok rs, Ok rs' => forall r, In r rs <-> In r rs'
  | Err _, Err _ => True
  | _, _ => False
  end.
Proof. exact c92_order. Qed.
Print Assumptions listing_order_partial.

(** ... which goes for reports, too. *)
Theorem listing_report_partial : forall str sp tr cli fl files l l' rs rs',
  regular l -> regular l' -> same_files l l' -> load_plugins l = Ok rs -> load_plugins l' = Ok rs' ->
  (forall r r', held_in l r -> held_in l r' -> r_id r = r_id r' -> r = r') ->
  alike_end (snd (lint_all str sp tr rs cli fl initial_state files [])) (snd (lint_all str sp tr rs' cli fl initial_state files [])).
Proof. exact c92_report. Qed.
Print Assumptions listing_report_partial.

(** The collection is the one of the rules of all paths, the default ones first. *)
Theorem appended_rules : forall (str : val -> string) (directory : string -> option (list entry)) (imported : string -> module),
  forall dflt app ig inc cfg ex man k,
  get_rules str directory imported dflt app ig inc cfg ex man = Rules k <->
  exists rs, concat_res (load_path directory imported) (dflt :: app) = Ok rs /\ coll_new str rs ig inc cfg ex man = Ok k.
Proof. exact c92_get. Qed.
Print Assumptions appended_rules.

(** A path that cannot be loaded ends the tool, with exit code 1 if the system or the import refused it. *)
Theorem failing_path : forall (str : val -> string) (directory : string -> option (list entry)) (imported : string -> module),
  forall dflt app ig inc cfg ex man p e before after,
  dflt :: app = (before ++ p :: after)%list -> (forall q, In q before -> exists rs, load_path directory imported q = Ok rs) ->
  (forall rs, concat_res (load_path directory imported) before = Ok rs -> exists k, coll_new str rs ig inc cfg ex man = Ok k) ->
  load_path directory imported p = Err e ->
  ((e = EOther "OSError" \/ e = EOther "ImportError") -> get_rules str directory imported dflt app ig inc cfg ex man = Unexpected 1) /\
  (e <> EOther "OSError" -> e <> EOther "ImportError" -> get_rules str directory imported dflt app ig inc cfg ex man = Raises e).
Proof. exact c92_fails. Qed.
Print Assumptions failing_path.

(** Without mandatory and experimental rules, the list of rules shows those that run. *)
Theorem listed_rules_partial : forall str directory imported dflt app ig inc cfg,
  rules_to_list str directory imported dflt app ig inc cfg [] = get_rules str directory imported dflt app ig inc cfg false [].
Proof. exact c92_listed. Qed.
Print Assumptions listed_rules_partial.

(** A file with a dot in its name is passed over. *)
Theorem dotted_name_refuted : rule_name "my.rule.py" /\ load_plugins (only "my.rule.py") = Ok [] /\ load_plugins (only "my_rule.py") = Ok [bad_b].
Proof. exact dotted_witness. Qed.
Print Assumptions dotted_name_refuted.

(** ... or another one is loaded in its place. *)
Theorem dotted_other_refuted : exists l, rule_name "my.rule.py" /\ In (FileE "my.rule.py" bad_module) l /\ load_plugins l = Ok [warn; bad_b; warn; bad_b] /\ names_once l.
Proof. exact dotted_other_witness. Qed.
Print Assumptions dotted_other_refuted.

(** The letters .py are removed from the middle of a name, too. *)
Theorem python_name_refuted : rule_name "a.python.py" /\ remove_py "a.python.py" = "athon" /\ load_plugins (only "a.python.py") = Ok [].
Proof. exact python_witness. Qed.
Print Assumptions python_name_refuted.

(** A file whose name begins with an underscore or a digit is passed over. *)
Theorem first_letter_refuted : load_plugins (only "_rule.py") = Ok [] /\ load_plugins (only "2rule.py") = Ok [].
Proof. exact first_letter_witness. Qed.
Print Assumptions first_letter_refuted.

(** A file next to a package of its name is passed over. *)
Theorem package_refuted : exists l, In (FileE "Bad.py" bad_module) l /\ names_once l /\ load_plugins l = Ok [].
Proof. exact package_witness. Qed.
Print Assumptions package_refuted.

(** A rule with a syntax error ends the tool with an exception. *)
Theorem syntax_error_refuted : exists e, got_of [FileE "x.py" (Err (EOther "SyntaxError"))] ["mine"] = Raises e.
Proof. exact syntax_witness. Qed.
Print Assumptions syntax_error_refuted.

(** So does an empty path. *)
Theorem empty_path_refuted : got_of [] [""] = Raises EValue.
Proof. exact empty_witness. Qed.
Print Assumptions empty_path_refuted.

(** So does a dotted name whose last part is the name of a directory. *)
Theorem namespace_refuted : got_of [FileE "my.rule.py" bad_module; DirE "rule" true []] ["mine"] = Raises EAttribute.
Proof. exact namespace_witness. Qed.
Print Assumptions namespace_refuted.

(** With mandatory rules, the list of rules shows experimental rules that do not run and leaves out mandatory ones that do. *)
Theorem listed_mandatory_refuted : exists k k', 
  rules_to_list (fun _ => "") trial_dirs missing "rules" [] ["W"] [] [] ["W9002"] = Rules k /\
  get_rules (fun _ => "") trial_dirs missing "rules" [] ["W"] [] [] false ["W9002"] = Rules k' /\
  rules k = [trial] /\ rules k' = [warn].
Proof. exact listed_witness. Qed.
Print Assumptions listed_mandatory_refuted.

Example some_regular_ : regular some_tree.
Proof. exact some_regular. Qed.

Example other_regular_ : regular other_tree.
Proof. exact other_regular. Qed.

Example some_same_ : same_files some_tree other_tree.
Proof. exact some_same. Qed.

Example some_loaded_ : load_plugins some_tree = Ok [bad_b; bad_b; warn] /\ load_plugins other_tree = Ok [bad_b; bad_b; warn] /\
  ~ closed_in some_tree.
Proof. exact some_loaded. Qed.

Example get_example_ : got_of (only "x.py") ["mine"] = Rules (mkColl [bad_b; bad_b; warn; bad_b] default_settings) /\
  got_of [DirE "d" false []] ["mine"] = Unexpected 1 /\ got_of [] ["mine.rules"] = Unexpected 1.
Proof. exact get_example. Qed.
