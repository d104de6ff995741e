(** Cases for the theorems on loading (C92), and the counterexamples. *)
From Coq Require Import Lia.
From Verif.Model Require Import Base Node Locate Helpers Rules Runner Config Core Loading.
From Verif.Spec Require Import Pipeline RuleSets Loading.
From Verif.Proofs Require Import BaseFacts PipelineProofs Samples RuleSetProofs RuleSetMain RuleSetLint RuleSetWitness LoadingProofs.

Definition base : string * string := ("cfnlint.rules", "CloudFormationLintRule").
Definition class_of (r : rule) : cls := mkCls [base; ("builtins", "object")] (Ok r).
Definition bad_module : module := Ok [("BadB", class_of bad_b); ("Helper", mkCls [("builtins", "object")] (Err ETypeErr))].
(** A module that imports the rule of the other one. *)
Definition warn_module : module := Ok [("Warn", class_of warn); ("BadB", class_of bad_b)].
Definition init_file : entry := FileE "__init__.py" (Ok []).
Definition some_tree : list entry := [init_file; FileE "Bad.py" bad_module; DirE "more" true [init_file; FileE "Warn.py" warn_module]].
Definition other_tree : list entry := [DirE "more" true [FileE "Warn.py" warn_module; init_file]; FileE "Bad.py" bad_module].

Ltac in_cases := repeat match goal with
  | H : In _ (_ :: _) |- _ => destruct H as [H|H]
  | H : In _ [] |- _ => destruct H
  | H : _ = _ |- _ => discriminate H
  | H : FileE _ _ = FileE _ _ |- _ => injection H as <- <-
  | H : DirE _ _ _ = DirE _ _ _ |- _ => injection H as <- <- <-
  | H : FileE _ _ = DirE _ _ _ |- _ => discriminate H
  | H : DirE _ _ _ = FileE _ _ |- _ => discriminate H
  end.
Lemma plain_of stem : free_of "." stem -> plain (stem ++ ".py") stem.
Proof. now split. Qed.
Lemma not_rule_init : ~ rule_name "__init__.py".
Proof. rewrite <- rule_file_iff. discriminate. Qed.
Lemma some_files sibs n m : file_in some_tree sibs n m ->
  (n = "__init__.py") \/ (n = "Bad.py" /\ m = bad_module /\ sibs = some_tree) \/
  (n = "Warn.py" /\ m = warn_module /\ sibs = [init_file; FileE "Warn.py" warn_module]).
Proof.
  intros H. inversion H as [? ? ? Hx|? d b sub ? ? ? Hx H']; subst; unfold some_tree, init_file in Hx; in_cases; auto.
  inversion H' as [? ? ? Hy|? d b sub ? ? ? Hy H'']; subst; unfold init_file in Hy; in_cases; auto 6.
Qed.
Lemma other_files sibs n m : file_in other_tree sibs n m ->
  (n = "__init__.py") \/ (n = "Bad.py" /\ m = bad_module /\ sibs = other_tree) \/
  (n = "Warn.py" /\ m = warn_module /\ sibs = [FileE "Warn.py" warn_module; init_file]).
Proof.
  intros H. inversion H as [? ? ? Hx|? d b sub ? ? ? Hx H']; subst; unfold other_tree, init_file in Hx; in_cases; auto.
  inversion H' as [? ? ? Hy|? d b sub ? ? ? Hy H'']; subst; unfold init_file in Hy; in_cases; auto 6.
Qed.
Lemma once_small l : NoDup (map entry_name l) -> (forall d r sub, ~ In (DirE d r sub) l) -> names_once l.
Proof. intros H K. constructor; [exact H|]. intros d r sub Hin. destruct (K d r sub Hin). Qed.
Ltac nodup := repeat (constructor; [cbn; intuition discriminate|]); constructor.
Lemma some_regular : regular some_tree.
Proof.
  split.
  - constructor; [cbn; nodup|]. intros d r sub Hin. unfold some_tree, init_file in Hin. in_cases.
    apply once_small; [cbn; nodup|]. intros d' r' sub' K. unfold init_file in K. in_cases.
  - intros sibs n m H Hn. apply some_files in H as [->|[(-> & _ & ->)|(-> & _ & ->)]].
    + destruct (not_rule_init Hn).
    + exists "Bad". split; [split; [reflexivity | cbn; repeat split; discriminate]|]. intros (r & sub & m' & H & _). unfold some_tree, init_file in H. in_cases; discriminate.
    + exists "Warn". split; [split; [reflexivity | cbn; repeat split; discriminate]|]. intros (r & sub & m' & H & _). unfold init_file in H. in_cases.
Qed.
Lemma other_regular : regular other_tree.
Proof.
  split.
  - constructor; [cbn; nodup|]. intros d r sub Hin. unfold other_tree, init_file in Hin. in_cases.
    apply once_small; [cbn; nodup|]. intros d' r' sub' K. unfold init_file in K. in_cases.
  - intros sibs n m H Hn. apply other_files in H as [->|[(-> & _ & ->)|(-> & _ & ->)]].
    + destruct (not_rule_init Hn).
    + exists "Bad". split; [split; [reflexivity | cbn; repeat split; discriminate]|]. intros (r & sub & m' & H & _). unfold other_tree, init_file in H. in_cases; discriminate.
    + exists "Warn". split; [split; [reflexivity | cbn; repeat split; discriminate]|]. intros (r & sub & m' & H & _). unfold init_file in H. in_cases.
Qed.
Lemma some_same : same_files some_tree other_tree.
Proof.
  intros n m Hn. split; intros [sibs H].
  - apply some_files in H as [->|[(-> & -> & _)|(-> & -> & _)]]; [destruct (not_rule_init Hn)| |].
    + exists other_tree. apply file_here. right. now left.
    + eexists. eapply file_below; [now left|]. apply file_here. now left.
  - apply other_files in H as [->|[(-> & -> & _)|(-> & -> & _)]]; [destruct (not_rule_init Hn)| |].
    + exists some_tree. apply file_here. right. now left.
    + eexists. eapply file_below; [right; right; now left|]. apply file_here. right. now left.
Qed.
Lemma some_loaded : load_plugins some_tree = Ok [bad_b; bad_b; warn] /\ load_plugins other_tree = Ok [bad_b; bad_b; warn] /\
  ~ closed_in some_tree.
Proof.
  split; [reflexivity|]. split; [reflexivity|]. intros H. inversion H as [? d sub Hx|? d b sub Hx H']; subst; unfold some_tree, init_file in Hx; in_cases.
  inversion H' as [? d' sub' Hy|? d' b' sub' Hy H'']; subst; unfold init_file in Hy; in_cases.
Qed.

(** * Files that are passed over *)
Definition only (n : string) : list entry := [FileE n bad_module].
Lemma dotted_witness : rule_name "my.rule.py" /\ load_plugins (only "my.rule.py") = Ok [] /\ load_plugins (only "my_rule.py") = Ok [bad_b].
Proof. split; [apply rule_file_iff; reflexivity | split; reflexivity]. Qed.
Lemma dotted_other_witness : exists l, rule_name "my.rule.py" /\ In (FileE "my.rule.py" bad_module) l /\ load_plugins l = Ok [warn; bad_b; warn; bad_b] /\ names_once l.
Proof.
  exists [FileE "my.rule.py" bad_module; FileE "rule.py" (Ok [("A", class_of warn); ("B", class_of bad_b)])].
  split; [apply rule_file_iff; reflexivity|]. split; [now left|]. split; [reflexivity|].
  apply once_small; [cbn; nodup | intros d r sub H; in_cases].
Qed.
Lemma python_witness : rule_name "a.python.py" /\ remove_py "a.python.py" = "athon" /\ load_plugins (only "a.python.py") = Ok [].
Proof. split; [apply rule_file_iff; reflexivity | split; reflexivity]. Qed.
Lemma first_letter_witness : load_plugins (only "_rule.py") = Ok [] /\ load_plugins (only "2rule.py") = Ok [].
Proof. split; reflexivity. Qed.
Lemma package_witness : exists l, In (FileE "Bad.py" bad_module) l /\ names_once l /\ load_plugins l = Ok [].
Proof.
  exists [FileE "Bad.py" bad_module; DirE "Bad" true [init_file]]. split; [now left|]. split; [|reflexivity].
  constructor; [cbn; nodup|]. intros d r sub H. in_cases. apply once_small; [cbn; nodup|]. intros d' r' sub' K. unfold init_file in K. in_cases.
Qed.
(** * Errors that are not reported *)
Definition no_dir : string -> option (list entry) := fun _ => None.
Definition missing : string -> module := fun _ => Err import_error.
Definition the_dirs (extra : list entry) (p : string) : option (list entry) :=
  if String.eqb p "rules" then Some some_tree else if String.eqb p "mine" then Some extra else None.
Definition got_of (extra : list entry) (append : list string) : got :=
  get_rules (fun _ => "") (the_dirs extra) missing "rules" append [] [] [] false [].
Lemma get_example : got_of (only "x.py") ["mine"] = Rules (mkColl [bad_b; bad_b; warn; bad_b] default_settings) /\
  got_of [DirE "d" false []] ["mine"] = Unexpected 1 /\ got_of [] ["mine.rules"] = Unexpected 1.
Proof. repeat split. Qed.
Lemma syntax_witness : exists e, got_of [FileE "x.py" (Err (EOther "SyntaxError"))] ["mine"] = Raises e.
Proof. eexists. reflexivity. Qed.
Lemma empty_witness : got_of [] [""] = Raises EValue.
Proof. reflexivity. Qed.
Lemma namespace_witness : got_of [FileE "my.rule.py" bad_module; DirE "rule" true []] ["mine"] = Raises EAttribute.
Proof. reflexivity. Qed.

(** * The list of rules *)
Definition trial : rule := mkRule "E9009" true [] [] [] [] (fun _ => ([], [])) None None None.
Definition trial_dirs (p : string) : option (list entry) := Some [FileE "Trial.py" (Ok [("Trial", class_of trial); ("Warn", class_of warn)])].
Lemma listed_witness : exists k k', 
  rules_to_list (fun _ => "") trial_dirs missing "rules" [] ["W"] [] [] ["W9002"] = Rules k /\
  get_rules (fun _ => "") trial_dirs missing "rules" [] ["W"] [] [] false ["W9002"] = Rules k' /\
  rules k = [trial] /\ rules k' = [warn].
Proof. do 2 eexists. split; [reflexivity|]. split; [reflexivity|]. split; reflexivity. Qed.
Lemma c92_listed str directory imported dflt app ig inc cfg :
  rules_to_list str directory imported dflt app ig inc cfg [] = get_rules str directory imported dflt app ig inc cfg false [].
Proof. reflexivity. Qed.
