(** C07 Linting one template does not depend on what was linted before. *)
From Verif.Model Require Import Base Locate Rules Config Core.
From Verif.Spec Require Import Pipeline History.
From Verif.Proofs Require Import Samples HistoryProofs HistoryWitness.

(** Linting any sequence of files in one process gives exactly the reports of the files linted each in a fresh process,
    one after the other (up to the first that ends the process).  Missing: templates whose Metadata configures rules and
    files whose decoding reports one single E0000; for both the claim is false, see below. *)
Theorem same_as_separately_partial : forall str sp tr all_rules cli_args file_args files,
  Forall fresh_rule all_rules -> Forall (fun nd => plain_file (snd nd)) files ->
  snd (lint_all str sp tr all_rules cli_args file_args initial_state files []) =
  collect [] (map (fun nd => snd (lint_one str sp tr all_rules cli_args file_args initial_state (fst nd) (snd nd))) files).
Proof. exact c07_partial. Qed.

(** A template that configures a rule in its Metadata changes what is found in the next one. *)
Theorem rule_configuration_leaks_refuted :
  exists all_rules a b l,
    Forall fresh_rule all_rules /\
    snd (lint_one (fun _ => "") no_spec no_translator all_rules [] [] initial_state "b.yaml" b) = Ok (Findings l) /\ l <> [] /\
    snd (lint_all (fun _ => "") no_spec no_translator all_rules [] [] initial_state [("a.yaml", a); ("b.yaml", b)] []) =
      Ok (Findings []) /\
    snd (lint_one (fun _ => "") no_spec no_translator all_rules [] [] initial_state "a.yaml" a) = Ok (Findings []).
Proof. exact c07_config_leaks. Qed.

(** A template whose Metadata asks to ignore bad templates makes the next, undecodable file pass. *)
Theorem ignore_bad_template_leaks_refuted :
  exists a e,
    snd (lint_one (fun _ => "") no_spec no_translator [] [] [] initial_state "b.yaml" (DecErr [e])) = Ok (Findings [e]) /\
    snd (lint_all (fun _ => "") no_spec no_translator [] [] [] initial_state [("a.yaml", a); ("b.yaml", DecErr [e])] []) =
      Ok (Findings []) /\
    snd (lint_one (fun _ => "") no_spec no_translator [] [] [] initial_state "a.yaml" a) = Ok (Findings []).
Proof. exact c07_ignore_leaks. Qed.

Example history_example :
  Forall fresh_rule [bad_b] /\
  Forall (fun nd => plain_file (snd nd)) [("a.yaml", DecOk multi_line); ("b.yaml", DecErr [mkFinding 1 1 1 1 "b.yaml" "E0000" "x"; mkFinding 2 1 2 1 "b.yaml" "E0000" "y"]); ("c.yaml", DecOk multi_line)] /\
  exists l, snd (lint_all (fun _ => "") no_spec no_translator [bad_b] [] [] initial_state
    [("a.yaml", DecOk multi_line); ("b.yaml", DecErr [mkFinding 1 1 1 1 "b.yaml" "E0000" "x"; mkFinding 2 1 2 1 "b.yaml" "E0000" "y"]); ("c.yaml", DecOk multi_line)] []) = Ok (Findings l) /\ List.length l = 4.
Proof.
  split; [|split].
  - repeat constructor.
  - repeat constructor; cbn; [intros a [= <-] []| congruence |intros a [= <-] []].
  - eexists. split; [vm_compute; reflexivity | reflexivity].
Qed.

Print Assumptions same_as_separately_partial.
Print Assumptions rule_configuration_leaks_refuted.
Print Assumptions ignore_bad_template_leaks_refuted.
