(** C03 Duplicate findings are reported once. *)
From Verif.Model Require Import Base Rules Runner.
From Verif.Spec Require Import Pipeline.
From Verif.Proofs Require Import Samples PipelineProofs.

(** The report of one template, against the findings [raw] its rules produced and the suppressions [ds] it asks for:
    no two alike; in the order produced; every unsuppressed finding is represented, by its first occurrence; and nothing
    else is in it. *)
Theorem report_is_the_deduplicated_unsuppressed_findings : forall sp k mandatory c k' report,
  runner_run sp k mandatory c = (k', Ok report) ->
  exists raw ds,
    snd (coll_run sp k c) = Ok raw /\ get_directives (c_tmpl c) = Ok ds /\
    distinct report /\ subseq report raw /\
    (forall m, In m raw -> ~ suppressed mandatory ds m -> exists u, In u report /\ same_finding m u) /\
    (forall u, In u report -> In u raw /\ ~ suppressed mandatory ds u) /\
    (forall u, In u report -> exists l1 l2, raw = l1 ++ u :: l2 /\
       forall m, In m l1 -> ~ suppressed mandatory ds m -> ~ same_finding m u).
Proof. exact runner_spec. Qed.

Example duplicates_example :
  let c := mkCfn "t.json" "us-east-1" multi_line in
  exists k' raw report, coll_run no_spec sample_coll c = (k', Ok raw) /\
    runner_run no_spec sample_coll [] c = (k', Ok report) /\ List.length raw = 4 /\
    map (fun m => (f_rule m, f_msg m)) report = [("E9001", "bad B"); ("W9002", "w")].
Proof. do 3 eexists. repeat split; reflexivity. Qed.

Print Assumptions report_is_the_deduplicated_unsuppressed_findings.
