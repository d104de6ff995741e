(** C05 Report order. *)
From Coq Require Import Permutation.
From Verif.Model Require Import Base Rules Runner Core.
From Verif.Spec Require Import Pipeline.
From Verif.Proofs Require Import Samples PipelineProofs.

(** The findings printed for one template are ordered (unless the serverless translator reports errors, which are passed
    on in its own order). *)
Theorem report_is_ordered : forall sp tr k regions mandatory c k' l,
  run_checks sp tr k regions mandatory c = (k', Findings l) ->
  (wants_transform (template c) = true -> fst (tr c) = []) ->
  in_order l.
Proof. exact run_checks_order. Qed.

(** They are the findings of the run, none lost or invented, and ties keep the order of production. *)
Theorem report_has_the_same_findings : forall sp tr k regions mandatory c k' l,
  run_checks sp tr k regions mandatory c = (k', Findings l) ->
  wants_transform (template c) = false ->
  forall k1 ms, runner_run sp k mandatory c = (k1, Ok ms) ->
  Permutation l ms /\ (forall x, filter (tiedb x) l = filter (tiedb x) ms).
Proof. exact run_checks_same. Qed.

(** The report of a run over several files is the concatenation of the reports of the files, in the order of the
    files. *)
Theorem report_concatenates_files : forall str_other sp tr all cli file st files acc st' l,
  lint_all str_other sp tr all cli file st files acc = (st', Ok (Findings l)) ->
  exists parts, l = acc ++ List.concat parts /\ List.length parts = List.length files /\
    Forall2 (fun nd part => exists s1 s2,
               lint_one str_other sp tr all cli file s1 (fst nd) (snd nd) = (s2, Ok (Findings part)))
            files parts.
Proof. exact lint_all_concat. Qed.

Example order_example :
  let c := mkCfn "t.yaml" "us-east-1" multi_line in
  exists k' l k1 ms, run_checks no_spec no_translator sample_coll ["us-east-1"] [] c = (k', Findings l) /\
    runner_run no_spec sample_coll [] c = (k1, Ok ms) /\ l <> ms /\ List.length l = 2 /\
    wants_transform (template c) = false.
Proof. do 4 eexists. split; [reflexivity|]. split; [reflexivity|]. repeat split. discriminate. Qed.

Print Assumptions report_is_ordered.
Print Assumptions report_has_the_same_findings.
Print Assumptions report_concatenates_files.
