(** C04 Suppression directives. *)
From Verif.Model Require Import Base Locate Rules Runner.
From Verif.Spec Require Import Pipeline.
From Verif.Proofs Require Import Samples PipelineProofs PipelineWitness.

(** The suppressions in force are exactly those the template's resources ask for in their Metadata. *)
Theorem suppressions_come_from_resources : forall m0 t m1 rs ds,
  massoc "Resources" t = Some (MDict m1 rs) -> get_directives (MDict m0 t) = Ok ds ->
  forall d, In d ds <-> exists name nm r, In ((name, nm), r) rs /\ directive_of nm r d.
Proof. exact get_directives_spec. Qed.

(** A finding whose rule no resource names, or whose rule is mandatory, is in the report (up to duplicates). *)
Theorem unnamed_or_mandatory_never_suppressed : forall sp k mandatory c k' report raw ds m,
  runner_run sp k mandatory c = (k', Ok report) -> snd (coll_run sp k c) = Ok raw -> get_directives (c_tmpl c) = Ok ds ->
  In m raw ->
  (forall d, In d ds -> d_rule d <> f_rule m) \/ (exists p, In p mandatory /\ is_prefix p (f_rule m)) ->
  exists u, In u report /\ same_finding m u.
Proof. exact never_suppressed. Qed.

(** The full confinement claim is false: two resources on one line, the first one's directive hides a finding in the
    second.  (JSON on one line, or YAML flow style.) *)
Theorem suppression_confined_to_resource_refuted :
  exists c k raw report k' ds m,
    snd (coll_run no_spec k c) = Ok raw /\ runner_run no_spec k [] c = (k', Ok report) /\
    get_directives (c_tmpl c) = Ok ds /\ In m raw /\
    (forall u, In u report -> ~ same_finding m u) /\
    (forall d, In d ds -> ~ inside d m).
Proof. exact confinement_fails. Qed.

(** Confinement for resources that span more than one line.  Missing: resources written on a single line (refuted
    above). *)
Theorem suppression_confined_to_resource_partial : forall sp k mandatory c k' report raw ds m,
  runner_run sp k mandatory c = (k', Ok report) -> snd (coll_run sp k c) = Ok raw -> get_directives (c_tmpl c) = Ok ds ->
  (forall d, In d ds -> (d_sl d < d_el d)%Z) ->
  In m raw -> (forall u, In u report -> ~ same_finding m u) ->
  exists d, In d ds /\ d_rule d = f_rule m /\ inside d m.
Proof. exact confinement_multi_line. Qed.

(** Conversely what lies inside a resource naming its rule is suppressed, unless mandatory. *)
Theorem named_inside_is_suppressed : forall sp k mandatory c k' report ds d m,
  runner_run sp k mandatory c = (k', Ok report) -> get_directives (c_tmpl c) = Ok ds ->
  In d ds -> d_rule d = f_rule m -> inside d m -> ~ (exists p, In p mandatory /\ is_prefix p (f_rule m)) ->
  ~ In m report.
Proof. exact inside_suppressed. Qed.

Example multi_line_example :
  let c := mkCfn "t.yaml" "us-east-1" multi_line in
  exists ds k' raw report, get_directives multi_line = Ok ds /\ ds <> [] /\ (forall d, In d ds -> (d_sl d < d_el d)%Z) /\
    coll_run no_spec sample_coll c = (k', Ok raw) /\ runner_run no_spec sample_coll [] c = (k', Ok report) /\
    In (mkFinding 2 3 2 4 "t.yaml" "E9001" "bad A") raw /\
    ~ In (mkFinding 2 3 2 4 "t.yaml" "E9001" "bad A") report.
Proof.
  do 4 eexists. split; [reflexivity|]. split; [discriminate|]. split; [intros d [<-|[]]; reflexivity|].
  split; [reflexivity|]. split; [reflexivity|]. split; [now left|].
  intros [H|[H|[]]]; discriminate.
Qed.

Print Assumptions suppressions_come_from_resources.
Print Assumptions unnamed_or_mandatory_never_suppressed.
Print Assumptions suppression_confined_to_resource_refuted.
Print Assumptions suppression_confined_to_resource_partial.
Print Assumptions named_inside_is_suppressed.
