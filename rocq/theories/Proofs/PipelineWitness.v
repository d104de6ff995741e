(** Consequences of the filter for C04 and the counterexample. *)
From Coq Require Import Lia.
From Verif.Model Require Import Base Node Locate Helpers Rules Runner Config Core.
From Verif.Spec Require Import Pipeline.
From Verif.Proofs Require Import BaseFacts PipelineProofs Samples.

Lemma never_suppressed sp k man c k' report raw ds m :
  runner_run sp k man c = (k', Ok report) -> snd (coll_run sp k c) = Ok raw -> get_directives (c_tmpl c) = Ok ds ->
  In m raw ->
  (forall d, In d ds -> d_rule d <> f_rule m) \/ (exists p, In p man /\ is_prefix p (f_rule m)) ->
  exists u, In u report /\ same_finding m u.
Proof.
  intros H H1 H2 Hm Hn. apply runner_spec in H as [raw' [ds' [G1 [G2 [_ [_ [G3 _]]]]]]].
  rewrite H1 in G1; rewrite H2 in G2; inversion G1; inversion G2; subst raw' ds'.
  apply G3; [exact Hm|]. intros [[d [Hd [Hr _]]] Hx]. destruct Hn as [Hn|Hn]; [now apply (Hn d) | contradiction].
Qed.

Lemma confinement_multi_line sp k man c k' report raw ds m :
  runner_run sp k man c = (k', Ok report) -> snd (coll_run sp k c) = Ok raw -> get_directives (c_tmpl c) = Ok ds ->
  (forall d, In d ds -> (d_sl d < d_el d)%Z) ->
  In m raw -> (forall u, In u report -> ~ same_finding m u) ->
  exists d, In d ds /\ d_rule d = f_rule m /\ inside d m.
Proof.
  intros H H1 H2 Hml Hm Hno. apply runner_report in H as [raw' [ds' [G1 [G2 ->]]]].
  rewrite H1 in G1; rewrite H2 in G2; inversion G1; inversion G2; subst raw' ds'.
  destruct (kept man ds m) eqn:K.
  - apply kept_iff in K. destruct (report_complete man ds raw m Hm K) as [u [Hu Hs]]. now destruct (Hno u Hu).
  - unfold kept in K. set (mine := filter _ ds) in K. destruct mine as [|d0 l] eqn:E; [discriminate|].
    apply orb_false_iff in K as [_ K]. apply negb_false_iff, existsb_exists in K as [d [Hd Hi]].
    rewrite <- E in Hd. unfold mine in Hd. apply filter_In in Hd as [Hd Hr]. apply String.eqb_eq in Hr.
    exists d. split; [exact Hd|]. split; [exact Hr|]. apply multi_line_inside; [now apply Hml|].
    split; [exact Hr | now apply in_directive_iff].
Qed.

Lemma inside_suppressed sp k man c k' report ds d m :
  runner_run sp k man c = (k', Ok report) -> get_directives (c_tmpl c) = Ok ds ->
  In d ds -> d_rule d = f_rule m -> inside d m -> ~ (exists p, In p man /\ is_prefix p (f_rule m)) ->
  ~ In m report.
Proof.
  intros H H2 Hd Hr Hi Hn Hin. apply runner_spec in H as [raw [ds' [_ [G2 [_ [_ [_ [G3 _]]]]]]]].
  rewrite H2 in G2; inversion G2; subst ds'. apply G3 in Hin as [_ Hs]. apply Hs. split; [|exact Hn].
  exists d. split; [exact Hd | now apply inside_covers].
Qed.

Lemma confinement_fails :
  exists c k raw report k' ds m,
    snd (coll_run no_spec k c) = Ok raw /\ runner_run no_spec k [] c = (k', Ok report) /\
    get_directives (c_tmpl c) = Ok ds /\ In m raw /\
    (forall u, In u report -> ~ same_finding m u) /\
    (forall d, In d ds -> ~ inside d m).
Proof.
  exists (mkCfn "t.json" "us-east-1" one_line), sample_coll.
  do 4 eexists. exists (mkFinding 1 104 1 107 "t.json" "E9001" "bad B").
  split; [reflexivity|]. split; [reflexivity|]. split; [reflexivity|].
  split; [right; now left|]. split.
  - intros u [<-|[]] [_ [_ [H _]]]. discriminate.
  - intros d [<-|[]] [_ Hi]. cbn in Hi. lia.
Qed.
