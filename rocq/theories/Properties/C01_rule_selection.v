(** C01 Rule selection. *)
From Verif.Model Require Import Base Rules.
From Verif.Spec Require Import Pipeline.
From Verif.Proofs Require Import Samples PipelineProofs.

(** The decision for one rule id. *)
Theorem rule_selected_iff : forall id experimental want_experimental ignored included mandatory,
  is_enabled id experimental want_experimental ignored included mandatory = true <->
  selected id experimental want_experimental ignored included mandatory.
Proof. exact is_enabled_spec. Qed.

(** The rules a collection runs, whatever rules it held and however it was configured before: exactly the selected
    ones, with W and E always among the selected prefixes. *)
Theorem configured_rules_are_the_selected_ones :
  forall str_other k ignored included configs experimental mandatory k' r,
  coll_configure str_other k ignored included configs experimental mandatory = Ok k' -> In r (k_all k') ->
  (In r (rules k') <-> selected (r_id r) (r_experimental r) experimental ignored (included ++ ["W"; "E"]) mandatory).
Proof. exact coll_configure_selects. Qed.

Theorem loaded_rules_are_the_selected_ones :
  forall str_other rs ignored included configs experimental mandatory k' r,
  coll_new str_other rs ignored included configs experimental mandatory = Ok k' -> In r (k_all k') ->
  (In r (rules k') <-> selected (r_id r) (r_experimental r) experimental ignored (included ++ ["W"; "E"]) mandatory).
Proof. exact coll_new_selects. Qed.

(** Loading and configuring lose no rule and change no id. *)
Theorem configuring_keeps_all_rules :
  forall str_other k ignored included configs experimental mandatory k',
  coll_configure str_other k ignored included configs experimental mandatory = Ok k' ->
  map (fun r => (r_id r, r_experimental r)) (k_all k') = map (fun r => (r_id r, r_experimental r)) (k_all k).
Proof. exact coll_configure_keeps. Qed.

Theorem loading_keeps_all_rules :
  forall str_other rs ignored included configs experimental mandatory k',
  coll_new str_other rs ignored included configs experimental mandatory = Ok k' ->
  map (fun r => (r_id r, r_experimental r)) (k_all k') = map (fun r => (r_id r, r_experimental r)) rs.
Proof. exact coll_new_keeps. Qed.

(** Mandatory checks cannot be switched off. *)
Theorem mandatory_rules_always_run : forall id ignored included mandatory want_experimental p,
  In p mandatory -> is_prefix p id -> (exists q, In q included /\ is_prefix q id) ->
  is_enabled id false want_experimental ignored included mandatory = true.
Proof. exact mandatory_always. Qed.

Example selected_example : selected "E3012" false false ["E3"; ""] ["W"; "E"] ["E30"].
Proof.
  split; [now left|]. split; [exists "E"; split; [right; now left | now exists "3012"]|].
  left. exists "E30". split; [now left | now exists "12"].
Qed.
Example not_selected_example : ~ selected "E3012" false false ["E3"] ["W"; "E"] ["W"].
Proof. intros H. apply rule_selected_iff in H. discriminate. Qed.
Example configure_example :
  exists k', coll_configure (fun _ => "") sample_coll ["E9"] [] [] false [] = Ok k' /\ map r_id (rules k') = ["W9002"].
Proof. eexists; split; reflexivity. Qed.
Example load_example :
  exists k', coll_new (fun _ => "") (k_all sample_coll) ["W"] [] [] false [] = Ok k' /\ map r_id (rules k') = ["E9001"].
Proof. eexists; split; reflexivity. Qed.

Print Assumptions rule_selected_iff.
Print Assumptions configured_rules_are_the_selected_ones.
Print Assumptions loaded_rules_are_the_selected_ones.
Print Assumptions configuring_keeps_all_rules.
Print Assumptions loading_keeps_all_rules.
Print Assumptions mandatory_rules_always_run.
