(** C06 A crashing rule does not hide other rules. *)
From Verif.Model Require Import Base Rules Core.
From Verif.Spec Require Import Pipeline Branches Walk.
From Verif.Proofs Require Import RunProofs Samples ReportProofs.

(** With the E0002 check enabled (and every resource type of the specification having a Properties table) a run always
    ends with findings, and these include, in order, everything the rules other than [bad] find without it. *)
Theorem other_rules_still_reported_partial : forall sp k c bad,
  spec_ok sp -> e0002_selected (k_set k) ->
  exists raw raw', snd (coll_run sp k c) = Ok raw /\ snd (coll_run sp (other_rules bad k) c) = Ok raw' /\ subseq raw' raw.
Proof. exact c06_others. Qed.

(** The outcome of every check is in the findings: what it found, or one E0002 finding for its failure (attribute errors
    on template nodes are dropped by design).  Checks of the whole template ... *)
Theorem template_check_reported : forall sp k c raw r,
  snd (coll_run sp k c) = Ok raw -> In r (rules (fst (coll_run sp k c))) ->
  (forall fs, matchall r c = Ok fs -> incl fs raw) /\
  (forall e, matchall r c = Err e -> e <> ETemplateAttribute -> In (crash_finding (c_file c) (r_id r) e) raw).
Proof. exact c06_match. Qed.

(** ... and checks of a resource's properties. *)
Theorem resource_check_reported : forall sp k c raw r name rt attrs pd,
  snd (coll_run sp k c) = Ok raw -> In r (rules (fst (coll_run sp k c))) ->
  resource_of (template c) name rt attrs -> assoc "Properties" attrs = Some (VDict pd) ->
  (forall fs, matchall_props r c (VDict pd) rt [PKey "Resources"; PKey name; PKey "Properties"] = Ok fs -> incl fs raw) /\
  (forall e, matchall_props r c (VDict pd) rt [PKey "Resources"; PKey name; PKey "Properties"] = Err e ->
     e <> ETemplateAttribute -> In (crash_finding (c_file c) (r_id r) e) raw).
Proof. exact c06_props. Qed.

(** Without E0002 the claim is false: one crashing rule makes the findings of all rules disappear. *)
Theorem other_rules_still_reported_refuted :
  exists k c bad l,
    snd (run_checks no_spec no_translator (other_rules bad k) ["us-east-1"] [] c) = Findings l /\ l <> [] /\
    snd (run_checks no_spec no_translator k ["us-east-1"] [] c) = Findings [].
Proof. exact c06_refuted. Qed.

(** A check that fails because a template node has no such attribute is dropped without a trace. *)
Theorem failure_is_reported_refuted : exists r c, matchall r c = Err ETemplateAttribute /\ e0002_selected default_settings /\
  snd (coll_run no_spec (mkColl [r] default_settings) c) = Ok [].
Proof. exact c06_silent. Qed.

Example crash_example :
  let k := mkColl [rule_of "E9001" [mkRM [PKey "Resources"] "bad"]; crash_rule "E9003"] default_settings in
  let c := mkCfn "t.yaml" "us-east-1" multi_line in
  spec_ok no_spec /\ e0002_selected (k_set k) /\
  exists k' raw, coll_run no_spec k c = (k', Ok raw) /\ map f_rule raw = ["E9001"; "E0002"].
Proof.
  split; [intros rt ts []|]. split; [apply e0002_iff; reflexivity|].
  do 2 eexists. split; reflexivity.
Qed.

Print Assumptions other_rules_still_reported_partial.
Print Assumptions template_check_reported.
Print Assumptions resource_check_reported.
Print Assumptions other_rules_still_reported_refuted.
Print Assumptions failure_is_reported_refuted.
