(** C21 References to undefined names are reported. *)
From Verif.Model Require Import Base Refs.
From Verif.Spec Require Import Paths References.
From Verif.Proofs Require Import RefProofs.

(** A Ref to a parameter, resource, pseudo parameter or module output is never reported. *)
Theorem defined_refs_are_not_reported : forall template globals,
  wf template -> wf globals -> plain_sections template ->
  forall ms m, ref_exist_match template globals = Ok ms -> In m ms ->
  exists p s, m = mkRM p ("Ref " ++ s ++ " not found as a resource or parameter")%string /\
    ~ names template s /\ ~ module_output template s.
Proof. exact c21_defined. Qed.
Print Assumptions defined_refs_are_not_reported.

(** Exactly the Refs to names that no defined name is a beginning of are reported.  Missing for the full property: the
    undefined names that begin with a defined one (refuted below). *)
Theorem undefined_refs_are_reported_partial : forall template globals,
  wf template -> wf globals -> plain_sections template ->
  forall ms m, ref_exist_match template globals = Ok ms ->
  In m ms <->
  exists p s, (at_path (p ++ [PKey "Ref"]) template = Some (VStr s) \/ at_path (p ++ [PKey "Ref"]) globals = Some (VStr s)) /\
    m = mkRM p ("Ref " ++ s ++ " not found as a resource or parameter")%string /\
    forall n rest, names template n \/ module template n -> s <> (n ++ rest)%string.
Proof. exact c21_exact. Qed.
Print Assumptions undefined_refs_are_reported_partial.

(** The check runs unless a Ref has a number or a boolean as its target. *)
Theorem ref_check_runs : forall template globals,
  wf template -> wf globals -> plain_sections template ->
  (forall p v, at_path (p ++ [PKey "Ref"]) template = Some v \/ at_path (p ++ [PKey "Ref"]) globals = Some v ->
     (forall z, v <> VInt z) /\ (forall b, v <> VBool b)) ->
  exists ms, ref_exist_match template globals = Ok ms.
Proof. exact c21_runs. Qed.
Print Assumptions ref_check_runs.

(** A Ref to an undefined name that begins with the name of a resource is accepted. *)
Theorem undefined_refs_are_reported_refuted : exists template p s, wf template /\ plain_sections template /\
  at_path (p ++ [PKey "Ref"]) template = Some (VStr s) /\ ~ names template s /\ ~ module_output template s /\
  exists ms, ref_exist_match template (VDict []) = Ok ms /\ forall m, In m ms -> rm_path m <> p.
Proof. exact c21_refuted. Qed.
Print Assumptions undefined_refs_are_reported_refuted.

(** Four Refs, one of them to a name unlike any other. *)
Example buckets_meet_the_hypotheses : wf buckets /\ plain_sections buckets.
Proof. exact (conj buckets_wf buckets_plain). Qed.
Example buckets_report : ref_exist_match buckets (VDict []) =
  Ok [mkRM [PKey "Resources"; PKey "Queue"; PKey "Properties"; PKey "D"] "Ref Topic not found as a resource or parameter"].
Proof. exact buckets_matches. Qed.
