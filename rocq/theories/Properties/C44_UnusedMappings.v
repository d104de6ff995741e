(** C44 Unused mappings. *)
From Verif.Model Require Import Base Rules Shape.
From Verif.Spec Require Import Paths Limited ConditionUse Faults.
From Verif.Proofs Require Import ShapeProofs.
Local Open Scope string_scope.

(** [pre] is the template before a transform, [template] the one after it.  Missing for the full property: templates with an
    empty Fn::FindInMap (refuted below). *)
Theorem unused_mappings_are_reported_partial : forall pre template ms, wf pre -> section template "Mappings" ms ->
  (forall p, ~ occurs "Fn::FindInMap" pre (VDict []) p (VList [])) ->
  exists rs, mappings_used_match pre template = Ok rs /\
  forall m, In m rs <-> exists n x, In (n, x) ms /\ ~ names_mapping pre n /\ ~ computes_mapping pre /\
    m = mkRM [PKey "Mappings"; PKey n] ("Mapping '" ++ n ++ "' is defined but not used").
Proof. exact c44_all. Qed.
Print Assumptions unused_mappings_are_reported_partial.

(** An empty Fn::FindInMap ends the check with an IndexError. *)
Theorem unused_mappings_are_reported_refuted : exists template, wf template /\ mappings_used_match template template = Err EIndex.
Proof. exact c44_crash. Qed.
Print Assumptions unused_mappings_are_reported_refuted.

Example lookup_meets_the_hypotheses : wf lookup /\ section lookup "Mappings" [("Used", VDict []); ("Idle", VDict []); ("Plain", VDict [])] /\
  forall p, ~ occurs "Fn::FindInMap" lookup (VDict []) p (VList []).
Proof. exact (conj lookup_wf (conj lookup_section lookup_maps)). Qed.
Example lookup_is_reported : mappings_used_match lookup lookup = Ok [mkRM [PKey "Mappings"; PKey "Idle"] "Mapping 'Idle' is defined but not used"].
Proof. exact lookup_report. Qed.
