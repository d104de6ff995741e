(** C49 Lists as values of outputs. *)
From Verif.Model Require Import Base Rules Search Conditions Resolve Relationship Policies.
From Verif.Spec Require Import Paths Resolved References Limited ConditionUse ParameterUse Faults Booleans Protect.
From Verif.Proofs Require Import PolicyProofs.
Import Verif.Model.Rules.
Local Open Scope string_scope.

(** References to list parameters and list attributes in the Value of an output.  Every place in second position of a list counts as one where a list is used up.  Missing for the full property: the first branch of Fn::If, which is such a place (refuted below). *)
Theorem list_outputs_are_reported_partial : forall show template globals attribute_type, wf template -> wf globals -> typed_section template "Resources" -> typed_section template "Parameters" ->
  (forall f p v q, In f ["Ref"; "Fn::GetAtt"] -> occurs f template globals p v -> p = PKey "Outputs" :: q -> exists n x r, q = PKey n :: x :: r) ->
  (forall p v, occurs "Fn::GetAtt" template globals p v -> exists r a, v = VList [VStr r; VStr a]) ->
  (forall p v, occurs "Ref" template globals p v -> exists n, v = VStr n) ->
  exists ms, output_value_match show template globals attribute_type = Ok ms /\
  forall m, In m ms <-> exists n p, in_output_value p n /\ ~ consumed p /\
    ((exists r a, occurs "Fn::GetAtt" template globals p (VList [VStr r; VStr a]) /\ list_attribute attribute_type template r a /\
        m = mkRM (p ++ [PKey "Fn::GetAtt"])%list ("Output " ++ n ++ " value " ++ r ++ "/" ++ a ++ " is of type list")) \/
     (exists q, occurs "Ref" template globals p (VStr q) /\ list_parameter template q /\
        m = mkRM (p ++ [PKey "Ref"])%list ("Output " ++ n ++ " value " ++ q ++ " is of type list"))).
Proof. exact c49_all. Qed.
Print Assumptions list_outputs_are_reported_partial.

(** A list in the first branch of Fn::If goes unreported. *)
Theorem list_outputs_are_reported_refuted : exists template p, wf template /\ occurs "Ref" template (VDict []) p (VStr "Nets") /\ list_parameter template "Nets" /\ in_output_value p "A" /\
  (forall q x, p <> (q ++ [PKey "Fn::Join"; x])%list) /\ forall show attribute_type, output_value_match show template (VDict []) attribute_type = Ok [].
Proof. exact c49_if. Qed.
Print Assumptions list_outputs_are_reported_refuted.

Example market_meets_the_hypotheses : wf market /\ typed_section market "Resources" /\ typed_section market "Parameters" /\
  (forall f p v q, In f ["Ref"; "Fn::GetAtt"] -> occurs f market (VDict []) p v -> p = PKey "Outputs" :: q -> exists n x r, q = PKey n :: x :: r) /\
  (forall p v, occurs "Fn::GetAtt" market (VDict []) p v -> exists r a, v = VList [VStr r; VStr a]) /\
  (forall p v, occurs "Ref" market (VDict []) p v -> exists n, v = VStr n).
Proof. exact (conj market_wf (conj (market_typed "Resources" (or_introl eq_refl)) (conj (market_typed "Parameters" (or_intror (or_introl eq_refl))) (conj market_places (conj market_getatt market_refs))))). Qed.
Example market_is_reported : forall show, output_value_match show market (VDict []) market_attribute = Ok
  [mkRM [PKey "Outputs"; PKey "C"; PKey "Value"; PKey "Fn::GetAtt"] "Output C value Volume/Zones is of type list";
   mkRM [PKey "Outputs"; PKey "A"; PKey "Value"; PKey "Ref"] "Output A value Nets is of type list"].
Proof. exact market_output_report. Qed.
