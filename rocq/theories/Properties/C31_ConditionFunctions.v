(** C31 Condition functions are well formed. *)
From Verif.Model Require Import Base ConditionRules.
From Verif.Spec Require Import Paths References ConditionUse.
From Verif.Proofs Require Import ConditionUseProofs EqualsProofs.

(** Fn::And, Fn::Or and Fn::Not in the Conditions section: every malformed use is reported, and only those. *)
Theorem condition_lists_are_checked : forall template globals, wf template -> wf globals ->
  forall f, In f ["Fn::And"; "Fn::Or"; "Fn::Not"] ->
  (forall m, In m (check_condition_list template globals f) ->
     exists r v, occurs f template globals (PKey "Conditions" :: r) v /\ ~ valid_condition_list f v /\
       at_or_below (PKey "Conditions" :: r ++ [PKey f]) (rm_path m)) /\
  (forall r v, occurs f template globals (PKey "Conditions" :: r) v -> ~ valid_condition_list f v ->
     exists m, In m (check_condition_list template globals f) /\ at_or_below (PKey "Conditions" :: r ++ [PKey f]) (rm_path m)).
Proof. exact c31_condition_lists. Qed.
Print Assumptions condition_lists_are_checked.

(** Fn::Equals.  Missing for the full property: Refs with ambiguous or undefined targets (refuted below). *)
Theorem equals_is_checked_partial : forall template globals, wf template -> wf globals -> plain_sections template ->
  (forall r a b, occurs "Fn::Equals" template globals (PKey "Conditions" :: r) (VList [a; b]) ->
     plain_operand template a /\ plain_operand template b) ->
  exists ms, equals_match template globals = Ok ms /\
  (forall m, In m ms -> exists r v, occurs "Fn::Equals" template globals (PKey "Conditions" :: r) v /\ ~ valid_equals template v /\
     at_or_below (PKey "Conditions" :: r ++ [PKey "Fn::Equals"]) (rm_path m)) /\
  (forall r v, occurs "Fn::Equals" template globals (PKey "Conditions" :: r) v -> ~ valid_equals template v ->
     exists m, In m ms /\ at_or_below (PKey "Conditions" :: r ++ [PKey "Fn::Equals"]) (rm_path m)).
Proof. exact c31_equals. Qed.
Print Assumptions equals_is_checked_partial.

(** Fn::If, anywhere in the template.  Missing for the full property: an empty list (refuted below). *)
Theorem if_is_checked_partial : forall template globals, wf template -> wf globals ->
  (forall p, ~ occurs "Fn::If" template globals p (VList [])) ->
  exists ms, if_match template globals = Ok ms /\
  (forall m, In m ms -> exists p v, occurs "Fn::If" template globals p v /\ ~ valid_if v /\
     (rm_path m = p ++ [PKey "Fn::If"] \/ rm_path m = p ++ [PKey "Fn::If"; PIdx 0])) /\
  (forall p v, occurs "Fn::If" template globals p v -> ~ valid_if v ->
     exists m, In m ms /\ (rm_path m = p ++ [PKey "Fn::If"] \/ rm_path m = p ++ [PKey "Fn::If"; PIdx 0])).
Proof. exact c31_if. Qed.
Print Assumptions if_is_checked_partial.

(** The members of the Conditions section are conditions. *)
Theorem conditions_section_is_checked : forall template d cs,
  template = VDict d -> (assoc "Conditions" d = Some (VDict cs) \/ assoc "Conditions" d = None /\ cs = []) ->
  exists ms, configuration_match template = Ok ms /\
  (forall m, In m ms -> exists n x, In (n, x) cs /\ ~ condition_object x /\ exists r, rm_path m = PKey "Conditions" :: PKey n :: r) /\
  (forall n x, In (n, x) cs -> ~ condition_object x -> exists m, In m ms /\ exists r, rm_path m = PKey "Conditions" :: PKey n :: r).
Proof. exact c31_configuration. Qed.
Print Assumptions conditions_section_is_checked.

(** An empty Fn::If is not reported: the check ends with an IndexError. *)
Theorem if_is_checked_refuted : exists template, wf template /\ if_match template (VDict []) = Err EIndex.
Proof. exact (ex_intro _ empty_if (conj (proj1 empty_if_fails) (proj2 (proj2 empty_if_fails)))). Qed.
Print Assumptions if_is_checked_refuted.

(** A well-formed Fn::Equals is reported when the Ref it holds begins with the name of a list parameter. *)
Theorem equals_is_checked_refuted : exists template r v, wf template /\ plain_sections template /\
  occurs "Fn::Equals" template (VDict []) (PKey "Conditions" :: r) v /\ valid_equals template v /\
  exists m ms, equals_match template (VDict []) = Ok (m :: ms) /\ at_or_below (PKey "Conditions" :: r ++ [PKey "Fn::Equals"]) (rm_path m).
Proof. exact c31_prefix. Qed.
Print Assumptions equals_is_checked_refuted.
(** A Ref to something that is not a text ends the check with a TypeError. *)
Theorem equals_runs_refuted : exists template, wf template /\ plain_sections template /\ equals_match template (VDict []) = Err ETypeErr.
Proof. exact (ex_intro _ odd_ref odd_ref_fails). Qed.
Print Assumptions equals_runs_refuted.

(** Conditions of all kinds, with a list parameter compared, a too short Fn::Or and a too short Fn::If. *)
Example stages_meets_the_hypotheses : wf stages /\ wf (VDict []) /\ plain_sections stages /\
  (forall r a b, occurs "Fn::Equals" stages (VDict []) (PKey "Conditions" :: r) (VList [a; b]) -> plain_operand stages a /\ plain_operand stages b) /\
  (forall p, ~ occurs "Fn::If" stages (VDict []) p (VList [])).
Proof. exact (conj stages_wf (conj (conj (NoDup_nil _) I) (conj stages_sections (conj stages_operands (proj2 (proj2 stages_uses)))))). Qed.
Example stages_lists_report : check_condition_list stages (VDict []) "Fn::And" = [] /\ check_condition_list stages (VDict []) "Fn::Not" = [] /\
  check_condition_list stages (VDict []) "Fn::Or" =
    [mkRM [PKey "Conditions"; PKey "Lone"; PKey "Fn::Or"] "Fn::Or must be a list of between 2 to 10 conditions"].
Proof. exact stages_lists. Qed.
Example stages_equals_report : equals_match stages (VDict []) =
  Ok [mkRM [PKey "Conditions"; PKey "Bad"; PKey "Fn::Not"; PIdx 0; PKey "Fn::Equals"; PIdx 0]
           "Every Fn::Equals object requires a list of 2 string parameters"].
Proof. exact stages_equals. Qed.
Example stages_if_report : if_match stages (VDict []) =
  Ok [mkRM [PKey "Resources"; PKey "A"; PKey "Properties"; PKey "Y"; PKey "Fn::If"] "Fn::If must be a list of 3 elements."].
Proof. exact stages_if. Qed.
