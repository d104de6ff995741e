(** C73 Event rules have a schedule that can be read and at most five targets. *)
From Coq Require Import List.
Import ListNotations.
From Verif.Model Require Import Base Helpers Locate Node Rules PropertyRules Events.
From Verif.Spec Require Import Paths Branches Required References Walk Values Permissions Events.
From Verif.Proofs Require Import Samples PropertyWitness PropertyRuleProofs IamWitness EventProofs TargetProofs EventWitness.
Import Verif.Model.Rules.
Local Open Scope string_scope.

(** E3027 reports exactly the schedules, in any branch of conditions, that are neither a rate of two parts the first of which is a whole number, nor a cron of six parts that gives at most one of the two days.  Missing for the full property: schedules that are null or no texts, and the refutations below. *)
Theorem schedules_judged_partial : forall props p,
  texts_given props p "ScheduleExpression" ->
  exists ms, schedule_check (VDict props) p = Ok ms /\ forall m, In m ms <->
    exists x s r words, assoc "ScheduleExpression" props = Some x /\ single x (p ++ [PKey "ScheduleExpression"])%list (VStr s) r /\ schedule_fault s words /\ m = mkRM r words.
Proof. exact c73_schedule. Qed.
Print Assumptions schedules_judged_partial.

(** In a run, each of them leads to a finding of E3027. *)
Theorem schedule_findings : forall sp k c raw name attrs pd m0 d0 x s r words,
  snd (coll_run sp k c) = Ok raw -> In schedule_rule (k_all k) -> enabled (k_set k) schedule_rule = true ->
  wf (template c) -> c_tmpl c = MDict m0 d0 -> resource_of (template c) name "AWS::Events::Rule" attrs -> assoc "Properties" attrs = Some (VDict pd) ->
  texts_given pd (props_path name) "ScheduleExpression" -> assoc "ScheduleExpression" pd = Some x ->
  single x (props_path name ++ [PKey "ScheduleExpression"])%list (VStr s) r -> schedule_fault s words ->
  exists f, locate_match c "E3027" (mkRM r words) = Ok f /\ In f raw.
Proof. exact c73_schedule_run. Qed.
Print Assumptions schedule_findings.

(** E3021 reports every list of more than five targets of an event rule and reports nothing but such lists, though it counts on from one rule to the next.  Missing for the full property: conditions inside branches and among the targets. *)
Theorem targets_counted_partial : forall c name attrs pd,
  wf (template c) ->
  (forall n attrs pd, resource_of (template c) n "AWS::Events::Rule" attrs -> assoc "Properties" attrs = Some (VDict pd) -> targets_shaped pd /\ without "." n) ->
  resource_of (template c) name "AWS::Events::Rule" attrs -> assoc "Properties" attrs = Some (VDict pd) ->
  exists check ms, r_match_props targets_rule = Some check /\ check [] c (VDict pd) "AWS::Events::Rule" (props_path name) = Ok ms /\
    (forall q, many_targets name pd q -> In (mkRM q many_words) ms) /\
    (forall m, In m ms -> exists n attrs pd q, resource_of (template c) n "AWS::Events::Rule" attrs /\ assoc "Properties" attrs = Some (VDict pd) /\ many_targets n pd q /\ m = mkRM q many_words).
Proof. exact c73_targets. Qed.
Print Assumptions targets_counted_partial.

(** In a run, each of them leads to a finding of E3021. *)
Theorem target_findings : forall sp k c raw name attrs pd m0 d0 q,
  snd (coll_run sp k c) = Ok raw -> In targets_rule (k_all k) -> enabled (k_set k) targets_rule = true ->
  wf (template c) -> c_tmpl c = MDict m0 d0 ->
  (forall n attrs pd, resource_of (template c) n "AWS::Events::Rule" attrs -> assoc "Properties" attrs = Some (VDict pd) -> targets_shaped pd /\ without "." n) ->
  resource_of (template c) name "AWS::Events::Rule" attrs -> assoc "Properties" attrs = Some (VDict pd) -> many_targets name pd q ->
  exists f, locate_match c "E3021" (mkRM q many_words) = Ok f /\ In f raw.
Proof. exact c73_targets_run. Qed.
Print Assumptions target_findings.

(** A schedule that is a number or a switch ends the check with an exception. *)
Theorem schedule_number_refuted : judge_schedule (VInt 5) = Err EAttribute /\ judge_schedule (VBool true) = Err EAttribute.
Proof. exact schedule_number_witness. Qed.
Print Assumptions schedule_number_refuted.

(** Units and the values of fields are not looked at. *)
Theorem schedule_unit_refuted : judge_schedule (VStr "rate(5 parsecs)") = Ok [] /\ judge_schedule (VStr "rate(0 minutes)") = Ok [] /\ judge_schedule (VStr "cron(a b ? c d e)") = Ok [].
Proof. exact schedule_unit_witness. Qed.
Print Assumptions schedule_unit_refuted.

(** Text after the first closing parenthesis is ignored. *)
Theorem schedule_rest_refuted : judge_schedule (VStr "rate(5 minutes) or so)") = Ok [].
Proof. exact schedule_rest_witness. Qed.
Print Assumptions schedule_rest_refuted.

(** Neither day needs to be given. *)
Theorem schedule_days_refuted : judge_schedule (VStr "cron(0 18 ? * ? *)") = Ok [].
Proof. exact schedule_days_witness. Qed.
Print Assumptions schedule_days_refuted.

(** Two spaces between the parts are reported as an additional part. *)
Theorem schedule_spaces_refuted : exists m, judge_schedule (VStr "rate(5  minutes)") = Ok [m] /\ rm_msg m = "Rate expression must contain 2 elements (Value Unit), rate contains 3 elements".
Proof. exact schedule_spaces_witness. Qed.
Print Assumptions schedule_spaces_refuted.

(** The branches of a condition in a branch are counted together, and reported though no choice has more than three targets. *)
Theorem nested_targets_refuted : exists m, judge_targets (If_of (VList [VStr "A"; If_of (VList [VStr "B"; VList three; VList three]); VList []])) = Ok [m] /\ rm_msg m = many_words.
Proof. exact nested_targets_witness. Qed.
Print Assumptions nested_targets_refuted.

(** Both branches of targets that are conditions are counted, and three targets are reported. *)
Theorem item_targets_refuted : exists m, judge_targets (VList [If_of (VList [VStr "A"; a_target; a_target]); If_of (VList [VStr "B"; a_target; a_target]); If_of (VList [VStr "C"; a_target; a_target])]) = Ok [m] /\ rm_msg m = many_words.
Proof. exact item_targets_witness. Qed.
Print Assumptions item_targets_refuted.

(** Targets given by calls are not counted. *)
Theorem called_targets_refuted : exists l, List.length l > 5 /\ judge_targets (VList l) = Ok [].
Proof. exact called_targets_witness. Qed.
Print Assumptions called_targets_refuted.

Example schedule_example_ : wf (template (cfn_of event_template)) /\ resource_of (template (cfn_of event_template)) "R" event_type [("Type", VStr event_type); ("Properties", VDict sample_event)] /\
  texts_given sample_event (props_path "R") "ScheduleExpression" /\
  (exists x r, assoc "ScheduleExpression" sample_event = Some x /\ single x (props_path "R" ++ [PKey "ScheduleExpression"])%list (VStr "cron(0 18 * * MON *)") r) /\
  schedule_fault "cron(0 18 * * MON *)" "Don't specify the Day-of-month and Day-of-week fields in the same cron expression" /\
  schedule_fault "rate(five minutes)" "Rate Value (five) should be of type Integer." /\
  let k := mkColl [schedule_rule; targets_rule] default_settings in
  exists raw, snd (coll_run sample_sp k (cfn_of event_template)) = Ok raw /\
    map f_msg raw = ["Rate Value (five) should be of type Integer."; "Don't specify the Day-of-month and Day-of-week fields in the same cron expression"; many_words].
Proof. exact schedule_example. Qed.

Example target_example_ : (forall n attrs pd, resource_of (template (cfn_of event_template)) n "AWS::Events::Rule" attrs -> assoc "Properties" attrs = Some (VDict pd) -> targets_shaped pd /\ without "." n) /\
  many_targets "R" sample_event (props_path "R" ++ [PKey "Targets"; PKey "Fn::If"; PIdx 1])%list.
Proof. exact target_example. Qed.
