(** C73: samples and deviations. *)
From Coq Require Import List Lia.
From Verif.Model Require Import Base Locate Helpers Node Search Rules PropertyRules Events.
From Verif.Spec Require Import Paths Branches References Required Walk Values Permissions Events.
From Verif.Proofs Require Import BaseFacts WfDecide BranchProofs SizeProofs Samples PropertyWitness ValueWitness PropertyRuleProofs Says Places IamWitness PermissionProofs EventProofs TargetProofs.
Import Verif.Model.Rules.
Import ListNotations.
Local Open Scope string_scope.

Definition event_type : string := "AWS::Events::Rule".
Definition a_target : val := VDict [("Arn", VStr "arn:aws:lambda:us-east-1:123456789012:function:f"); ("Id", VStr "1")].
Definition by_ref : val := VDict [("Ref", VStr "T")].
Definition six : list val := [a_target; a_target; a_target; by_ref; a_target; a_target; a_target].
Definition sample_event : list (string * val) :=
  [("ScheduleExpression", If_of (VList [VStr "Often"; VStr "rate(five minutes)"; VStr "cron(0 18 * * MON *)"]));
   ("Targets", If_of (VList [VStr "Many"; VList six; VList [a_target]]))].
Definition event_template : val := with_resource event_type sample_event.
Lemma text_single s p w r : single (VStr s) p w r -> w = VStr s /\ r = p.
Proof. intros H. inversion H as [v p' w' q' K _|v p' l q' i x w' r' K _ _]; subst; inversion K; auto. Qed.
Lemma schedule_example : wf (template (cfn_of event_template)) /\ resource_of (template (cfn_of event_template)) "R" event_type [("Type", VStr event_type); ("Properties", VDict sample_event)] /\
  texts_given sample_event (props_path "R") "ScheduleExpression" /\
  (exists x r, assoc "ScheduleExpression" sample_event = Some x /\ single x (props_path "R" ++ [PKey "ScheduleExpression"])%list (VStr "cron(0 18 * * MON *)") r) /\
  schedule_fault "cron(0 18 * * MON *)" "Don't specify the Day-of-month and Day-of-week fields in the same cron expression" /\
  schedule_fault "rate(five minutes)" "Rate Value (five) should be of type Integer." /\
  let k := mkColl [schedule_rule; targets_rule] default_settings in
  exists raw, snd (coll_run sample_sp k (cfn_of event_template)) = Ok raw /\
    map f_msg raw = ["Rate Value (five) should be of type Integer."; "Don't specify the Day-of-month and Day-of-week fields in the same cron expression"; many_words].
Proof.
  split; [apply wfb_sound; reflexivity|]. split; [|split; [|split; [|split; [|split]]]].
  - do 2 eexists. split; [reflexivity|]. split; [reflexivity|]. split; [now left | reflexivity].
  - intros x [= <-]. split; [intros r K; apply (alternative_sub _ _ _ _) in K; revert K; apply nulls_sound; reflexivity|].
    assert (A : forall w r, alternative (If_of (VList [VStr "Often"; VStr "rate(five minutes)"; VStr "cron(0 18 * * MON *)"])) (props_path "R" ++ [PKey "ScheduleExpression"])%list w r -> exists s, w = VStr s).
    { intros w r K. inversion K as [c a b p w' q K'|c a b p w' q K'|v p Hi]; subst; [| |exfalso; apply Hi; eexists; reflexivity]; inversion K'; subst; eauto. }
    intros w r Hs _. inversion Hs as [v p w' q' K _|v p l q' i y w' r' K _ _]; subst; [exact (A _ _ K)|]. destruct (A _ _ K) as [s' E]. discriminate E.
  - do 2 eexists. split; [reflexivity|]. apply sg_value; [|reflexivity]. eapply alt_else. apply alt_leaf; [intros [y E]; discriminate E | discriminate].
  - eapply (sc_cron_days _ "0 18 * * MON *" "0" "18" "*" "*" "MON" "*"); [| |discriminate | discriminate].
    + split; [apply without_iff; reflexivity|]. exists "". split; [reflexivity|]. now exists "cron(0 18 * * MON *".
    + split; [discriminate|]. split; [|reflexivity]. intros x Hx. apply without_iff. cbn in Hx. decompose [or] Hx; subst; try reflexivity. contradiction.
  - eapply (sc_rate_value _ "five minutes" "five" "minutes").
    + split; [apply without_iff; reflexivity|]. exists "". split; [reflexivity|]. now exists "rate(five minutes".
    + split; [discriminate|]. split; [|reflexivity]. intros x Hx. apply without_iff. cbn in Hx. decompose [or] Hx; subst; try reflexivity. contradiction.
    + intros K. apply whole_iff in K. discriminate K.
  - eexists. split; [vm_compute; reflexivity | reflexivity].
Qed.
Lemma target_example : (forall n attrs pd, resource_of (template (cfn_of event_template)) n "AWS::Events::Rule" attrs -> assoc "Properties" attrs = Some (VDict pd) -> targets_shaped pd /\ without "." n) /\
  many_targets "R" sample_event (props_path "R" ++ [PKey "Targets"; PKey "Fn::If"; PIdx 1])%list.
Proof.
  split.
  - intros n attrs pd [top [rs [Et [Er [Hin _]]]]] Hp. injection Et as <-. injection Er as <-. destruct Hin as [E|[]]. injection E as <- <-. injection Hp as <-.
    split; [|apply without_iff; reflexivity]. intros x [= <-]. split; [eexists; right; do 2 eexists; reflexivity|].
    intros p l q i Ht Hi Hif. inversion Ht as [l1 E|c1 l1 b1 E|c1 a1 l1 E]; subst; try discriminate E; injection E as E1 E2 E3; subst; cbn in Hi; destruct Hif as [y E]; decompose [or] Hi; subst; try contradiction; discriminate.
  - exists (If_of (VList [VStr "Many"; VList six; VList [a_target]])), six, [a_target; a_target; a_target; a_target; a_target; a_target].
    split; [reflexivity|]. split; [eapply (tl_then _ (props_path "R" ++ [PKey "Targets"])%list); reflexivity|]. split; [|cbn; lia].
    change [a_target; a_target; a_target; a_target; a_target; a_target] with (uncalled six). apply only_uncalled.
Qed.

Definition judge_schedule (v : val) : res (list rulematch) := schedule_check (VDict [("ScheduleExpression", v)]) (props_path "R").
(** What is no text ends the check with an exception. *)
Lemma schedule_number_witness : judge_schedule (VInt 5) = Err EAttribute /\ judge_schedule (VBool true) = Err EAttribute.
Proof. split; vm_compute; reflexivity. Qed.
(** Units and the values of the fields are not looked at. *)
Lemma schedule_unit_witness : judge_schedule (VStr "rate(5 parsecs)") = Ok [] /\ judge_schedule (VStr "rate(0 minutes)") = Ok [] /\ judge_schedule (VStr "cron(a b ? c d e)") = Ok [].
Proof. split; [|split]; vm_compute; reflexivity. Qed.
(** Text after the first closing parenthesis is ignored. *)
Lemma schedule_rest_witness : judge_schedule (VStr "rate(5 minutes) or so)") = Ok [].
Proof. vm_compute. reflexivity. Qed.
(** Neither day needs to be given. *)
Lemma schedule_days_witness : judge_schedule (VStr "cron(0 18 ? * ? *)") = Ok [].
Proof. vm_compute. reflexivity. Qed.
(** Two spaces between the elements are an empty element. *)
Lemma schedule_spaces_witness : exists m, judge_schedule (VStr "rate(5  minutes)") = Ok [m] /\ rm_msg m = "Rate expression must contain 2 elements (Value Unit), rate contains 3 elements".
Proof. eexists. split; [vm_compute; reflexivity | reflexivity]. Qed.
Definition judge_targets (v : val) : res (list rulematch) := targets_check [] (VDict [("Targets", v)]) (props_path "R").
Definition three : list val := [a_target; a_target; a_target].
(** The branches of a condition in a branch are counted together. *)
Lemma nested_targets_witness : exists m, judge_targets (If_of (VList [VStr "A"; If_of (VList [VStr "B"; VList three; VList three]); VList []])) = Ok [m] /\ rm_msg m = many_words.
Proof. eexists. split; [vm_compute; reflexivity | reflexivity]. Qed.
(** So are both branches of items that are conditions. *)
Lemma item_targets_witness : exists m, judge_targets (VList [If_of (VList [VStr "A"; a_target; a_target]); If_of (VList [VStr "B"; a_target; a_target]); If_of (VList [VStr "C"; a_target; a_target])]) = Ok [m] /\ rm_msg m = many_words.
Proof. eexists. split; [vm_compute; reflexivity | reflexivity]. Qed.
(** Targets given by calls are not counted. *)
Lemma called_targets_witness : exists l, List.length l > 5 /\ judge_targets (VList l) = Ok [].
Proof. exists [by_ref; by_ref; by_ref; by_ref; by_ref; by_ref]. split; [cbn; lia | vm_compute; reflexivity]. Qed.
