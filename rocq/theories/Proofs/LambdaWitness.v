(** C74: samples and deviations. *)
From Coq Require Import List ZArith QArith Lia.
From Verif.Model Require Import Base Locate Helpers Node Search Rules JsonDump PropertyRules Lambda.
From Verif.Spec Require Import Paths Branches References SameJson Required Walk Values Events Lambda.
From Verif.Proofs Require Import BaseFacts WfDecide BranchProofs SizeProofs Samples PropertyWitness ValueWitness PropertyRuleProofs Says Places IamWitness DuplicateWitness LambdaProofs FilterProofs EventWitness.
Import Verif.Model.Rules.
Import ListNotations.
Local Open Scope string_scope.

Definition sample_runtimes : list (string * lifecycle) :=
  [("nodejs6.10", mkLife "2019-04-30" "2019-08-12" "nodejs10.x"); ("python2.7", mkLife "2021-06-01" "2021-09-01" "python3.8")].
(** Days since some day. *)
Definition sample_instant (s : string) : Z := match s with "2019-04-30" => 10 | "2019-08-12" => 20 | "2021-06-01" => 30 | _ => 40 end%Z.
Definition function_type : string := "AWS::Lambda::Function".
Definition sample_function : list (string * val) := [("Runtime", If_of (VList [VStr "Old"; VStr "nodejs6.10"; VDict [("Ref", VStr "P")]]))].
Definition runtime_parameter : list (string * val) := [("Type", VStr "String"); ("Default", VStr "python2.7"); ("AllowedValues", VList [VStr "python3.8"; VStr "nodejs6.10"])].
Definition function_template : val :=
  VDict [("Parameters", VDict [("P", VDict runtime_parameter)]); ("Resources", VDict [("R", VDict [("Type", VStr function_type); ("Properties", VDict sample_function)])])].
Lemma sample_single w r : single (If_of (VList [VStr "Old"; VStr "nodejs6.10"; VDict [("Ref", VStr "P")]])) (props_path "R" ++ [PKey "Runtime"])%list w r -> w = VStr "nodejs6.10" \/ w = VDict [("Ref", VStr "P")].
Proof.
  assert (A : forall w r, alternative (If_of (VList [VStr "Old"; VStr "nodejs6.10"; VDict [("Ref", VStr "P")]])) (props_path "R" ++ [PKey "Runtime"])%list w r -> w = VStr "nodejs6.10" \/ w = VDict [("Ref", VStr "P")]).
  { intros w' r' K. inversion K as [c a b p w0 q K'|c a b p w0 q K'|v p Hi]; subst; [inversion K'; subst; auto | inversion K'; subst; auto | exfalso; apply Hi; eexists; reflexivity]. }
  intros Hs. inversion Hs as [v p w' q' K _|v p l q' i y w' r' K _ _]; subst; [exact (A _ _ K)|]. destruct (A _ _ K) as [E|E]; discriminate E.
Qed.
Lemma runtime_example : wf (template (cfn_of function_template)) /\ resource_of (template (cfn_of function_template)) "R" function_type [("Type", VStr function_type); ("Properties", VDict sample_function)] /\
  assoc "" sample_runtimes = None /\ runtimes_shaped (template (cfn_of function_template)) sample_function (props_path "R") /\
  runtime_given (template (cfn_of function_template)) sample_function (props_path "R") "python2.7" [PKey "Parameters"; PKey "P"; PKey "Default"] /\
  runtime_given (template (cfn_of function_template)) sample_function (props_path "R") "nodejs6.10" [PKey "Parameters"; PKey "P"; PKey "AllowedValues"; PIdx 1] /\
  (exists w, retired sample_runtimes sample_instant 35 "nodejs6.10" w) /\ (exists w, retiring sample_runtimes sample_instant 35 "python2.7" w) /\
  let k := mkColl [end_rule sample_runtimes sample_instant 35; eol_rule sample_runtimes sample_instant 35] default_settings in
  exists raw, snd (coll_run sample_sp k (cfn_of function_template)) = Ok raw /\
    map f_msg raw = ["Deprecated runtime (nodejs6.10) specified. Updating disabled since 2019-08-12. Please consider updating to nodejs10.x";
                     "Deprecated runtime (nodejs6.10) specified. Updating disabled since 2019-08-12. Please consider updating to nodejs10.x";
                     "EOL runtime (python2.7) specified. Runtime is EOL since 2021-06-01 and updating will be disabled at 2021-09-01. Please consider updating to python3.8"].
Proof.
  assert (Href : exists r, single (If_of (VList [VStr "Old"; VStr "nodejs6.10"; VDict [("Ref", VStr "P")]])) (props_path "R" ++ [PKey "Runtime"])%list (VDict [("Ref", VStr "P")]) r).
  { eexists. apply sg_value; [|reflexivity]. eapply alt_else. apply alt_leaf; [intros [y E]; discriminate E | discriminate]. }
  destruct Href as [r Href].
  assert (Hdef : defined_in "Parameters" (template (cfn_of function_template)) "P" runtime_parameter) by (do 2 eexists; split; [reflexivity|]; split; reflexivity).
  split; [apply wfb_sound; reflexivity|]. split; [|split; [reflexivity|split; [|split; [|split; [|split; [|split]]]]]].
  - do 2 eexists. split; [reflexivity|]. split; [reflexivity|]. split; [now left | reflexivity].
  - split; [eexists; split; [reflexivity|]; intros ps [= <-]; eauto|]. intros x [= <-]. split; [intros q K; apply (alternative_sub _ _ _ _) in K; revert K; apply nulls_sound; reflexivity|]. split.
    + intros w q Hw Hc. destruct (sample_single w q Hw) as [->| ->]; [split; reflexivity|]. elim Hc. exists "Ref", (VStr "P"). split; [reflexivity | apply smem_iff; reflexivity].
    + intros v q Hw. destruct (sample_single _ q Hw) as [E|E]; [discriminate E|]. injection E as ->. split; [split; reflexivity|].
      intros n top ps y [= <-] [= <-] [= <-] [= <-]. eexists. split; [reflexivity|]. split; [intros z [= <-]; split; reflexivity|]. intros l z [= <-] [<-|[<-|[]]]; split; reflexivity.
  - eapply rg_default; [reflexivity | exact Href | exact Hdef | reflexivity].
  - eapply rg_allowed; [reflexivity | exact Href | exact Hdef | reflexivity | reflexivity].
  - eexists. do 3 eexists. split; [reflexivity|]. split; [reflexivity | reflexivity].
  - eexists. do 3 eexists. split; [reflexivity|]. split; [split; reflexivity | reflexivity].
  - eexists. split; [vm_compute; reflexivity | reflexivity].
Qed.
(** At the very moment of the date no rule speaks of a runtime. *)
Lemma at_the_instant_witness : exists s eol dep succ, assoc s sample_runtimes = Some (mkLife eol dep succ) /\ (sample_instant eol < 20)%Z /\ sample_instant dep = 20%Z /\
  runtime_check sample_runtimes (end_words sample_instant 20) function_template (VDict [("Runtime", VStr s)]) (props_path "R") = Ok [] /\
  runtime_check sample_runtimes (eol_words sample_instant 20) function_template (VDict [("Runtime", VStr s)]) (props_path "R") = Ok [].
Proof. exists "nodejs6.10". do 3 eexists. split; [reflexivity|]. split; [reflexivity|]. split; [reflexivity|]. split; vm_compute; reflexivity. Qed.
(** A runtime that is an object ends the check with an exception, and so does a default that is a list. *)
Lemma runtime_object_witness : runtime_check sample_runtimes (end_words sample_instant 35) function_template (VDict [("Runtime", VDict [("Name", VStr "nodejs6.10")])]) (props_path "R") = Err ETypeErr.
Proof. vm_compute. reflexivity. Qed.
(** A runtime given by another call is not looked at. *)
Lemma runtime_call_witness : runtime_check sample_runtimes (end_words sample_instant 35) function_template (VDict [("Runtime", VDict [("Fn::Sub", VStr "nodejs6.10")])]) (props_path "R") = Ok [].
Proof. vm_compute. reflexivity. Qed.

(** * Subscription filters *)
Definition a_filter (g : val) : val := VDict [("Type", VStr "AWS::Logs::SubscriptionFilter"); ("Properties", VDict [("LogGroupName", g)])].
Definition with_condition (v : val) (c : string) : val := match v with VDict d => VDict (("Condition", VStr c) :: d) | _ => v end.
Definition the_group : val := VDict [("Ref", VStr "G")].
Definition filter_template : val :=
  VDict [("Resources", VDict [("A", a_filter the_group); ("B", a_filter (VStr "other")); ("C", a_filter the_group); ("D", a_filter the_group); ("E", a_filter the_group)])].
Lemma filter_example : float_texts sample_float /\ wf (template (cfn_of filter_template)) /\
  (exists l, filters (template (cfn_of filter_template)) l /\ (forall n g, In (n, g) l -> small g) /\ third l "D") /\
  let k := mkColl [filters_rule sample_float] default_settings in
  exists raw, snd (coll_run sample_sp k (cfn_of filter_template)) = Ok raw /\ map f_msg raw = [filter_words].
Proof.
  split; [exact sample_float_texts|]. split; [apply wfb_sound; reflexivity|]. split.
  - exists [("A", the_group); ("B", VStr "other"); ("C", the_group); ("D", the_group); ("E", the_group)]. split; [|split].
    + do 3 eexists. split; [reflexivity|]. split; [reflexivity|]. split.
      * repeat (apply on_take; [eexists; split; reflexivity|]). apply on_nil.
      * repeat (constructor; [split; [reflexivity|]; eexists; split; [reflexivity|]; eexists; split; [reflexivity|]; now left|]). constructor.
    + intros n g H. cbn in H. decompose [or] H; try contradiction; match goal with E : _ = (n, g) |- _ => injection E as <- <- end; repeat constructor.
    + exists [("A", the_group); ("B", VStr "other"); ("C", the_group)], the_group, [("E", the_group)], ("A", the_group), ("C", the_group). split; [reflexivity|].
      assert (Hg : same_json the_group the_group).
      { constructor; [intros k; reflexivity|]. intros k x y [E|[]] [F|[]]. injection E as <- <-. injection F as <-. constructor. }
      apply on_take; [exact Hg|]. apply on_skip; [intros K; inversion K|]. apply on_take; [exact Hg|]. apply on_nil.
  - eexists. split; [vm_compute; reflexivity | reflexivity].
Qed.
(** Conditions are not looked at: filters that are never together are counted. *)
Lemma excluding_filters_witness : exists m, filters_match sample_float (VDict
   [("Conditions", VDict [("X", VDict [("Fn::Equals", VList [VDict [("Ref", VStr "P")]; VStr "x"])]); ("NotX", VDict [("Fn::Not", VList [VDict [("Condition", VStr "X")]])])]);
    ("Resources", VDict [("A", with_condition (a_filter the_group) "X"); ("B", with_condition (a_filter the_group) "X"); ("C", with_condition (a_filter the_group) "NotX")])]) = Ok [m] /\ rm_msg m = filter_words.
Proof. eexists. split; [vm_compute; reflexivity | reflexivity]. Qed.
(** A filter without properties ends the check with an exception. *)
Lemma bare_filter_witness : filters_match sample_float (VDict [("Resources", VDict [("A", VDict [("Type", VStr "AWS::Logs::SubscriptionFilter")]); ("B", a_filter the_group); ("C", a_filter the_group); ("D", a_filter the_group)])]) = Err EAttribute.
Proof. vm_compute. reflexivity. Qed.
(** Names that differ in the order of members are taken for different. *)
Lemma reordered_witness : exists g g', same_json g g' /\ wf g /\ wf g' /\ filters_match sample_float (VDict [("Resources", VDict [("A", a_filter g); ("B", a_filter g); ("C", a_filter g')])]) = Ok [].
Proof.
  exists (VDict [("Fn::Sub", VList [VStr "${a}${b}"; VDict [("a", VStr "1"); ("b", VStr "2")]])]), (VDict [("Fn::Sub", VList [VStr "${a}${b}"; VDict [("b", VStr "2"); ("a", VStr "1")]])]).
  split; [|split; [apply wfb_sound; reflexivity|split; [apply wfb_sound; reflexivity | vm_compute; reflexivity]]].
  constructor; [intros k; reflexivity|]. intros k x y [E|[]] [F|[]]. injection E as <- <-. injection F as <-. constructor. constructor; [constructor|]. constructor; [|constructor].
  constructor; [intros k; cbn; tauto|]. intros k x y Hx Hy. cbn in Hx, Hy. destruct Hx as [E|[E|[]]], Hy as [F|[F|[]]]; injection E as <- <-; try discriminate F; injection F as <-; constructor.
Qed.
