(** C74 Functions get runtimes that can still be used, and log groups at most two subscription filters. *)
From Coq Require Import List.
Import ListNotations.
From Verif.Model Require Import Base Helpers Locate Node Rules PropertyRules Lambda.
From Verif.Spec Require Import Paths Branches Required References SameJson Walk Values Events Lambda.
From Verif.Proofs Require Import Samples PropertyWitness PropertyRuleProofs IamWitness DuplicateWitness LambdaProofs FilterProofs LambdaWitness.
Import Verif.Model.Rules.
Local Open Scope string_scope.

(** E2531 reports exactly the runtimes a function can get, directly or by the default or the allowed values of a parameter, that can no longer be updated.  Missing for the full property: runtimes that are null, lists or objects, calls other than Ref, and the instant of the date itself. *)
Theorem retired_runtimes_judged_partial : forall runtimes instant now t props p,
  assoc "" runtimes = None -> runtimes_shaped t props p ->
  exists ms, runtime_check runtimes (end_words instant now) t (VDict props) p = Ok ms /\ forall m, In m ms <->
    exists s q words, runtime_given t props p s q /\ retired runtimes instant now s words /\ m = mkRM q words.
Proof. exact c74_retired. Qed.
Print Assumptions retired_runtimes_judged_partial.

(** W2531 reports exactly those that have reached the end of their life but can still be updated.  Missing: the same. *)
Theorem retiring_runtimes_judged_partial : forall runtimes instant now t props p,
  assoc "" runtimes = None -> runtimes_shaped t props p ->
  exists ms, runtime_check runtimes (eol_words instant now) t (VDict props) p = Ok ms /\ forall m, In m ms <->
    exists s q words, runtime_given t props p s q /\ retiring runtimes instant now s words /\ m = mkRM q words.
Proof. exact c74_retiring. Qed.
Print Assumptions retiring_runtimes_judged_partial.

(** No runtime is reported by both. *)
Theorem never_both : forall runtimes instant now s w w',
  ~ (retired runtimes instant now s w /\ retiring runtimes instant now s w').
Proof. exact c74_never_both. Qed.
Print Assumptions never_both.

(** In a run, each of the first leads to a finding of E2531. *)
Theorem retired_runtime_findings : forall runtimes instant now sp k c raw name attrs pd m0 d0 s q words,
  assoc "" runtimes = None ->
  snd (coll_run sp k c) = Ok raw -> In (end_rule runtimes instant now) (k_all k) -> enabled (k_set k) (end_rule runtimes instant now) = true ->
  wf (template c) -> c_tmpl c = MDict m0 d0 -> resource_of (template c) name "AWS::Lambda::Function" attrs -> assoc "Properties" attrs = Some (VDict pd) ->
  runtimes_shaped (template c) pd (props_path name) -> runtime_given (template c) pd (props_path name) s q -> retired runtimes instant now s words ->
  exists f, locate_match c "E2531" (mkRM q words) = Ok f /\ In f raw.
Proof. exact c74_retired_run. Qed.
Print Assumptions retired_runtime_findings.

(** And each of the second to a finding of W2531. *)
Theorem retiring_runtime_findings : forall runtimes instant now sp k c raw name attrs pd m0 d0 s q words,
  assoc "" runtimes = None ->
  snd (coll_run sp k c) = Ok raw -> In (eol_rule runtimes instant now) (k_all k) -> enabled (k_set k) (eol_rule runtimes instant now) = true ->
  wf (template c) -> c_tmpl c = MDict m0 d0 -> resource_of (template c) name "AWS::Lambda::Function" attrs -> assoc "Properties" attrs = Some (VDict pd) ->
  runtimes_shaped (template c) pd (props_path name) -> runtime_given (template c) pd (props_path name) s q -> retiring runtimes instant now s words ->
  exists f, locate_match c "W2531" (mkRM q words) = Ok f /\ In f raw.
Proof. exact c74_retiring_run. Qed.
Print Assumptions retiring_runtime_findings.

(** E2529 reports exactly the third subscription filter of each log group, where log groups are the same if they are written the same.  Missing for the full property: names with objects of several members, filters without properties, and conditions. *)
Theorem filters_counted_partial : forall float_text : QArith_base.Q -> string, float_texts float_text -> forall t l,
  wf t -> filters t l -> (forall n g, In (n, g) l -> small g) ->
  exists ms, filters_match float_text t = Ok ms /\ forall m, In m ms <-> exists n, third l n /\ m = mkRM [PKey "Resources"; PKey n] filter_words.
Proof. exact c74_filters. Qed.
Print Assumptions filters_counted_partial.

(** In a run, each of them leads to a finding of E2529. *)
Theorem filter_findings : forall float_text : QArith_base.Q -> string, float_texts float_text -> forall sp k c raw m0 d0 l n,
  snd (coll_run sp k c) = Ok raw -> In (filters_rule float_text) (k_all k) -> enabled (k_set k) (filters_rule float_text) = true ->
  wf (template c) -> c_tmpl c = MDict m0 d0 -> filters (template c) l -> (forall n g, In (n, g) l -> small g) -> third l n ->
  exists f, locate_match c "E2529" (mkRM [PKey "Resources"; PKey n] filter_words) = Ok f /\ In f raw.
Proof. exact c74_filters_run. Qed.
Print Assumptions filter_findings.

(** At the very moment of the date of deprecation no rule speaks of the runtime. *)
Theorem at_the_instant_refuted : exists s eol dep succ, assoc s sample_runtimes = Some (mkLife eol dep succ) /\ (sample_instant eol < 20)%Z /\ sample_instant dep = 20%Z /\
  runtime_check sample_runtimes (end_words sample_instant 20) function_template (VDict [("Runtime", VStr s)]) (props_path "R") = Ok [] /\
  runtime_check sample_runtimes (eol_words sample_instant 20) function_template (VDict [("Runtime", VStr s)]) (props_path "R") = Ok [].
Proof. exact at_the_instant_witness. Qed.
Print Assumptions at_the_instant_refuted.

(** A runtime that is an object ends the check with an exception. *)
Theorem runtime_object_refuted : runtime_check sample_runtimes (end_words sample_instant 35) function_template (VDict [("Runtime", VDict [("Name", VStr "nodejs6.10")])]) (props_path "R") = Err ETypeErr.
Proof. exact runtime_object_witness. Qed.
Print Assumptions runtime_object_refuted.

(** A runtime given by a call other than Ref is not looked at. *)
Theorem runtime_call_refuted : runtime_check sample_runtimes (end_words sample_instant 35) function_template (VDict [("Runtime", VDict [("Fn::Sub", VStr "nodejs6.10")])]) (props_path "R") = Ok [].
Proof. exact runtime_call_witness. Qed.
Print Assumptions runtime_call_refuted.

(** Three filters that never exist together are reported, because conditions are not looked at. *)
Theorem excluding_filters_refuted : exists m, filters_match sample_float (VDict
   [("Conditions", VDict [("X", VDict [("Fn::Equals", VList [VDict [("Ref", VStr "P")]; VStr "x"])]); ("NotX", VDict [("Fn::Not", VList [VDict [("Condition", VStr "X")]])])]);
    ("Resources", VDict [("A", with_condition (a_filter the_group) "X"); ("B", with_condition (a_filter the_group) "X"); ("C", with_condition (a_filter the_group) "NotX")])]) = Ok [m] /\ rm_msg m = filter_words.
Proof. exact excluding_filters_witness. Qed.
Print Assumptions excluding_filters_refuted.

(** A filter without properties ends the check with an exception, and nothing is reported. *)
Theorem bare_filter_refuted : filters_match sample_float (VDict [("Resources", VDict [("A", VDict [("Type", VStr "AWS::Logs::SubscriptionFilter")]); ("B", a_filter the_group); ("C", a_filter the_group); ("D", a_filter the_group)])]) = Err EAttribute.
Proof. exact bare_filter_witness. Qed.
Print Assumptions bare_filter_refuted.

(** Log groups whose names differ in the order of members are taken for different. *)
Theorem reordered_names_refuted : exists g g', same_json g g' /\ wf g /\ wf g' /\ filters_match sample_float (VDict [("Resources", VDict [("A", a_filter g); ("B", a_filter g); ("C", a_filter g')])]) = Ok [].
Proof. exact reordered_witness. Qed.
Print Assumptions reordered_names_refuted.

Example runtime_example_ : wf (template (cfn_of function_template)) /\ resource_of (template (cfn_of function_template)) "R" function_type [("Type", VStr function_type); ("Properties", VDict sample_function)] /\
  assoc "" sample_runtimes = None /\ runtimes_shaped (template (cfn_of function_template)) sample_function (props_path "R") /\
  runtime_given (template (cfn_of function_template)) sample_function (props_path "R") "python2.7" [PKey "Parameters"; PKey "P"; PKey "Default"] /\
  runtime_given (template (cfn_of function_template)) sample_function (props_path "R") "nodejs6.10" [PKey "Parameters"; PKey "P"; PKey "AllowedValues"; PIdx 1] /\
  (exists w, retired sample_runtimes sample_instant 35 "nodejs6.10" w) /\ (exists w, retiring sample_runtimes sample_instant 35 "python2.7" w) /\
  let k := mkColl [end_rule sample_runtimes sample_instant 35; eol_rule sample_runtimes sample_instant 35] default_settings in
  exists raw, snd (coll_run sample_sp k (cfn_of function_template)) = Ok raw /\
    map f_msg raw = ["Deprecated runtime (nodejs6.10) specified. Updating disabled since 2019-08-12. Please consider updating to nodejs10.x";
                     "Deprecated runtime (nodejs6.10) specified. Updating disabled since 2019-08-12. Please consider updating to nodejs10.x";
                     "EOL runtime (python2.7) specified. Runtime is EOL since 2021-06-01 and updating will be disabled at 2021-09-01. Please consider updating to python3.8"].
Proof. exact runtime_example. Qed.

Example filter_example_ : float_texts sample_float /\ wf (template (cfn_of filter_template)) /\
  (exists l, filters (template (cfn_of filter_template)) l /\ (forall n g, In (n, g) l -> small g) /\ third l "D") /\
  let k := mkColl [filters_rule sample_float] default_settings in
  exists raw, snd (coll_run sample_sp k (cfn_of filter_template)) = Ok raw /\ map f_msg raw = [filter_words].
Proof. exact filter_example. Qed.
