(** C67 Variables that nothing substitutes. *)
From Coq Require Import List.
Import ListNotations.
From Verif.Model Require Import Base Helpers Locate Node Conditions Rules Relationship SubNeeded.
From Verif.Spec Require Import Paths Substitution.
From Verif.Proofs Require Import Samples PropertyWitness SubstitutionProofs SubstitutionWitness.
Import Verif.Model.Rules.
Local Open Scope string_scope.

(** Whenever the rule answers, it reports exactly the variables in texts that are not substituted by a Fn::Sub above them, nor by the definitions of a state machine, and that are not excused by the key they are below or by the user's pattern. *)
Theorem unsubstituted_variables_judged : forall template matches cfg r d ms,
  template = VDict d -> wf template -> assoc "custom_excludes" cfg = Some (VStr r) ->
  sub_needed_match template matches cfg = Ok ms ->
  forall m, In m ms <-> exists p s n q, text_seen template p s /\ has_variable s n /\ ~ excused template p n /\ ~ spared matches r n /\
    reported_at p q /\ m = unsubstituted_at q n.
Proof. exact c67_exact. Qed.
Print Assumptions unsubstituted_variables_judged.

(** It answers if the definitions of state machines can be read and there is no section Globals.  Missing for the full property: see the refutations. *)
Theorem unsubstituted_variables_answered_partial : forall template matches cfg r d,
  template = VDict d -> wf template -> assoc "custom_excludes" cfg = Some (VStr r) ->
  assoc "Globals" d = None -> readable_definitions template ->
  exists ms, sub_needed_match template matches cfg = Ok ms.
Proof. exact c67_total. Qed.
Print Assumptions unsubstituted_variables_answered_partial.

(** In a run, each such variable leads to a finding of E1029 at the place of its text. *)
Theorem unsubstituted_variable_findings : forall matches cfg r sp k c raw m0 d0 d p s n,
  snd (coll_run sp k c) = Ok raw -> In (sub_needed_rule matches cfg) (k_all k) -> enabled (k_set k) (sub_needed_rule matches cfg) = true ->
  c_tmpl c = MDict m0 d0 -> template c = VDict d -> wf (template c) -> assoc "custom_excludes" cfg = Some (VStr r) ->
  assoc "Globals" d = None -> plain_definitions (template c) ->
  at_path p (template c) = Some (VStr s) -> has_variable s n -> ~ excused (template c) p n -> ~ spared matches r n ->
  exists fi, locate_match c "E1029" (unsubstituted_at p n) = Ok fi /\ In fi raw.
Proof. exact c67_run. Qed.
Print Assumptions unsubstituted_variable_findings.

(** A variable in the definition of a state machine is reported at a place that is not in the template. *)
Theorem definition_place_refuted : exists t p q s n,
  wf t /\ at_path p t = Some (VStr s) /\ has_variable s n /\
  sub_needed_match t no_pattern no_excludes = Ok [unsubstituted_at q n] /\ at_path q t = None.
Proof. exact definition_place_witness. Qed.
Print Assumptions definition_place_refuted.

(** A variable in the section Globals is reported a second time, at a place that is not in the template. *)
Theorem globals_place_refuted : exists t p s n,
  wf t /\ at_path (PKey "Globals" :: p) t = Some (VStr s) /\ has_variable s n /\
  sub_needed_match t no_pattern no_excludes = Ok [unsubstituted_at (PKey "Globals" :: p) n; unsubstituted_at p n] /\ at_path p t = None.
Proof. exact globals_place_witness. Qed.
Print Assumptions globals_place_refuted.

(** A variable in the definition of a state machine below a condition stops the rule: no variable anywhere in the template is reported, and neither is the failure. *)
Theorem conditional_state_machine_refuted : exists t p s n,
  wf (template t) /\ at_path p (template t) = Some (VStr s) /\ has_variable s n /\ ~ excused (template t) p n /\
  sub_needed_match (template t) no_pattern no_excludes = Err ETemplateAttribute /\
  snd (coll_run sample_sp (mkColl [sub_needed_rule no_pattern no_excludes] default_settings) t) = Ok [].
Proof. exact silent_witness. Qed.
Print Assumptions conditional_state_machine_refuted.

Example texts_example_ : wf texts /\ assoc "custom_excludes" no_excludes = Some (VStr "") /\ readable_definitions texts /\
  (at_path name_path texts = Some (VStr "x-${Env}-${AWS::Region}") /\ has_variable "x-${Env}-${AWS::Region}" "Env" /\
   ~ excused texts name_path "Env" /\ ~ spared no_pattern "" "Env") /\
  sub_needed_match texts no_pattern no_excludes = Ok [unsubstituted_at name_path "Env"; unsubstituted_at name_path "AWS::Region"].
Proof. exact texts_example. Qed.

Example texts_run_example_ : let k := mkColl [sub_needed_rule no_pattern no_excludes] default_settings in
  exists raw, snd (coll_run sample_sp k texts_cfn) = Ok raw /\ enabled (k_set k) (sub_needed_rule no_pattern no_excludes) = true /\
    wf (template texts_cfn) /\ plain_definitions (template texts_cfn) /\
    map f_msg raw = [rm_msg (unsubstituted_at name_path "Env"); rm_msg (unsubstituted_at name_path "AWS::Region")].
Proof. exact texts_run_example. Qed.
