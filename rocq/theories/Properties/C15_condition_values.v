(** C15 Evaluation of one condition. *)
From Verif.Model Require Import Base Helpers Conditions.
From Verif.Spec Require Import Truth.
From Verif.Proofs Require Import ConditionProofs ConditionWitness ScenarioMain.

(** Whatever the linter computes for a condition is its truth value, for every assignment of values to function calls
    (a list from digests of calls to values) that decides the condition. *)
Theorem condition_value : forall hash template defs, section_of "Conditions" template defs ->
  forall assignment fuel name v t b,
    (forall k x, In (k, x) assignment -> digest k) -> assoc name defs = Some v -> condition_named hash fuel template name = Ok t ->
    truth defs (fun c => assoc (hash c) assignment) v b -> term_test t assignment = Ok (Some b).
Proof. exact c15_value. Qed.

(** And it computes one: with enough stack, every condition with a truth value is loaded. *)
Theorem conditions_are_loaded : forall hash template defs, section_of "Conditions" template defs -> NoDup (keys defs) ->
  (forall n v, In (n, v) defs -> well_formed defs v) ->
  exists limit, forall fuel, limit <= fuel -> forall n, mem_assoc n (cs_conditions (load hash fuel template)) = true <-> In n (keys defs).
Proof. exact all_loaded. Qed.

(** The specification gives at most one truth value. *)
Theorem truth_is_unique : forall defs values v b b', truth defs values v b -> truth defs values v b' -> b = b'.
Proof. exact (fun defs values v b b' H => proj1 (truth_det defs values) v b H b'). Qed.

(** Beyond the property: a boolean literal never equals the text CloudFormation compares it with ... *)
Theorem boolean_literal_refuted : exists hash template fuel t scenario,
  section_of "Conditions" template [("K", fn_equals (ref "a") (VBool true))] /\
  condition_named hash fuel template "K" = Ok t /\ assoc (hash (ref "a")) scenario = Some "true" /\
  term_test t scenario = Ok (Some false).
Proof. exact c15_boolean. Qed.

(** ... two function calls with equal values are found different ... *)
Theorem two_calls_refuted : exists hash template fuel t scenario,
  section_of "Conditions" template [("K", fn_equals (ref "a") (ref "b"))] /\
  condition_named hash fuel template "K" = Ok t /\
  assoc (hash (ref "a")) scenario = Some "x" /\ assoc (hash (ref "b")) scenario = Some "x" /\
  term_test t scenario = Ok (Some false).
Proof. exact c15_two_calls. Qed.

(** ... and two equal literals have no truth value, which callers read as false. *)
Theorem two_literals_refuted : exists template, forall hash, exists fuel t,
  section_of "Conditions" template [("K", fn_equals (VStr "x") (VStr "x"))] /\
  condition_named hash fuel template "K" = Ok t /\ term_test t [] = Ok None.
Proof. exact c15_two_literals. Qed.

Example value_example :
  section_of "Conditions" env env_defs /\ NoDup (keys env_defs) /\ (forall n v, In (n, v) env_defs -> well_formed env_defs v) /\
  exists t, condition_named toy_hash 9 env "Both" = Ok t /\
    term_test t [(toy_hash (ref "a"), "prod"); (toy_hash (ref "b"), "2")] = Ok (Some true) /\
    term_test t [(toy_hash (ref "a"), "prod"); (toy_hash (ref "b"), "1")] = Ok (Some false).
Proof.
  split; [apply toy_conditions|]. split; [repeat constructor; cbn; intuition discriminate|]. split; [exact env_wf|].
  eexists. split; [vm_compute; reflexivity|]. split; vm_compute; reflexivity.
Qed.

Print Assumptions condition_value.
Print Assumptions conditions_are_loaded.
Print Assumptions truth_is_unique.
Print Assumptions boolean_literal_refuted.
Print Assumptions two_calls_refuted.
Print Assumptions two_literals_refuted.
