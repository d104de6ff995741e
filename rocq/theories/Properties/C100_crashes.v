(** C100 Which of the shipped rules can end in an exception. *)
From Coq Require Import List String ZArith.
Import ListNotations.
From Verif.Model Require Import Base Node Locate Helpers Rules Runner Config Core Standard.
From Verif.Spec Require Import Pipeline Paths Faults Shipped Crashes.
From Verif.Proofs Require Import CrashProofs CrashWitness.
Import Verif.Model.Rules.
Local Open Scope string_scope.

(** No template makes one of the 26 rules end in an exception, provided two of them have the data they rely on. *)
Theorem firm_rules_never_crash : forall w sp tr k rg man c l id,
  plain_run w sp tr k rg man c l -> In id firm_ids -> sound_data w id -> ~ crashed l id.
Proof. exact firm_never. Qed.
Print Assumptions firm_rules_never_crash.

(** Each other shipped rule ends in an exception on some template that the decoder can give.  There is one configuration, with sound data, in which all of them do. *)
Theorem other_rules_crash : exists w sp tr k regions mandatory, (forall id, sound_data w id) /\ forall id, In id documented_ids -> ~ In id built_in_ids -> ~ In id firm_ids ->
  exists c l why, plain_run w sp tr k regions mandatory c l /\ no_null (template c) = true /\ In why python_errors /\ crashed_by l id why.
Proof. exact others_crash. Qed.
Print Assumptions other_rules_crash.

(** The 26 are shipped rules, each listed once: together with the others they are all of them. *)
Theorem firm_rules_are_shipped : NoDup firm_ids /\ forall id, In id firm_ids -> In id documented_ids /\ ~ In id built_in_ids.
Proof. exact firm_are_documented. Qed.
Print Assumptions firm_rules_are_shipped.

(** Without that data, also one of the 26 ends in an exception: a region without a specification. *)
Theorem without_data_refuted : exists w id sp tr k regions mandatory c l, In id firm_ids /\ plain_run w sp tr k regions mandatory c l /\ crashed l id.
Proof. exact data_refuted. Qed.
Print Assumptions without_data_refuted.

Example firm_case_ : exists w sp tr k regions mandatory c l, plain_run w sp tr k regions mandatory c l /\ (forall id, sound_data w id) /\
  (exists fi, In fi l /\ f_rule fi = "E1001") /\ (exists fi, In fi l /\ f_rule fi = "E3035") /\ (exists fi, In fi l /\ f_rule fi = "W1019").
Proof. exact firm_case. Qed.
