(** C104 What one malformed member of a section hides. *)
From Coq Require Import List String ZArith.
Import ListNotations.
From Verif.Model Require Import Base Node Locate Helpers Rules Runner Config Core Standard.
From Verif.Spec Require Import Pipeline Paths Faults Shipped Crashes Silence.
From Verif.Proofs Require Import SilenceProofs SilenceWitness.
Import Verif.Model.Rules.
Local Open Scope string_scope.

(** The extent: if one member of a section is a text or a list where an object is wanted, none of the rules of that section in the table reports anything in the whole run, whatever the other members are.  Rules that are not in the table are not covered. *)
Theorem malformed_member_silences_partial : forall w sp tr k rg man c l section ids id,
  plain_run w sp tr k rg man c l -> malformed (template c) section -> In (section, ids) needing -> In id ids -> ~ reports_of l id.
Proof. exact c104_silent. Qed.
Print Assumptions malformed_member_silences_partial.

(** So a malformed member hides the faults of the others: in one template all these rules report faults; with one more member, a text, each of them says nothing, not even that it ended in an exception. *)
Theorem hidden_faults_refuted : exists w sp tr k regions mandatory c l, plain_run w sp tr k regions mandatory c l /\
  forall section ids id, In (section, ids) needing -> In id ids -> reports_of l id /\
    exists c' l', plain_run w sp tr k regions mandatory c' l' /\ one_more (template c) (template c') section "Bad" (VStr "oops") /\
      ~ reports_of l' id /\ ~ crashed l' id.
Proof. exact c104_refuted. Qed.
Print Assumptions hidden_faults_refuted.
