(** C63 Passwords. *)
From Coq Require Import List ZArith.
Import ListNotations.
From Verif.Model Require Import Base Locate Helpers Node Conditions Search Resolve Rules Refs Relationship Limits Parameters JsonDump PropertyRules Functions ValueRules.
From Verif.Spec Require Import Paths Branches Required References ConditionUse Attributes Values ValueRefs Sensitive.
From Verif.Proofs Require Import ValueProofs PrimitiveProofs DynRefProofs ValueRefProofs SensitiveProofs ValueWitness.
Import Verif.Model.Rules.
Local Open Scope string_scope.

(** Exactly the passwords are reported that stand in the template, use an insecure reference, are odd objects, or come from a parameter that is shown. *)
Theorem passwords_judged : forall template globals : val, wf template -> wf globals -> plain_sections template ->
  no_stray template globals ->
  exists ms, password_match template globals = Ok ms /\
    forall m, In m ms <-> exists prop p v at_ words, In prop password_names /\ occurs prop template globals p v /\ into_properties p /\
      password_fault template prop (p ++ [PKey prop])%list v at_ words /\ m = mkRM at_ words.
Proof. exact c63_passwords. Qed.
Print Assumptions passwords_judged.

(** A number as a password is not reported. *)
Theorem number_passwords_refuted : exists template p, wf template /\ occurs "Password" template (VDict []) p (VInt 1234%Z) /\ into_properties p /\ password_match template (VDict []) = Ok [].
Proof. exact c63_number_refuted. Qed.
Print Assumptions number_passwords_refuted.

(** A parameter whose NoEcho is the text false passes for hidden. *)
Theorem noecho_text_refuted : exists template p o, wf template /\ occurs "Password" template (VDict []) p (ref "P") /\ into_properties p /\
  defined_in "Parameters" template "P" o /\ assoc "NoEcho" o = Some (VStr "false") /\ password_match template (VDict []) = Ok [].
Proof. exact c63_noecho_refuted. Qed.
Print Assumptions noecho_text_refuted.

(** A plain password inside a condition is not reported. *)
Theorem conditional_passwords_refuted : exists template p s, wf template /\ occurs "Password" template (VDict []) p (alt "C" (VStr s) (VStr s)) /\ into_properties p /\ ~ dynamic_reference s /\
  password_match template (VDict []) = Ok [].
Proof. exact c63_if_refuted. Qed.
Print Assumptions conditional_passwords_refuted.

Example passwords_wf_ : wf value_template /\ wf (VDict []).
Proof. exact value_wf. Qed.

Example passwords_plain_ : plain_sections value_template.
Proof. exact value_plain. Qed.

Example passwords_stray_ : no_stray value_template (VDict []).
Proof. exact value_stray. Qed.

Example passwords_found_ : exists ms, password_match value_template (VDict []) = Ok ms /\
  map rm_msg ms =
    ["Password should use a secure dynamic reference for Resources/Server/Properties/KdcAdminPassword"; "Password shouldn't be hardcoded for Resources/Server/Properties/Password";
     "Inappropriate map found for password on Resources/Server/Properties/MasterUserPassword"; "Parameter One used as DbPassword, therefore NoEcho should be True"].
Proof. exact passwords_found. Qed.
