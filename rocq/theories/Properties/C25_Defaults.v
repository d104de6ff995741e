(** C25 Parameter defaults respect their constraints. *)
From Verif.Model Require Import Base Parameters.
From Verif.Spec Require Import Limited ParameterUse.
From Verif.Proofs Require Import ParameterProofs.

(** Exactly the violated constraints are reported.  Missing for the full property: a MinValue of 0, numbers given as
    texts, and defaults of list parameters (refuted below).  [re_match] is Python's re.match. *)
Theorem bad_defaults_are_reported_partial : forall str_other re_match template ps, section template "Parameters" ps ->
  (forall n x, In (n, x) ps -> exists def, x = VDict def /\ plain_constraints def /\ assoc "MinValue" def <> Some (VInt 0)) ->
  exists ms, default_match str_other re_match template = Ok ms /\
  forall m, In m ms <-> exists n def v why, In (n, VDict def) ps /\ assoc "Default" def = Some v /\ violates re_match def v why /\
    m = mkRM [PKey "Parameters"; PKey n; PKey "Default"] why.
Proof. exact default_match_spec. Qed.
Print Assumptions bad_defaults_are_reported_partial.

(** A default of -5 is accepted where MinValue is 0. *)
Theorem zero_minimum_is_enforced_refuted : forall re_match, exists def,
  assoc "Default" def = Some (VInt (-5)) /\ assoc "MinValue" def = Some (VInt 0) /\
  default_match (fun _ => ""%string) re_match (with_parameter def) = Ok [].
Proof. exact c25_zero. Qed.
Print Assumptions zero_minimum_is_enforced_refuted.

(** A default written as a text is not compared to MinValue. *)
Theorem text_numbers_are_compared_refuted : forall re_match, exists def,
  assoc "Type" def = Some (VStr "Number") /\ assoc "Default" def = Some (VStr "3") /\ assoc "MinValue" def = Some (VInt 5) /\
  default_match (fun _ => ""%string) re_match (with_parameter def) = Ok [].
Proof. exact c25_text_number. Qed.
Print Assumptions text_numbers_are_compared_refuted.

(** The default of a list parameter is reported although each of its items is allowed. *)
Theorem list_defaults_are_accepted_refuted : forall re_match, exists def,
  assoc "Type" def = Some (VStr "CommaDelimitedList") /\ assoc "Default" def = Some (VStr "a,b") /\
  assoc "AllowedValues" def = Some (VList [VStr "a"; VStr "b"]) /\
  default_match (fun _ => ""%string) re_match (with_parameter def) <> Ok [].
Proof. exact c25_list. Qed.
Print Assumptions list_defaults_are_accepted_refuted.

Example bounded_meets_the_hypotheses : section bounded "Parameters" bounded_parameters /\
  forall n x, In (n, x) bounded_parameters -> exists def, x = VDict def /\ plain_constraints def /\ assoc "MinValue" def <> Some (VInt 0).
Proof. exact (conj bounded_section bounded_plain). Qed.
Example bounded_is_reported : default_match (fun _ => ""%string) (fun _ _ => Some true) bounded =
  Ok [mkRM [PKey "Parameters"; PKey "Size"; PKey "Default"] "Default should be less than or equal to MaxValue";
      mkRM [PKey "Parameters"; PKey "Name"; PKey "Default"] "Default should have a length above or equal to MinLength"].
Proof. exact bounded_report. Qed.
