(** C26 Unused parameters. *)
From Verif.Model Require Import Base Parameters.
From Verif.Spec Require Import Paths Limited ConditionUse ParameterUse.
From Verif.Proofs Require Import PlaceholderProofs.

(** [pre] is the template before a transform, [template] the one after it.  Missing for the full property: templates with
    malformed Fn::Sub (refuted below). *)
Theorem unused_parameters_are_reported_partial : forall pre template ps, wf pre -> section template "Parameters" ps ->
  (forall n x, In (n, x) ps -> n <> ""%string /\ alphanumeric n) ->
  (forall p v, occurs "Fn::Sub" pre (VDict []) p v -> exists s, sub_text v s /\ closed s) ->
  exists ms, parameters_used_match pre template = Ok ms /\
  forall m, In m ms <-> exists n x, In (n, x) ps /\ ~ uses_parameter pre n /\
    m = mkRM [PKey "Parameters"; PKey n] ("Parameter " ++ n ++ " not used.")%string.
Proof. exact c26_all. Qed.
Print Assumptions unused_parameters_are_reported_partial.

(** In any text, whatever counts as a use is the inside of a placeholder. *)
Theorem only_placeholders_are_uses : forall n s, In n (get_sub_parameters s) -> placeholder_in n s.
Proof. exact sub_parameters_sound. Qed.
Print Assumptions only_placeholders_are_uses.

(** An empty Fn::Sub ends the check with an IndexError. *)
Theorem unused_parameters_are_reported_refuted : exists pre, wf pre /\ parameters_used_match pre pre = Err EIndex.
Proof. exact c26_crash. Qed.
Print Assumptions unused_parameters_are_reported_refuted.

(** A parameter counts as used when a Fn::Sub defines a variable of the same name itself. *)
Theorem variables_are_no_parameters_refuted : exists pre, wf pre /\
  section pre "Parameters" [("Env"%string, VDict [("Type"%string, VStr "String")])] /\
  (forall p v, occurs "Fn::Sub" pre (VDict []) p v -> v = VList [VStr "${Env}"; VDict [("Env"%string, VStr "prod")]]) /\
  (forall p v, ~ occurs "Ref" pre (VDict []) p v) /\
  parameters_used_match pre pre = Ok [].
Proof. exact c26_shadowed. Qed.
Print Assumptions variables_are_no_parameters_refuted.

Example cell_meets_the_hypotheses : wf cell /\ section cell "Parameters" cell_parameters /\
  (forall n x, In (n, x) cell_parameters -> n <> ""%string /\ alphanumeric n) /\
  (forall p v, occurs "Fn::Sub" cell (VDict []) p v -> exists s, sub_text v s /\ closed s).
Proof. exact (conj cell_wf (conj cell_section (conj cell_names cell_subs))). Qed.
Example cell_is_reported : parameters_used_match cell cell = Ok [mkRM [PKey "Parameters"; PKey "Idle"] "Parameter Idle not used."].
Proof. exact cell_report. Qed.
