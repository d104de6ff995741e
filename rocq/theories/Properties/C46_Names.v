(** C46 Names shared by resources and parameters, and the serverless transform. *)
From Verif.Model Require Import Base Rules Search Conditions Resolve Relationship Policies.
From Verif.Spec Require Import Paths Resolved References Limited ConditionUse ParameterUse Faults Booleans Protect.
From Verif.Proofs Require Import PolicyProofs.
Import Verif.Model.Rules.
Local Open Scope string_scope.

(** A resource with the name of a parameter. *)
Theorem shared_names_are_reported : forall template, wf template -> (forall d v, template = VDict d -> assoc "Parameters" d = Some v -> exists ps, v = VDict ps) ->
  exists ms, unique_names_match template = Ok ms /\
  forall m, In m ms <-> exists n o d ps, resource template n o /\ template = VDict d /\ assoc "Parameters" d = Some (VDict ps) /\ In n (map fst ps) /\
    m = mkRM [PKey "Resources"; PKey n] ("Resources and Parameters must not share name: " ++ n).
Proof. exact c46_names. Qed.
Print Assumptions shared_names_are_reported.

(** Without the serverless transform the first serverless resource is reported, and no other. *)
Theorem missing_transform_is_reported : forall template, wf template -> (exists d, template = VDict d) ->
  exists ms, serverless_transform_match template = Ok ms /\
    (ms = [] <-> serverless template \/ forall n t, ~ serverless_resource template n t) /\
    forall m, In m ms -> ms = [m] /\ exists n t, serverless_resource template n t /\
      m = mkRM [PKey "Transform"] ("Serverless Transform required for Type " ++ t ++ " for resource " ++ n).
Proof. exact c46_serverless. Qed.
Print Assumptions missing_transform_is_reported.

Example market_meets_the_hypotheses : wf market /\ (forall d v, market = VDict d -> assoc "Parameters" d = Some v -> exists ps, v = VDict ps) /\ exists d, market = VDict d.
Proof. exact (conj market_wf (conj market_parameters_section (ex_intro _ _ eq_refl))). Qed.
Example market_shared_names : unique_names_match market = Ok [mkRM [PKey "Resources"; PKey "Table"] "Resources and Parameters must not share name: Table"].
Proof. exact market_names. Qed.
Example market_transform : serverless_transform_match market = Ok [mkRM [PKey "Transform"] "Serverless Transform required for Type AWS::Serverless::Function for resource Func"].
Proof. exact market_serverless. Qed.
