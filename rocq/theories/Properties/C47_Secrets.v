(** C47 Hidden parameters in Metadata. *)
From Verif.Model Require Import Base Rules Search Conditions Resolve Relationship Policies.
From Verif.Spec Require Import Paths Resolved References Limited ConditionUse ParameterUse Faults Booleans Protect.
From Verif.Proofs Require Import PolicyProofs.
Import Verif.Model.Rules.
Local Open Scope string_scope.

(** References to NoEcho parameters below the Metadata of a resource.  Missing for the full property: Fn::Sub in its list form (refuted below). *)
Theorem shown_secrets_are_reported_partial : forall template globals ps, wf template -> wf globals -> section template "Parameters" ps ->
  (forall n x, In (n, x) ps -> n <> "" /\ alphanumeric n /\ exists def, x = VDict def) ->
  (forall p s, occurs "Fn::Sub" template globals p (VStr s) -> closed s) ->
  exists ms, no_echo_match template globals = Ok ms /\
  forall m, In m ms <-> exists n, hidden template n /\ rm_msg m = "As the resource ""metadata"" section contains reference to a ""NoEcho"" parameter " ++ n ++ ", CloudFormation will display the parameter value in plaintext" /\
    exists p, (occurs "Ref" template globals p (VStr n) /\ in_resource_metadata (p ++ [PKey "Ref"])%list /\ rm_path m = (p ++ [PKey "Ref"; PKey n])%list) \/
              (exists s, occurs "Fn::Sub" template globals p (VStr s) /\ placeholder_in n s /\ in_resource_metadata (p ++ [PKey "Fn::Sub"])%list /\ rm_path m = (p ++ [PKey "Fn::Sub"])%list).
Proof. exact c47_all. Qed.
Print Assumptions shown_secrets_are_reported_partial.

(** In the list form of Fn::Sub the reference goes unreported. *)
Theorem shown_secrets_are_reported_refuted : exists template n p s d, wf template /\ hidden template n /\ placeholder_in n s /\ in_resource_metadata p /\
  occurs "Fn::Sub" template (VDict []) p (VList [VStr s; VDict d]) /\ d = [] /\ no_echo_match template (VDict []) = Ok [].
Proof. exact c47_list_form. Qed.
Print Assumptions shown_secrets_are_reported_refuted.

Example market_meets_the_hypotheses : wf market /\ (exists ps, section market "Parameters" ps /\
  forall n x, In (n, x) ps -> n <> "" /\ alphanumeric n /\ exists def, x = VDict def) /\
  forall p s, occurs "Fn::Sub" market (VDict []) p (VStr s) -> closed s.
Proof. exact (conj market_wf (conj (ex_intro _ _ (conj (ex_intro _ _ (conj eq_refl eq_refl)) market_parameters)) market_subs)). Qed.
Example market_is_reported : no_echo_match market (VDict []) = Ok
  [mkRM [PKey "Resources"; PKey "Table"; PKey "Metadata"; PKey "Shown"; PKey "Ref"; PKey "Secret"] "As the resource ""metadata"" section contains reference to a ""NoEcho"" parameter Secret, CloudFormation will display the parameter value in plaintext";
   mkRM [PKey "Resources"; PKey "Table"; PKey "Metadata"; PKey "Said"; PKey "Fn::Sub"] "As the resource ""metadata"" section contains reference to a ""NoEcho"" parameter Secret, CloudFormation will display the parameter value in plaintext"].
Proof. exact market_hidden_report. Qed.
