(** C62 Values that belong to one place. *)
From Coq Require Import List ZArith.
Import ListNotations.
From Verif.Model Require Import Base Locate Helpers Node Conditions Search Resolve Rules Refs Relationship Limits Parameters JsonDump PropertyRules Functions ValueRules.
From Verif.Spec Require Import Paths Branches Required References ConditionUse Attributes Values ValueRefs Sensitive.
From Verif.Proofs Require Import ValueProofs PrimitiveProofs DynRefProofs ValueRefProofs SensitiveProofs ValueWitness.
Import Verif.Model.Rules.
Local Open Scope string_scope.

(** Exactly the availability zones are reported that are written into the template. *)
Theorem zones_reported : forall str_other props p,
  (forall key x q, assoc key props = Some x -> ~ alternative x (p ++ [PKey key])%list VNull q) ->
  exists ms, zone_check str_other (VDict props) p = Ok ms /\
    forall m, In m ms <-> exists key x w r, In key ["AvailabilityZone"; "AvailabilityZones"] /\ assoc key props = Some x /\ single x (p ++ [PKey key])%list w r /\ ~ is_call w /\
      w <> VStr "all" /\ m = mkRM r ("Don't hardcode " ++ py_str str_other w ++ " for AvailabilityZones").
Proof. exact c62_zones. Qed.
Print Assumptions zones_reported.

(** Exactly the code locations are reported that are plain texts. *)
Theorem packaged_code_reported : forall rt props p,
  (forall key x q, assoc key props = Some x -> ~ alternative x (p ++ [PKey key])%list VNull q) ->
  exists ms, templated_check rt (VDict props) p = Ok ms /\
    forall m, In m ms <-> exists key x s r, In (rt, key) packaged /\ assoc key props = Some x /\ single x (p ++ [PKey key])%list (VStr s) r /\
      m = mkRM r ("This code may only work with `package` cli command as the property (" ++ path_text r ++ ") is a string").
Proof. exact c62_packaged. Qed.
Print Assumptions packaged_code_reported.

Example zones_found_ : (forall key x q, assoc key zone_props = Some x -> ~ alternative x (at_server ++ [PKey key])%list VNull q) /\
  zone_check sample_str (VDict zone_props) at_server =
    Ok [mkRM (at_server ++ [PKey "AvailabilityZone"; PKey "Fn::If"; PIdx 1])%list "Don't hardcode us-east-1a for AvailabilityZones";
        mkRM (at_server ++ [PKey "AvailabilityZones"; PIdx 0])%list "Don't hardcode eu-west-1b for AvailabilityZones"] /\
  templated_check "AWS::Lambda::Function" (VDict zone_props) at_server =
    Ok [mkRM (at_server ++ [PKey "Code"])%list "This code may only work with `package` cli command as the property (Resources/Server/Properties/Code) is a string"].
Proof. exact zones_found. Qed.
