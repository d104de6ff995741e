(** C57 Allowed values. *)
From Coq Require Import List ZArith.
Import ListNotations.
From Verif.Model Require Import Base Locate Helpers Node Conditions Search Resolve Rules Refs Relationship Limits Parameters JsonDump PropertyRules Functions ValueRules.
From Verif.Spec Require Import Paths Branches Required References ConditionUse Attributes Values ValueRefs Sensitive.
From Verif.Proofs Require Import ValueProofs PrimitiveProofs DynRefProofs ValueRefProofs SensitiveProofs ValueWitness.
Import Verif.Model.Rules.
Local Open Scope string_scope.

(** A value of a property is reported, at its place, exactly when the specification lists the allowed values and it is none of them; calls of intrinsic functions and dynamic references are left alone. *)
Theorem allowed_values_judged : forall vs str_other props specs p,
  ~ In "" (keys vs) -> all_objects (VDict props) p -> no_null_property (VDict props) p ->
  exists ms, allowed_value_check vs str_other (VDict props) specs p = Ok ms /\
    forall m, In m ms <-> exists prop x q ps vr w r, property_of (VDict props) p prop x q /\ assoc prop specs = Some ps /\ restricts vs "ValueType" ps vr /\
      vr_allowed vr <> [] /\ single x (q ++ [PKey prop])%list w r /\ ~ is_call w /\
      ~ mentions_resolve (py_str str_other w) /\ ~ In (py_str str_other w) (vr_allowed vr) /\
      m = mkRM r ("You must specify a valid value for " ++ prop ++ " (" ++ py_str str_other w ++ "). Valid values are " ++ dumps (fun _ => "") (VList (map VStr (vr_allowed vr)))).
Proof. exact c57_allowed. Qed.
Print Assumptions allowed_values_judged.

(** A call of Fn::Transform is reported as a value that is not allowed. *)
Theorem transformed_values_refuted : exists vs specs ps prop vr y, assoc prop specs = Some ps /\ restricts vs "ValueType" ps vr /\
  forall p, allowed_value_check vs sample_str (VDict [(prop, VDict [("Fn::Transform", y)])]) specs p =
    Ok [mkRM (p ++ [PKey prop])%list ("You must specify a valid value for Mode ({...}). Valid values are [""on"", ""off""]")].
Proof. exact c57_transform_refuted. Qed.
Print Assumptions transformed_values_refuted.

Example allowed_sample_ : ~ In "" (keys value_rules) /\ ~ In "Fn::If" (keys value_specs) /\ all_objects (VDict value_props) at_server /\ no_null_property (VDict value_props) at_server /\
  (forall prop x q, assoc prop value_props = Some x -> ~ alternative x (at_server ++ [PKey prop])%list VNull q) /\
  (forall prop x r, assoc prop value_props = Some x -> ~ single x (at_server ++ [PKey prop])%list (VDict [("Fn::Sub", VList [])]) r) /\
  kinds_known value_rules kinds_table /\ judgeable (VDict value_props) at_server.
Proof. exact value_hypotheses. Qed.

Example allowed_found_ : allowed_value_check value_rules sample_str (VDict value_props) value_specs at_server =
    Ok [mkRM [PKey "Resources"; PKey "Server"; PKey "Properties"; PKey "Mode"; PKey "Fn::If"; PIdx 2] "You must specify a valid value for Mode (maybe). Valid values are [""on"", ""off""]"] /\
  allowed_pattern_check value_rules sample_str sample_match (VDict value_props) value_specs at_server =
    Ok [mkRM [PKey "Resources"; PKey "Server"; PKey "Properties"; PKey "Name"] "Name contains invalid characters (Pattern: letters) at Resources/Server/Properties/Name"] /\
  primitive_check sample_int sample_int false "AWS::X::Server" (VDict value_props) value_specs at_server =
    Ok [mkRM [PKey "Resources"; PKey "Server"; PKey "Properties"; PKey "Count"] "Property Resources/Server/Properties/Count should be of type Integer";
        mkRM [PKey "Resources"; PKey "Server"; PKey "Properties"; PKey "Tags"; PKey "b"] "Property Resources/Server/Properties/Tags/b should be of type Boolean"] /\
  secure_check "AWS::X::Server" (VDict value_props) value_specs at_server =
    Ok [mkRM [PKey "Resources"; PKey "Server"; PKey "Properties"; PKey "Secret"; PKey "Fn::Sub"; PIdx 0]
          "Dynamic Reference secure strings are not supported for this property at Resources/Server/Properties/Secret/Fn::Sub/0"].
Proof. exact values_found. Qed.
