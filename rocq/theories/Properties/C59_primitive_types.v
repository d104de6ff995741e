(** C59 Primitive types. *)
From Coq Require Import List ZArith.
Import ListNotations.
From Verif.Model Require Import Base Locate Helpers Node Conditions Search Resolve Rules Refs Relationship Limits Parameters JsonDump PropertyRules Functions ValueRules.
From Verif.Spec Require Import Paths Branches Required References ConditionUse Attributes Values ValueRefs Sensitive.
From Verif.Proofs Require Import ValueProofs PrimitiveProofs DynRefProofs ValueRefProofs SensitiveProofs ValueWitness.
Import Verif.Model.Rules.
Local Open Scope string_scope.

(** Among the properties of an object, exactly the values are reported that are not of the primitive type the specification gives them, strictly or after conversion.  Missing for the full property: properties chosen by a condition, see below. *)
Theorem primitive_types_judged_partial : forall int_ok float_ok strict type props specs p,
  (forall prop x q, assoc prop props = Some x -> ~ alternative x (p ++ [PKey prop])%list VNull q) ->
  exists ms, primitive_check int_ok float_ok strict type (VDict props) specs p = Ok ms /\
    forall m, In m ms <-> exists prop x ps t b w r y s, assoc prop props = Some x /\ assoc prop specs = Some ps /\ has_primitive ps t /\ strict_at strict type prop b /\
      single x (p ++ [PKey prop])%list w r /\ primitive_in ps w r y s /\ ~ of_type int_ok float_ok b t y /\
      m = mkRM s (if smem t ["String"; "Boolean"; "Double"; "Integer"; "Long"] then "Property " ++ path_text s ++ " should be of type " ++ t else "Property should be of type " ++ t ++ " at " ++ path_text s).
Proof. exact c59_types. Qed.
Print Assumptions primitive_types_judged_partial.

(** When the properties as a whole are chosen by a condition, nothing in them is looked at. *)
Theorem conditional_primitives_refuted : exists specs ps prop w x, assoc prop specs = Some ps /\ has_primitive ps "Integer" /\ ~ of_type sample_int sample_int true "Integer" w /\
  (forall p, exists q, branch (If_of x) p (VDict [(prop, w)]) q) /\ forall p, primitive_check sample_int sample_int true "AWS::X::Server" (If_of x) specs p = Ok [].
Proof. exact c59_if_refuted. Qed.
Print Assumptions conditional_primitives_refuted.

(** A truth value passes for an integer, even when types are strict. *)
Theorem true_is_an_integer_refuted : exists specs ps prop, assoc prop specs = Some ps /\ has_primitive ps "Integer" /\
  forall p b, primitive_check sample_int sample_int true "AWS::X::Server" (VDict [(prop, VBool b)]) specs p = Ok [].
Proof. exact c59_bool_refuted. Qed.
Print Assumptions true_is_an_integer_refuted.

Example primitives_sample_ : ~ In "" (keys value_rules) /\ ~ In "Fn::If" (keys value_specs) /\ all_objects (VDict value_props) at_server /\ no_null_property (VDict value_props) at_server /\
  (forall prop x q, assoc prop value_props = Some x -> ~ alternative x (at_server ++ [PKey prop])%list VNull q) /\
  (forall prop x r, assoc prop value_props = Some x -> ~ single x (at_server ++ [PKey prop])%list (VDict [("Fn::Sub", VList [])]) r) /\
  kinds_known value_rules kinds_table /\ judgeable (VDict value_props) at_server.
Proof. exact value_hypotheses. Qed.

Example primitives_found_ : allowed_value_check value_rules sample_str (VDict value_props) value_specs at_server =
    Ok [mkRM [PKey "Resources"; PKey "Server"; PKey "Properties"; PKey "Mode"; PKey "Fn::If"; PIdx 2] "You must specify a valid value for Mode (maybe). Valid values are [""on"", ""off""]"] /\
  allowed_pattern_check value_rules sample_str sample_match (VDict value_props) value_specs at_server =
    Ok [mkRM [PKey "Resources"; PKey "Server"; PKey "Properties"; PKey "Name"] "Name contains invalid characters (Pattern: letters) at Resources/Server/Properties/Name"] /\
  primitive_check sample_int sample_int false "AWS::X::Server" (VDict value_props) value_specs at_server =
    Ok [mkRM [PKey "Resources"; PKey "Server"; PKey "Properties"; PKey "Count"] "Property Resources/Server/Properties/Count should be of type Integer";
        mkRM [PKey "Resources"; PKey "Server"; PKey "Properties"; PKey "Tags"; PKey "b"] "Property Resources/Server/Properties/Tags/b should be of type Boolean"] /\
  secure_check "AWS::X::Server" (VDict value_props) value_specs at_server =
    Ok [mkRM [PKey "Resources"; PKey "Server"; PKey "Properties"; PKey "Secret"; PKey "Fn::Sub"; PIdx 0]
          "Dynamic Reference secure strings are not supported for this property at Resources/Server/Properties/Secret/Fn::Sub/0"].
Proof. exact values_found. Qed.
