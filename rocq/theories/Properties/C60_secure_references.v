(** C60 Secure references. *)
From Coq Require Import List ZArith.
Import ListNotations.
From Verif.Model Require Import Base Locate Helpers Node Conditions Search Resolve Rules Refs Relationship Limits Parameters JsonDump PropertyRules Functions ValueRules.
From Verif.Spec Require Import Paths Branches Required References ConditionUse Attributes Values ValueRefs Sensitive.
From Verif.Proofs Require Import ValueProofs PrimitiveProofs DynRefProofs ValueRefProofs SensitiveProofs ValueWitness.
Import Verif.Model.Rules.
Local Open Scope string_scope.

(** Among the properties of an object, exactly the texts are reported that contain a secure reference outside the properties that take one.  Missing for the full property: properties chosen by a condition and an empty Fn::Sub, see below. *)
Theorem secure_references_judged_partial : forall type props specs p,
  (forall prop x q, assoc prop props = Some x -> ~ alternative x (p ++ [PKey prop])%list VNull q) ->
  (forall prop x r, assoc prop props = Some x -> ~ single x (p ++ [PKey prop])%list (VDict [("Fn::Sub", VList [])]) r) ->
  exists ms, secure_check type (VDict props) specs p = Ok ms /\
    forall m, In m ms <-> exists prop x ps t w r s q, assoc prop props = Some x /\ assoc prop specs = Some ps /\ has_primitive ps t /\ ~ In (type, prop) secure_places /\
      single x (p ++ [PKey prop])%list w r /\ text_in ps w r s q /\ versioned_reference "ssm-secure" s /\
      m = mkRM q ("Dynamic Reference secure strings are not supported for this property at " ++ path_text q).
Proof. exact c60_secure. Qed.
Print Assumptions secure_references_judged_partial.

(** When the properties as a whole are chosen by a condition, nothing in them is looked at. *)
Theorem conditional_references_refuted : exists specs ps prop s x, assoc prop specs = Some ps /\ has_primitive ps "String" /\ versioned_reference "ssm-secure" s /\
  (forall p, exists q, branch (If_of x) p (VDict [(prop, VStr s)]) q) /\ forall p, secure_check "AWS::X::Server" (If_of x) specs p = Ok [].
Proof. exact c60_if_refuted. Qed.
Print Assumptions conditional_references_refuted.

(** An empty list as the argument of Fn::Sub raises an exception. *)
Theorem empty_sub_refuted : exists specs ps prop, assoc prop specs = Some ps /\ forall p, secure_check "AWS::X::Server" (VDict [(prop, VDict [("Fn::Sub", VList [])])]) specs p = Err EIndex.
Proof. exact c60_sub_refuted. Qed.
Print Assumptions empty_sub_refuted.

Example secure_sample_ : ~ In "" (keys value_rules) /\ ~ In "Fn::If" (keys value_specs) /\ all_objects (VDict value_props) at_server /\ no_null_property (VDict value_props) at_server /\
  (forall prop x q, assoc prop value_props = Some x -> ~ alternative x (at_server ++ [PKey prop])%list VNull q) /\
  (forall prop x r, assoc prop value_props = Some x -> ~ single x (at_server ++ [PKey prop])%list (VDict [("Fn::Sub", VList [])]) r) /\
  kinds_known value_rules kinds_table /\ judgeable (VDict value_props) at_server.
Proof. exact value_hypotheses. Qed.

Example secure_found_ : allowed_value_check value_rules sample_str (VDict value_props) value_specs at_server =
    Ok [mkRM [PKey "Resources"; PKey "Server"; PKey "Properties"; PKey "Mode"; PKey "Fn::If"; PIdx 2] "You must specify a valid value for Mode (maybe). Valid values are [""on"", ""off""]"] /\
  allowed_pattern_check value_rules sample_str sample_match (VDict value_props) value_specs at_server =
    Ok [mkRM [PKey "Resources"; PKey "Server"; PKey "Properties"; PKey "Name"] "Name contains invalid characters (Pattern: letters) at Resources/Server/Properties/Name"] /\
  primitive_check sample_int sample_int false "AWS::X::Server" (VDict value_props) value_specs at_server =
    Ok [mkRM [PKey "Resources"; PKey "Server"; PKey "Properties"; PKey "Count"] "Property Resources/Server/Properties/Count should be of type Integer";
        mkRM [PKey "Resources"; PKey "Server"; PKey "Properties"; PKey "Tags"; PKey "b"] "Property Resources/Server/Properties/Tags/b should be of type Boolean"] /\
  secure_check "AWS::X::Server" (VDict value_props) value_specs at_server =
    Ok [mkRM [PKey "Resources"; PKey "Server"; PKey "Properties"; PKey "Secret"; PKey "Fn::Sub"; PIdx 0]
          "Dynamic Reference secure strings are not supported for this property at Resources/Server/Properties/Secret/Fn::Sub/0"].
Proof. exact values_found. Qed.
