(** C61 What properties refer to. *)
From Coq Require Import List ZArith.
Import ListNotations.
From Verif.Model Require Import Base Locate Helpers Node Conditions Search Resolve Rules Refs Relationship Limits Parameters JsonDump PropertyRules Functions ValueRules.
From Verif.Spec Require Import Paths Branches Required References ConditionUse Attributes Values ValueRefs Sensitive.
From Verif.Proofs Require Import ValueProofs PrimitiveProofs DynRefProofs ValueRefProofs SensitiveProofs ValueWitness.
Import Verif.Model.Rules.
Local Open Scope string_scope.

(** A Ref or Fn::GetAtt that gives the value of a property is reported, at the call, exactly when the specification does not allow what it names.  Missing for the full property: arguments that name nothing, see below. *)
Theorem references_judged_partial : forall vs str_other template kinds props specs p,
  ~ In "" (keys vs) -> ~ In "Fn::If" (keys specs) -> plain_sections template -> kinds_known vs kinds ->
  all_objects (VDict props) p -> no_null_property (VDict props) p -> judgeable (VDict props) p ->
  exists ms, ref_getatt_check vs str_other template kinds (VDict props) specs p = Ok ms /\
    forall m, In m ms <-> exists prop x q ps fn y r words, property_of (VDict props) p prop x q /\ assoc prop specs = Some ps /\ ps_value ps <> [] /\
      single x (q ++ [PKey prop])%list (VDict [(fn, y)]) r /\
      reference_fault vs template kinds (fun l => py_str str_other (VList (map VStr l))) prop ps x (q ++ [PKey prop])%list r fn y words /\
      m = mkRM (r ++ [PKey fn])%list words.
Proof. exact c61_references. Qed.
Print Assumptions references_judged_partial.

(** A Fn::GetAtt of an object or of an empty list raises an exception. *)
Theorem odd_getatt_refuted : exists vs specs prop kinds template e, plain_sections template /\
  (forall p, ref_getatt_check vs sample_str template kinds (VDict [(prop, VDict [("Fn::GetAtt", VDict [])])]) specs p = Err e) /\
  (forall p, ref_getatt_check vs sample_str template kinds (VDict [(prop, VDict [("Fn::GetAtt", VList [])])]) specs p = Err EIndex).
Proof. exact c61_refuted. Qed.
Print Assumptions odd_getatt_refuted.

Example references_sample_ : ~ In "" (keys value_rules) /\ ~ In "Fn::If" (keys value_specs) /\ all_objects (VDict value_props) at_server /\ no_null_property (VDict value_props) at_server /\
  (forall prop x q, assoc prop value_props = Some x -> ~ alternative x (at_server ++ [PKey prop])%list VNull q) /\
  (forall prop x r, assoc prop value_props = Some x -> ~ single x (at_server ++ [PKey prop])%list (VDict [("Fn::Sub", VList [])]) r) /\
  kinds_known value_rules kinds_table /\ judgeable (VDict value_props) at_server.
Proof. exact value_hypotheses. Qed.

Example references_plain_ : plain_sections value_template.
Proof. exact value_plain. Qed.

Example references_found_ : exists ms, ref_getatt_check value_rules sample_str value_template kinds_table (VDict value_props) value_specs at_server = Ok ms /\
  map rm_msg ms =
    ["Property ""Subnets"" can Ref to resources of types [AWS::EC2::Subnet] at Resources/Server/Properties/Subnets/Fn::If/1/1/Ref";
     "Property ""Subnets"" can Ref to parameter of types [AWS::EC2::Subnet::Id, String] at Resources/Server/Properties/Subnets/Fn::If/1/2/Ref";
     "Property ""Subnets"" can Fn::GetAtt to a resource of types [AWS::Own::Net, AWS::EC2::Subnet] at Resources/Server/Properties/Subnets/Fn::If/1/4/Fn::GetAtt";
     "Property ""Subnets"" can Fn::GetAtt to a resource attribute ""[...]"" at Resources/Server/Properties/Subnets/Fn::If/1/5/Fn::GetAtt";
     "Property ""Subnets"" can Ref to parameter of types [List<AWS::EC2::Subnet::Id>] at Resources/Server/Properties/Subnets/Fn::If/2/Fn::If/1/Ref";
     "Property ""Subnets"" has no valid Refs to Resources at Resources/Server/Properties/Subnets/Fn::If/2/Fn::If/2/Fn::If/1/Ref";
     "CloudFormation stack outputs need to be strings not lists at Resources/Server/Properties/Subnets/Fn::If/2/Fn::If/2/Fn::If/2/Fn::GetAtt"].
Proof. exact references_found. Qed.
