(** The documented shape of a template and its sections (C39). *)
From Coq Require Import List String ZArith QArith.
From Verif.Model Require Import Base Rules.
From Verif.Spec Require Import ConditionUse.
Import ListNotations.
Local Open Scope string_scope.
Local Open Scope list_scope.
Local Open Scope string_scope.

Definition shown (p : path) : string := join_str "/" (map str_of_pelem p).
Definition composite (v : val) : Prop := (exists d, v = VDict d) \/ exists l, v = VList l.

(** Empty lists, objects and texts, zero, false and null. *)
Definition empty (v : val) : Prop :=
  v = VNull \/ v = VBool false \/ v = VInt 0 \/ (exists q, v = VFloat q /\ (q == 0)%Q) \/ v = VStr "" \/ v = VList [] \/ v = VDict [].

(** Faults of the template: [template_fault d p message]. *)
Inductive template_fault (d : list (string * val)) : path -> string -> Prop :=
| tf_unknown : forall k, In k (map fst d) ->
    ~ In k ["AWSTemplateFormatVersion"; "Description"; "Metadata"; "Parameters"; "Mappings"; "Conditions"; "Transform"; "Hooks";
            "Resources"; "Outputs"; "Rules"] ->
    template_fault d [PKey k] ("Top level template section " ++ k ++ " is not valid")
| tf_missing : ~ In "Resources" (map fst d) -> template_fault d [PKey "Resources"] "Missing top level template section Resources".

(** Attributes of a parameter. *)
Definition text_attributes : list string := ["AllowedPattern"; "ConstraintDescription"; "Default"; "Description"; "Type"].
Definition integer_attributes : list string := ["MaxLength"; "MaxValue"; "MinLength"; "MinValue"].
Definition parameter_attributes : list string := text_attributes ++ integer_attributes ++ ["AllowedValues"; "NoEcho"].
(** Values that count as an integer: numbers and texts of integers. *)
Inductive countable : val -> Prop :=
| co_int : forall z, countable (VInt z)
| co_float : forall q, countable (VFloat q)
| co_text : forall s z, parse_int s = Some z -> countable (VStr s).
Inductive logical : val -> Prop :=
| lo_bool : forall b, logical (VBool b)
| lo_text : forall s, In s ["True"; "true"; "False"; "false"] -> logical (VStr s).
(** The type a parameter must have to use an attribute. *)
Inductive only_for : string -> string -> Prop :=
| of_length : forall k, In k ["MaxLength"; "MinLength"] -> only_for k "String"
| of_value : forall k, In k ["MaxValue"; "MinValue"] -> only_for k "Number".
Definition ill_typed (p : path) (t : string) : string := "Property " ++ shown p ++ " should be of type " ++ t.
Inductive parameter_fault (n : string) (def : list (string * val)) : path -> string -> Prop :=
| pf_unknown : forall k v, In (k, v) def -> ~ In k parameter_attributes ->
    parameter_fault n def [PKey "Parameters"; PKey n; PKey k] ("Parameter " ++ n ++ " has invalid property " ++ k)
| pf_text : forall k v p, In (k, v) def -> In k text_attributes -> composite v -> p = [PKey "Parameters"; PKey n; PKey k] ->
    parameter_fault n def p (ill_typed p "String")
| pf_list : forall v p, In ("AllowedValues", v) def -> (forall l, v <> VList l) -> p = [PKey "Parameters"; PKey n; PKey "AllowedValues"] ->
    parameter_fault n def p (ill_typed p "List")
| pf_item : forall l i x p, In ("AllowedValues", VList l) def -> nth_error l i = Some x -> composite x ->
    p = [PKey "Parameters"; PKey n; PKey "AllowedValues"; PIdx i] -> parameter_fault n def p (ill_typed p "String")
| pf_integer : forall k v p, In (k, v) def -> In k integer_attributes -> ~ countable v -> p = [PKey "Parameters"; PKey n; PKey k] ->
    parameter_fault n def p (ill_typed p "Integer")
| pf_logical : forall v p, In ("NoEcho", v) def -> ~ logical v -> p = [PKey "Parameters"; PKey n; PKey "NoEcho"] ->
    parameter_fault n def p (ill_typed p "Boolean")
| pf_only_for : forall k v t u, In (k, v) def -> only_for k t -> assoc "Type" def = Some u -> ~ empty u -> u <> VStr t ->
    parameter_fault n def [PKey "Parameters"; PKey n; PKey k] ("Parameter " ++ n ++ " has property " ++ k ++ " which is only valid for ['" ++ t ++ "']")
| pf_type : ~ In "Type" (map fst def) ->
    parameter_fault n def [PKey "Parameters"; PKey n] ("Parameter " ++ n ++ " is missing required property Type").

(** Outputs: functions whose result is a single value, or may be one. *)
Definition output_functions : list string :=
  ["Fn::Base64"; "Fn::Cidr"; "Fn::Contains"; "Fn::FindInMap"; "Fn::GetAtt"; "Fn::If"; "Fn::ImportValue"; "Fn::Join"; "Fn::Select"; "Fn::Sub";
   "Fn::Transform"; "Ref"].
(** A value of the form [{ function : argument }]. *)
Definition call_of (fs : list string) (v : val) : Prop := exists f x, v = VDict [(f, x)] /\ In f fs.
Inductive value_fault (text : string) (p : path) : val -> string -> Prop :=
| vf_object : forall d, ~ call_of output_functions (VDict d) -> value_fault text p (VDict d) (shown p ++ " must use one of the functions " ++ text)
| vf_list : forall l, value_fault text p (VList l) (shown p ++ " must be a string or one of the functions " ++ text).
(** [text] is how the list of functions is shown. *)
Inductive output_fault (text : string) (n : string) (def : list (string * val)) : path -> string -> Prop :=
| of_unknown : forall k v, In (k, v) def -> ~ In k ["Value"; "Export"; "Description"; "Condition"] ->
    output_fault text n def [PKey "Outputs"; PKey n; PKey k] ("Output " ++ n ++ " has invalid property " ++ k)
| of_bad_value : forall v p msg, assoc "Value" def = Some v -> p = [PKey "Outputs"; PKey n; PKey "Value"] -> value_fault text p v msg ->
    output_fault text n def p msg
| of_export : forall v p, assoc "Export" def = Some v -> (forall x, v <> VDict [("Name", x)]) -> p = [PKey "Outputs"; PKey n; PKey "Export"] ->
    output_fault text n def p (shown p ++ " must be a an object of one with key ""Name""")
| of_name : forall x p msg, assoc "Export" def = Some (VDict [("Name", x)]) -> p = [PKey "Outputs"; PKey n; PKey "Export"; PKey "Name"] ->
    value_fault text p x msg -> output_fault text n def p msg.
(** Value, Export and Description are not given as an empty value. *)
Definition filled (def : list (string * val)) : Prop :=
  forall k v, In k ["Value"; "Export"; "Description"] -> assoc k def = Some v -> ~ empty v.

(** Mappings: two levels of objects that contain texts, numbers, booleans and lists. *)
Inductive mapping_fault (show : val -> string) (n : string) : val -> path -> string -> Prop :=
| mf_map : forall v, (forall d, v <> VDict d) -> mapping_fault show n v [PKey "Mappings"; PKey n] ("Mapping " ++ n ++ " has invalid property")
| mf_first : forall d k v, In (k, v) d -> (forall e, v <> VDict e) ->
    mapping_fault show n (VDict d) [PKey "Mappings"; PKey n; PKey k] ("Mapping " ++ n ++ " has invalid property at " ++ show v)
| mf_second : forall d k e k2 v, In (k, VDict e) d -> In (k2, v) e -> (v = VNull \/ exists x, v = VDict x) ->
    mapping_fault show n (VDict d) [PKey "Mappings"; PKey n; PKey k; PKey k2] ("Mapping " ++ n ++ " has invalid property at " ++ k2).

(** Resources.  The specification of a region: resource types, their properties and whether these are required. *)
Definition region_spec := list (string * list (string * bool)).
Definition custom (t : string) : Prop := (exists rest, t = "Custom::" ++ rest) \/ t = "AWS::CloudFormation::CustomResource".
Definition shared_attributes : list string := ["Condition"; "DeletionPolicy"; "DependsOn"; "Metadata"; "Properties"; "Type"; "UpdateReplacePolicy"].
Definition attribute_of (t k : string) : Prop :=
  In k shared_attributes \/ custom t /\ k = "Version" \/ ~ custom t /\ In k ["CreationPolicy"; "UpdatePolicy"].
(** Types that need not be in the specification. *)
Definition open_type (t : string) : Prop :=
  (exists rest, t = "Custom::" ++ rest) \/ (exists rest, t = "AWS::Serverless::" ++ rest) \/ exists front, t = front ++ "::MODULE".
(** The type of a resource; none counts as the empty text. *)
Definition type_is (def : list (string * val)) (t : string) : Prop :=
  assoc "Type" def = Some (VStr t) \/ assoc "Type" def = None /\ t = "".
Inductive resource_fault (specs : list (string * region_spec)) (registry regions : list string) (n : string) : val -> path -> string -> Prop :=
| rf_object : forall v, (forall d, v <> VDict d) ->
    resource_fault specs registry regions n v [PKey "Resources"; PKey n] ("Resource not properly configured at " ++ n)
| rf_condition : forall def c, assoc "Condition" def = Some c -> (forall s, c <> VStr s) ->
    resource_fault specs registry regions n (VDict def) [PKey "Resources"; PKey n; PKey "Condition"] ("Condition for resource " ++ n ++ " should be a string")
| rf_type_text : forall def t, assoc "Type" def = Some t -> (forall s, t <> VStr s) ->
    resource_fault specs registry regions n (VDict def) [PKey "Resources"; PKey n] ("Type has to be a string at Resources/" ++ n)
| rf_attribute : forall def t k v, type_is def t -> In (k, v) def -> ~ attribute_of t k ->
    resource_fault specs registry regions n (VDict def) [PKey "Resources"; PKey n; PKey k] ("Invalid resource attribute " ++ k ++ " for resource " ++ n)
| rf_no_type : forall def, type_is def "" ->
    resource_fault specs registry regions n (VDict def) [PKey "Resources"; PKey n] ("Type not defined for resource " ++ n)
| rf_unsupported : forall def t region spec, type_is def t -> t <> "" -> In (region, spec) specs -> In region regions ->
    ~ In t (map fst spec) -> ~ In t registry -> ~ open_type t ->
    resource_fault specs registry regions n (VDict def) [PKey "Resources"; PKey n; PKey "Type"]
      ("Invalid or unsupported Type " ++ t ++ " for resource " ++ n ++ " in " ++ region)
| rf_properties : forall def t region rest spec props p, type_is def t -> ~ In "Properties" (map fst def) -> regions = region :: rest ->
    assoc region specs = Some spec -> assoc t spec = Some props -> In (p, true) props ->
    ~ (t = "AWS::CloudFormation::WaitCondition" /\ In "CreationPolicy" (map fst def)) ->
    resource_fault specs registry regions n (VDict def) [PKey "Resources"; PKey n] ("Properties not defined for resource " ++ n).

(** The first region is one the specification describes. *)
Definition known_regions (specs : list (string * region_spec)) (regions : list string) : Prop :=
  exists r rest types, regions = r :: rest /\ assoc r specs = Some types.

(** [names_mapping template n]: some Fn::FindInMap looks in the mapping [n]; [computes_mapping]: some Fn::FindInMap computes the
    name of the mapping. *)
Definition names_mapping (template : val) (n : string) : Prop :=
  exists p, occurs "Fn::FindInMap" template (VDict []) p (VStr n) \/
            exists rest, occurs "Fn::FindInMap" template (VDict []) p (VList (VStr n :: rest)).
Definition computes_mapping (template : val) : Prop :=
  exists p d rest, occurs "Fn::FindInMap" template (VDict []) p (VList (VDict d :: rest)).
