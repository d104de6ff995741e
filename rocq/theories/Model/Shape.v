(** Models of the rules about the shape of a template and its sections: templates/Base.py (E1001), templates/Description.py
    (E1004), parameters/Configuration.py (E2001), parameters/Types.py (E2002), parameters/DefaultRef.py (E2014),
    outputs/Configuration.py (E6001), outputs/Required.py (E6002), outputs/Description.py (E6005), mappings/Configuration.py (E7001),
    mappings/Used.py (W7001) and resources/Configuration.py (E3001). *)
From Verif.Model Require Import Base Helpers Rules Search Refs ConditionRules Limits Parameters.

(** Template.sections, template.py:24-36. *)
Definition sections : list string :=
  ["AWSTemplateFormatVersion"; "Description"; "Metadata"; "Parameters"; "Mappings"; "Conditions"; "Transform"; "Hooks";
   "Resources"; "Outputs"; "Rules"].
Definition joined (p : path) : string := join_str "/" (map str_of_pelem p).

(** Base.match (E1001), templates/Base.py:20-38.  The template is an object (decode and runner reject others). *)
Definition base_match (d : list (string * val)) : list rulematch :=
  flat_map (fun x => if smem x sections then [] else [mkRM [PKey x] ("Top level template section " ++ x ++ " is not valid")%string]) (keys d) ++
  flat_map (fun y => if smem y (keys d) then [] else [mkRM [PKey y] ("Missing top level template section " ++ y)%string]) ["Resources"].

(** Description.match (E1004), templates/Description.py:18-28. *)
Definition description_match (template : val) : res (list rulematch) :=
  do x <- vget "Description" template;
  Ok (if truthy x && negb (is_str x) then [mkRM [PKey "Description"] "Description can only be a string"] else []).

(** * Parameters *)
(** valid_keys, parameters/Configuration.py:17-58. *)
Inductive attribute_type := AString | AStrings | AInteger | ABoolean.
Record attribute := mkA { a_type : attribute_type; a_valid_for : option string }.
Definition valid_keys : list (string * attribute) :=
  [("AllowedPattern", mkA AString None); ("AllowedValues", mkA AStrings None); ("ConstraintDescription", mkA AString None);
   ("Default", mkA AString None); ("Description", mkA AString None); ("MaxLength", mkA AInteger (Some "String"));
   ("MaxValue", mkA AInteger (Some "Number")); ("MinLength", mkA AInteger (Some "String"));
   ("MinValue", mkA AInteger (Some "Number")); ("NoEcho", mkA ABoolean None); ("Type", mkA AString None)].
(** check_type, parameters/Configuration.py:64-103; str(value) never raises and int(value) raises exactly on the values on
    which [py_int] fails. *)
Definition type_message (p : path) (t : string) : rulematch := mkRM p ("Property " ++ joined p ++ " should be of type " ++ t)%string.
Definition check_string (v : val) (p : path) : list rulematch :=
  match v with VDict _ | VList _ => [type_message p "String"] | _ => [] end.
Definition check_type (v : val) (p : path) (t : attribute_type) : list rulematch :=
  match t with
  | AStrings =>
      match v with
      | VList l => flat_map (fun ix => check_string (snd ix) (p ++ [PIdx (fst ix)])) (enum l)
      | _ => [type_message p "List"]
      end
  | AString => check_string v p
  | ABoolean =>
      if negb (is_bool v) && negb (py_in v [VStr "True"; VStr "true"; VStr "False"; VStr "false"])
      then [type_message p "Boolean"] else []
  | AInteger =>
      if is_bool v then [type_message p "Integer"]
      else match py_int v with Ok _ => [] | Err _ => [type_message p "Integer"] end
  end.
(** The bodies of the loops of Configuration.match (E2001), parameters/Configuration.py:108-142. *)
Definition parameter_attribute (n : string) (param : list (string * val)) (kv : string * val) : list rulematch :=
  let p := [PKey "Parameters"; PKey n; PKey (fst kv)] in
  match assoc (fst kv) valid_keys with
  | None => [mkRM p ("Parameter " ++ n ++ " has invalid property " ++ fst kv)%string]
  | Some a =>
      check_type (snd kv) p (a_type a) ++
      match a_valid_for a with
      | None => []
      | Some t =>
          let ty := match assoc "Type" param with Some x => x | None => VNull end in
          if truthy ty && negb (py_in ty [VStr t])
          then [mkRM p ("Parameter " ++ n ++ " has property " ++ fst kv ++ " which is only valid for ['" ++ t ++ "']")%string] else []
      end
  end.
Definition parameter_one (nx : string * val) : res (list rulematch) :=
  do param <- items_of (snd nx);
  Ok (flat_map (parameter_attribute (fst nx) param) param ++
      if mem_assoc "Type" param then []
      else [mkRM [PKey "Parameters"; PKey (fst nx)] ("Parameter " ++ fst nx ++ " is missing required property Type")%string]).
Definition parameter_configuration_match (template : val) : res (list rulematch) :=
  do ps <- get_parameters template;
  do ps <- items_of ps;
  concat_res parameter_one ps.

Section Texts.
(** [str(v)] of values other than texts, integers and booleans. *)
Variable str_other : val -> string.
(** Types.match (E2002), parameters/Types.py:18-36. *)
Definition VALID_PARAMETER_TYPES : list string := VALID_PARAMETER_TYPES_SINGLE ++ VALID_PARAMETER_TYPES_LIST.
Definition parameter_types_match (template : val) : res (list rulematch) :=
  do ps <- get_parameters template;
  do ps <- items_of ps;
  concat_res (fun nx =>
    do t <- vget_def "Type" (VStr "String") (snd nx);
    Ok (if py_in t (map VStr VALID_PARAMETER_TYPES) then []
        else [mkRM [PKey "Parameters"; PKey (fst nx); PKey "Type"]
                   ("Parameter " ++ fst nx ++ " has invalid type " ++ py_str str_other t)%string])) ps.
(** DefaultRef.match (E2014), parameters/DefaultRef.py:17-30.  A match's path ends in the value of the Ref, as its last
    element; the model's path ends in "Ref". *)
Definition default_ref_match (template globals : val) : list rulematch :=
  flat_map (fun pv => match fst pv with
                      | PKey k :: _ => if String.eqb k "Parameters"
                                       then [mkRM (fst pv) ("Invalid value (" ++ py_str str_other (snd pv) ++ "), Ref cannot be used in Parameters")%string] else []
                      | _ => []
                      end) (search_deep_keys "Ref" template globals).
End Texts.

(** * Outputs *)
(** [for prop in output_value] followed by [output_value.get(...)]: the members, if the value has a get method. *)
Definition members_then_get (v : val) : res (list (string * val)) :=
  match v with VDict d => Ok d | VStr _ | VList _ => Err ETemplateAttribute | _ => Err ETypeErr end.
Definition output_keys : list string := ["Value"; "Export"; "Description"; "Condition"].
(** valid_funcs, outputs/Configuration.py:27-28 and helpers.py:66-90 (set('Fn::FindInMap') is a set of characters). *)
Definition FUNCTIONS_MULTIPLE : list string := ["Fn::GetAZs"; "Fn::Split"].
Definition FUNCTIONS_SINGLE : list string := filter (fun f => negb (smem f FUNCTIONS_MULTIPLE)) FUNCTIONS.
Definition valid_funcs : list string := FUNCTIONS_SINGLE ++ ["Fn::FindInMap"; "Fn::Transform"].
Section Outputs.
(** [str(valid_funcs)]; the order of the functions in it varies from run to run, as that of a Python set of texts does. *)
Variable funcs_text : string.
(** check_func, outputs/Configuration.py:30-54. *)
Definition check_func (v : val) (p : path) : list rulematch :=
  match v with
  | VDict [(k, _)] => if smem k valid_funcs then [] else [mkRM p (joined p ++ " must use one of the functions " ++ funcs_text)%string]
  | VDict _ => [mkRM p (joined p ++ " must use one of the functions " ++ funcs_text)%string]
  | VList _ => [mkRM p (joined p ++ " must be a string or one of the functions " ++ funcs_text)%string]
  | _ => []
  end.
(** check_export, outputs/Configuration.py:56-84. *)
Definition check_export (v : val) (p : path) : list rulematch :=
  let bad := mkRM p (joined p ++ " must be a an object of one with key ""Name""")%string in
  match v with
  | VDict [(k, x)] => if String.eqb k "Name" then check_func x (p ++ [PKey "Name"]) else [bad]
  | _ => [bad]
  end.
(** Configuration.match (E6001), outputs/Configuration.py:86-110. *)
Definition output_one (nx : string * val) : res (list rulematch) :=
  let n := fst nx in
  do d <- members_then_get (snd nx);
  let value := match assoc "Value" d with Some x => x | None => VNull end in
  let export := match assoc "Export" d with Some x => x | None => VNull end in
  Ok (flat_map (fun kv => if smem (fst kv) output_keys then []
                          else [mkRM [PKey "Outputs"; PKey n; PKey (fst kv)] ("Output " ++ n ++ " has invalid property " ++ fst kv)%string]) d ++
      (if truthy value then check_func value [PKey "Outputs"; PKey n; PKey "Value"] else []) ++
      (if truthy export then check_export export [PKey "Outputs"; PKey n; PKey "Export"] else [])).
Definition output_configuration_match (template : val) : res (list rulematch) :=
  do os <- vget_def "Outputs" (VDict []) template;
  match os with
  | VDict d => concat_res output_one d
  | _ => Ok (if truthy os then [mkRM [PKey "Outputs"] "Outputs do not follow correct format."] else [])
  end.
End Outputs.
(** Required.match (E6002), outputs/Required.py:17-31. *)
Definition output_required_match (template : val) : res (list rulematch) :=
  do os <- vget_def "Outputs" (VDict []) template;
  if truthy os then
    do os <- items_of os;
    concat_res (fun nx =>
      do b <- py_member (VStr "Value") (snd nx);
      Ok (if b then [] else [mkRM [PKey "Outputs"; PKey (fst nx); PKey "Value"] ("Output " ++ fst nx ++ " is missing property Value")%string])) os
  else Ok [].
(** Description.match (E6005), outputs/Description.py:18-31. *)
Definition output_description_match (template : val) : res (list rulematch) :=
  do os <- vget_def "Outputs" (VDict []) template;
  if truthy os then
    do os <- items_of os;
    concat_res (fun nx =>
      do x <- vget "Description" (snd nx);
      Ok (if truthy x && negb (is_str x) then [mkRM [PKey "Outputs"; PKey (fst nx); PKey "Description"] "Output Description can only be a string"] else [])) os
  else Ok [].

(** * Mappings *)
Section Mappings.
Variable str_other : val -> string.
(** Configuration.match (E7001), mappings/Configuration.py:19-53; bool is an int. *)
Definition valid_map_value (v : val) : bool := match v with VNull | VDict _ => false | _ => true end.
Definition mapping_one (nx : string * val) : list rulematch :=
  let n := fst nx in
  match snd nx with
  | VDict d =>
      flat_map (fun kx => match snd kx with
                          | VDict e =>
                              flat_map (fun sy => if valid_map_value (snd sy) then []
                                else [mkRM [PKey "Mappings"; PKey n; PKey (fst kx); PKey (fst sy)] ("Mapping " ++ n ++ " has invalid property at " ++ fst sy)%string]) e
                          | y => [mkRM [PKey "Mappings"; PKey n; PKey (fst kx)] ("Mapping " ++ n ++ " has invalid property at " ++ py_str str_other y)%string]
                          end) d
  | _ => [mkRM [PKey "Mappings"; PKey n] ("Mapping " ++ n ++ " has invalid property")%string]
  end.
Definition mapping_configuration_match (template : val) : res (list rulematch) :=
  do ms <- vget_def "Mappings" (VDict []) template;
  if truthy ms then do ms <- items_of ms; Ok (flat_map mapping_one ms) else Ok [].
End Mappings.
(** Used.match (W7001), mappings/Used.py:18-53: [None] if a mapping's name is given by a function. *)
Fixpoint used_mappings (trees : list (path * val)) : res (option (list val)) :=
  match trees with
  | [] => Ok (Some [])
  | (_, v) :: rest =>
      match v with
      | VList [] => Err EIndex
      | VList (VDict _ :: _) => Ok None
      | VList (x :: _) => rmap (option_map (cons x)) (used_mappings rest)
      | _ => rmap (option_map (cons v)) (used_mappings rest)
      end
  end.
Definition mappings_used_match (pre template : val) : res (list rulematch) :=
  do ms <- vget_def "Mappings" (VDict []) template;
  if truthy ms then
    do used <- used_mappings (search_deep_keys "Fn::FindInMap" pre (VDict []));
    match used with
    | None => Ok []
    | Some names =>
        do ms <- items_of ms;
        Ok (flat_map (fun nx => if existsb (eq_str (fst nx)) names then []
                                else [mkRM [PKey "Mappings"; PKey (fst nx)] ("Mapping '" ++ fst nx ++ "' is defined but not used")%string]) ms)
    end
  else Ok [].

(** * Resources *)
Definition valid_attributes : list string :=
  ["Condition"; "CreationPolicy"; "DeletionPolicy"; "DependsOn"; "Metadata"; "Properties"; "Type"; "UpdatePolicy"; "UpdateReplacePolicy"].
Definition valid_custom_attributes : list string :=
  ["Condition"; "DeletionPolicy"; "DependsOn"; "Metadata"; "Properties"; "Type"; "UpdateReplacePolicy"; "Version"].
Section Resources.
(** RESOURCE_SPECS: for each region its resource types, each with its properties and whether they are required;
    REGISTRY_SCHEMAS: names of types; and the regions of the template. *)
Variable specs : list (string * list (string * list (string * bool))).
Variable registry : list string.
Variable regions : list string.
(** _check_resource (E3001), resources/Configuration.py:22-117.  The second test for a text at line 88 never fails. *)
Definition region_check (n rtype : string) (rs : string * list (string * list (string * bool))) : list rulematch :=
  if smem (fst rs) regions && negb (mem_assoc rtype (snd rs)) && negb (smem rtype registry) &&
     negb (starts_with "Custom::" rtype || starts_with "AWS::Serverless::" rtype) && negb (ends_with "::MODULE" rtype)
  then [mkRM [PKey "Resources"; PKey n; PKey "Type"] ("Invalid or unsupported Type " ++ rtype ++ " for resource " ++ n ++ " in " ++ fst rs)%string]
  else [].
Definition properties_check (n rtype : string) (o : list (string * val)) : res (list rulematch) :=
  if mem_assoc "Properties" o then Ok []
  else
    match regions with
    | [] => Err EIndex
    | r :: _ =>
        match assoc r specs with
        | None => Err EKey
        | Some types =>
            match assoc rtype types with
            | Some props =>
                Ok (if existsb snd props && negb (String.eqb rtype "AWS::CloudFormation::WaitCondition" && mem_assoc "CreationPolicy" o)
                    then [mkRM [PKey "Resources"; PKey n] ("Properties not defined for resource " ++ n)%string] else [])
            | None => Ok []
            end
        end
    end.
Definition resource_one (nx : string * val) : res (list rulematch) :=
  let n := fst nx in
  match snd nx with
  | VDict o =>
      let condition := match assoc "Condition" o with Some x => x | None => VStr "" end in
      let m1 := if is_str condition then []
                else [mkRM [PKey "Resources"; PKey n; PKey "Condition"] ("Condition for resource " ++ n ++ " should be a string")%string] in
      match (match assoc "Type" o with Some x => x | None => VStr "" end) with
      | VStr rtype =>
          let attributes := if starts_with "Custom::" rtype || String.eqb rtype "AWS::CloudFormation::CustomResource"
                            then valid_custom_attributes else valid_attributes in
          let m2 := flat_map (fun kv => if smem (fst kv) attributes then []
                      else [mkRM [PKey "Resources"; PKey n; PKey (fst kv)] ("Invalid resource attribute " ++ fst kv ++ " for resource " ++ n)%string]) o in
          let m3 := if String.eqb rtype "" then [mkRM [PKey "Resources"; PKey n] ("Type not defined for resource " ++ n)%string]
                    else flat_map (region_check n rtype) specs in
          do m4 <- properties_check n rtype o;
          Ok (m1 ++ m2 ++ m3 ++ m4)
      | _ => Ok (m1 ++ [mkRM [PKey "Resources"; PKey n] ("Type has to be a string at Resources/" ++ n)%string])
      end
  | _ => Ok [mkRM [PKey "Resources"; PKey n] ("Resource not properly configured at " ++ n)%string]
  end.
Definition resource_configuration_match (template : val) : res (list rulematch) :=
  do rs <- vget_def "Resources" (VDict []) template;
  match rs with
  | VDict d => concat_res resource_one d
  | _ => Ok [mkRM [PKey "Resources"] "Resource not properly configured"]
  end.
End Resources.
