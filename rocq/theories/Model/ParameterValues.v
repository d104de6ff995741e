(** Models of rules/parameters/AllowedValue.py (W2030), rules/parameters/AllowedPattern.py (W2031),
    rules/parameters/LambdaMemorySize.py (W2510) and rules/outputs/ImportValue.py (W6001). *)
From Verif.Model Require Import Base Helpers Node Conditions Search Resolve Rules Refs Relationship Limits Parameters JsonDump PropertyRules Functions ValueRules.
Import Verif.Model.Rules.
Local Open Scope string_scope.

Section ParameterValues.
(** [str()] of values other than texts, integers and booleans. *)
Variable str_other : val -> string.
Variable template : val.

(** The lines in front of the checks, AllowedValue.py:33-42 and AllowedPattern.py:33-42. *)
Definition conditioned (p : path) : res bool :=
  if existsb (pelem_eqb (PKey "Fn::If")) p then Ok true
  else
    match p with
    | PKey k :: rest =>
        if String.eqb k "Resources" then
          do rs <- vget_def "Resources" (VDict []) template;
          match rest with
          | PKey n :: _ => do r <- vget n rs; py_member (VStr "Condition") r
          | PIdx _ :: _ => do r <- vget "" rs; py_member (VStr "Condition") r
          | [] => Err EIndex
          end
        else Ok false
    | PIdx _ :: _ => Ok false
    | [] => Err EIndex
    end.
(** The types of parameters that are left out, AllowedValue.py:53-56 and AllowedPattern.py:55-57. *)
Definition listed_type (t : string) : bool :=
  starts_with "List<" t || starts_with "AWS::SSM::Parameter::Value<" t || smem t ["CommaDelimitedList"; "List<String>"].
Definition value_match (words : string) (p : path) (n : string) (v : val) (description : string) : rulematch :=
  mkRM p ("You must specify a valid " ++ words ++ " value for " ++ n ++ " (" ++ text_of str_other v ++ "). " ++ description).
Definition list_matches (ok : string -> bool) (n description : string) (values : val) : res (list rulematch) :=
  if truthy values then
    do l <- iter_val values;
    Ok (flat_map (fun jv => if ok (text_of str_other (snd jv)) then []
          else [value_match "allowed" [PKey "Parameters"; PKey n; PKey "AllowedValues"; PIdx (fst jv)] n (snd jv) description]) (enum l))
  else Ok [].
Definition default_matches (ok : string -> bool) (n description : string) (default : val) : list rulematch :=
  if truthy default && negb (ok (text_of str_other default))
  then [value_match "Default" [PKey "Parameters"; PKey n; PKey "Default"] n default description] else [].
(** AllowedValue.py:48-71 and AllowedPattern.py:49-74, for the test [ok] of a text. *)
Definition parameter_matches (ok : string -> bool) (description : string) (v : val) : res (list rulematch) :=
  do params <- vget_def "Parameters" (VDict []) template;
  do b <- py_member v params;
  if b then
    match v with
    | VStr n =>
        do param <- vget_def n (VDict []) params;
        do values <- vget "AllowedValues" param;
        do default <- vget "Default" param;
        do t <- vget "Type" param;
        match t with
        | VStr t =>
            if listed_type t then Ok []
            else do ms <- list_matches ok n description values;
                 Ok (ms ++ default_matches ok n description default)%list
        | _ => Ok []
        end
    | _ => do param <- vget_def "" (VDict []) params; Ok []
    end
  else Ok [].
Definition behind_ref (test : option ((string -> bool) * string)) (v : val) (p : path) : res (list rulematch) :=
  do skip <- conditioned p;
  if skip then Ok []
  else match test with Some (ok, description) => parameter_matches ok description v | None => Ok [] end.

Variable vs : list (string * vrule).
(** AllowedValue.check_value_ref and check, AllowedValue.py:28-95. *)
Definition values_test (vr : vrule) : option ((string -> bool) * string) :=
  match vr_allowed vr with
  | [] => None
  | l => Some (fun s => smem s l, "Valid values are " ++ dumps (fun _ => "") (VList (map VStr l)))
  end.
Definition parameter_values_check (props : val) (specs : pspecs) (p : path) : res (list rulematch) :=
  per_value props specs p (fun _ _ _ _ => Ok [])
    (fun _ ps => [("Ref", behind_ref (values_test (vrule_of vs (value_type "ValueType" ps))))]).
(** AllowedPattern.check_value_ref and check, AllowedPattern.py:28-98.  [description]: the 'AllowedPatternDescription' of a value
    type, or 'Valid values must match pattern ' and its 'AllowedPattern'. *)
Variable matches : string -> string -> bool.
Variable description : string -> string.
Definition pattern_test (t : string) : option ((string -> bool) * string) :=
  let regex := vr_pattern (vrule_of vs t) in
  if String.eqb regex "" then None else Some (matches regex, description t).
Definition parameter_pattern_check (props : val) (specs : pspecs) (p : path) : res (list rulematch) :=
  per_value props specs p (fun _ _ _ _ => Ok []) (fun _ ps => [("Ref", behind_ref (pattern_test (value_type "ValueType" ps)))]).

(** LambdaMemorySize.check_lambda_memory_size_ref and check, LambdaMemorySize.py:29-60. *)
Definition memory_match (n : string) : rulematch :=
  mkRM [PKey "Parameters"; PKey n]
    ("Lambda Memory Size parameters should use MinValue, MaxValue or AllowedValues at Parameters/" ++ n).
Definition memory_ref (v : val) (p : path) : res (list rulematch) :=
  do params <- get_parameters template;
  do b <- py_member v params;
  if b then
    match v with
    | VStr n =>
        do param <- vget n params;
        do lo <- vget "MinValue" param;
        do hi <- vget "MaxValue" param;
        do allowed <- vget "AllowedValues" param;
        Ok (if (negb (truthy lo) || negb (truthy hi)) && negb (truthy allowed) then [memory_match n] else [])
    | _ => do param <- vget "" params; Ok []
    end
  else Ok [].
Definition memory_check (props : val) (p : path) : res (list rulematch) :=
  check_value props "MemorySize" p (fun _ _ => Ok []) [("Ref", memory_ref)].

(** ImportValue.match, ImportValue.py:18-41.  The path of a finding ends in the function's key here, in the function's argument there. *)
Variable globals : val.
Definition import_output (pv : path * val) : list rulematch :=
  match fst pv with
  | PKey o :: n :: PKey value :: PKey fn :: _ =>
      if String.eqb o "Outputs" && String.eqb value "Value" && String.eqb fn "Fn::ImportValue" then
        [mkRM (fst pv) ("The value of output (" ++ str_of_pelem n ++ ") is imported from another output (" ++ text_of str_other (snd pv) ++ ")")]
      else []
  | _ => []
  end.
Definition import_match : list rulematch := flat_map import_output (search_deep_keys "Fn::ImportValue" template globals).
End ParameterValues.

(** The rules as the collection holds them. *)
Section RuleRecords.
Variables (str_other : val -> string) (matches : string -> string -> bool) (description : string -> string).
Definition behind_rule (id : string) (rs : rspec) (check : val -> val -> pspecs -> path -> res (list rulematch)) : rule :=
  mkRule id false [] [] [] []
    (fun _ => (keys (rs_resource_types rs), keys (rs_property_types rs))) None
    (Some (fun _ c props rt p => check (template c) props (specs_of rt (rs_resource_types rs)) p))
    (Some (fun _ c props pt p => check (template c) props (specs_of pt (rs_property_types rs)) p)).
Definition parameter_values_rule rs vs := behind_rule "W2030" rs (fun t => parameter_values_check str_other t vs).
Definition parameter_pattern_rule rs vs := behind_rule "W2031" rs (fun t => parameter_pattern_check str_other t vs matches description).
Definition memory_rule : rule :=
  mkRule "W2510" false [] [] ["AWS::Lambda::Function"] [] (fun _ => ([], [])) None
    (Some (fun _ c props _ p => memory_check (template c) props p)) None.
Definition import_rule (globals : val) : rule :=
  mkRule "W6001" false [] [] [] [] (fun _ => ([], [])) (Some (fun _ c => Ok (import_match str_other (template c) globals))) None None.
End RuleRecords.
