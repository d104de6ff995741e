(** Models of rules on the values of resource properties: rules/resources/properties/AllowedValue.py (E3030),
    AllowedPattern.py (E3031), ValuePrimitiveType.py (E3012), ValueRefGetAtt.py (E3008), AvailabilityZone.py (W3010),
    PropertiesTemplated.py (W3002), Password.py (W2501), ImageId.py (W2506), and
    rules/functions/DynamicReferenceSecureString.py (E1027). *)
From Verif.Model Require Import Base Helpers Node Conditions Search Resolve Rules Refs Relationship Limits Parameters JsonDump PropertyRules Functions.
Import Verif.Model.Rules.
Local Open Scope string_scope.

(** What these rules read from a value type of the specification: 'AllowedValues', 'AllowedPatternRegex' ([""] if there is none),
    'AllowedPattern', and the 'Parameters' and 'Resources' of 'Ref' and the members of 'GetAtt'.  The data is an argument. *)
Record refspec := mkRefSpec { rf_parameters : list string; rf_resources : list string }.
Inductive attributes := AttOne (a : string) | AttSome (l : list string).
Record vrule := mkVR {
  vr_allowed : list string;
  vr_pattern : string;
  vr_pattern_text : option string;
  vr_ref : option refspec;
  vr_getatt : option (list (string * attributes)) }.
Definition no_vrule : vrule := mkVR [] "" None None None.
(** RESOURCE_SPECS.get(region).get('ValueTypes').get(value_type, {}). *)
Definition vrule_of (vs : list (string * vrule)) (t : string) : vrule := match assoc t vs with Some v => v | None => no_vrule end.

Section Values.
Variable vs : list (string * vrule).
(** [str()] of values other than texts, integers and booleans. *)
Variable str_other : val -> string.
Definition text_of (v : val) : string := py_str str_other v.
Definition resolve_mark : string := "{{resolve:".

(** The loops of AllowedValue.check (AllowedValue.py:48-67), AllowedPattern.check (AllowedPattern.py:61-79) and
    ValueRefGetAtt.check (ValueRefGetAtt.py:190-212). *)
Definition per_value (props : val) (specs : pspecs) (p : path)
    (f : string -> pspec -> val -> path -> res (list rulematch))
    (handlers : string -> pspec -> list (string * (val -> path -> res (list rulematch)))) : res (list rulematch) :=
  per_property props specs p (fun v q prop ps =>
    match ps_value ps with
    | [] => Ok []
    | _ => check_value v prop q (f prop ps) (handlers prop ps)
    end).

(** AllowedValue.check_value, AllowedValue.py:28-46. *)
Definition allowed_message (prop : string) (v : val) (allowed : list string) : string :=
  "You must specify a valid value for " ++ prop ++ " (" ++ text_of v ++ "). Valid values are " ++ dumps (fun _ => "") (VList (map VStr allowed)).
Definition allowed_value (allowed : list string) (prop : string) (v : val) (p : path) : res (list rulematch) :=
  Ok (match allowed with
      | [] => []
      | _ => if contains_text resolve_mark (text_of v) then []
             else if smem (text_of v) allowed then [] else [mkRM p (allowed_message prop v allowed)]
      end).
Definition allowed_value_check (props : val) (specs : pspecs) (p : path) : res (list rulematch) :=
  per_value props specs p (fun prop ps => allowed_value (vr_allowed (vrule_of vs (value_type "ValueType" ps))) prop) (fun _ _ => []).

(** AllowedPattern.check_value, AllowedPattern.py:28-59.  [matches regex text]: re.match finds a match at the start of the text. *)
Variable matches : string -> string -> bool.
Definition pattern_message (prop shown : string) (p : path) : string :=
  prop ++ " contains invalid characters (Pattern: " ++ shown ++ ") at " ++ path_text p.
Definition pattern_text (regex shown prop : string) (s : string) (p : path) : list rulematch :=
  if String.eqb regex "" then []
  else if contains_text resolve_mark s then []
  else if matches regex s then [] else [mkRM p (pattern_message prop shown p)].
Definition pattern_value (regex shown prop : string) (v : val) (p : path) : res (list rulematch) :=
  Ok (match v with
      | VStr _ | VInt _ | VBool _ | VFloat _ => pattern_text regex shown prop (text_of v) p
      | _ => []
      end).
Definition shown_pattern (vr : vrule) : string := match vr_pattern_text vr with Some t => t | None => vr_pattern vr end.
Definition allowed_pattern_check (props : val) (specs : pspecs) (p : path) : res (list rulematch) :=
  per_value props specs p
    (fun prop ps => let vr := vrule_of vs (value_type "ValueType" ps) in pattern_value (vr_pattern vr) (shown_pattern vr) prop)
    (fun _ _ => []).

(** * E3008 *)

(** ValueRefGetAtt.is_value_a_list, ValueRefGetAtt.py:25-40, on the path read from its end. *)
Fixpoint is_value_a_list (rp : list pelem) (prop : string) : res bool :=
  match rp with
  | [] => Err EIndex
  | PKey k :: _ => Ok (String.eqb k prop)
  | PIdx _ :: rest =>
      match rest with
      | [] => Err EIndex
      | PKey k :: rest' => if String.eqb k "Fn::If" then is_value_a_list rest' prop else Ok false
      | PIdx _ :: _ => Ok false
      end
  end.
(** The choice between the specification of the list and that of its items, ValueRefGetAtt.py:50-53; the path ends in the
    function's key.  check_value_getatt asks is_value_a_list for every property (lines 113-117). *)
Definition chosen_ref {A} (ps : pspec) (prop : string) (p : path) (whole item : A) : res A :=
  if opt_eqb (ps_type ps) "List" then do b <- is_value_a_list (rev (removelast p)) prop; Ok (if b then whole else item) else Ok item.
Definition chosen_getatt {A} (ps : pspec) (prop : string) (p : path) (whole item : A) : res A :=
  do b <- is_value_a_list (rev (removelast p)) prop;
  Ok (if opt_eqb (ps_type ps) "List" && b then whole else item).

Variable template : val.
(** RESOURCE_SPECS.get(region).get('ParameterTypes'). *)
Variable parameter_kinds : list (string * list string).
Definition kinds_of (l : list string) : res (list string) :=
  concat_res (fun k => match assoc k parameter_kinds with Some ts => Ok ts | None => Err ETypeErr end) l.
(** [section.get(value, {}).get('Type')] for a value that is in the section. *)
Definition type_in (section v : val) : res val :=
  do x <- (match v with VStr s => vget_def s (VDict []) section | _ => vget_def "" (VDict []) section end);
  vget "Type" x.
Definition quoted_message (prop words : string) (l : list string) (p : path) : string :=
  "Property """ ++ prop ++ """ can " ++ words ++ " [" ++ join_str ", " l ++ "] at " ++ path_text p.
(** check_value_ref, ValueRefGetAtt.py:42-93. *)
Definition ref_parameter (sp : refspec) (prop : string) (v : val) (p : path) : res (list rulematch) :=
  do params <- vget_def "Parameters" (VDict []) template;
  do b <- py_member v params;
  if b then
    do t <- type_in params v;
    do valid <- kinds_of (rf_parameters sp);
    Ok (match rf_parameters sp with
        | [] => [mkRM p ("Property """ ++ prop ++ """ has no valid Refs to Parameters at " ++ path_text p)]
        | _ => if existsb (fun s => eq_str s t) valid then [] else [mkRM p (quoted_message prop "Ref to parameter of types" valid p)]
        end)
  else Ok [].
Definition ref_resource (sp : refspec) (prop : string) (v : val) (p : path) : res (list rulematch) :=
  do resources <- vget_def "Resources" (VDict []) template;
  do b <- py_member v resources;
  if b then
    do t <- type_in resources v;
    Ok (match rf_resources sp with
        | [] => [mkRM p ("Property """ ++ prop ++ """ has no valid Refs to Resources at " ++ path_text p)]
        | l => if existsb (fun s => eq_str s t) l then [] else [mkRM p (quoted_message prop "Ref to resources of types" l p)]
        end)
  else Ok [].
Definition ref_value (ps : pspec) (item whole : vrule) (prop : string) (v : val) (p : path) : res (list rulematch) :=
  do sp <- chosen_ref ps prop p (vr_ref whole) (vr_ref item);
  match sp with
  | None => Ok []
  | Some sp => do a <- ref_parameter sp prop v p; do b <- ref_resource sp prop v p; Ok (a ++ b)%list
  end.

(** check_value_getatt, ValueRefGetAtt.py:95-187.  The name of the resource and the parts of the attribute, lines 104-112; other
    values leave both unbound. *)
Definition getatt_names (v : val) : res (val * list val) :=
  match v with
  | VList [] => Err EIndex
  | VList [r; a] =>
      match a with
      | VStr s => Ok (r, map VStr (split_on "." s))
      | VList _ | VDict _ => Err ETemplateAttribute
      | _ => Err EAttribute
      end
  | VList (r :: rest) => Ok (r, rest)
  | VStr s => match split_on "." s with r :: rest => Ok (VStr r, map VStr rest) | [] => Err EIndex end
  | _ => Err (EOther "UnboundLocalError")
  end.
(** [template.get('Resources', {}).get(name, {}).get('Type')]. *)
Definition resource_type_of (name : val) : res val :=
  do resources <- vget_def "Resources" (VDict []) template;
  do x <- (match resources, name with
           | VDict _, (VList _ | VDict _) => Err ETypeErr
           | VDict _, VStr s => vget_def s (VDict []) resources
           | VDict _, _ => Ok (VDict [])
           | _, _ => vget_def "" (VDict []) resources
           end);
  vget "Type" x.
(** is_custom_resource, helpers.py:385-387. *)
Definition is_custom (t : val) : res bool :=
  if truthy t then
    match t with
    | VStr s => Ok (String.eqb s "AWS::CloudFormation::CustomResource" || starts_with "Custom::" s)
    | VList _ | VDict _ => Err ETemplateAttribute
    | _ => Err EAttribute
    end
  else Ok false.
Definition joined_attribute (l : list val) : string := join_str "." (map text_of l).
Definition attributes_text (a : attributes) : string :=
  match a with AttOne s => s | AttSome l => text_of (VList (map VStr l)) end.
Definition attribute_in (s : string) (a : attributes) : bool :=
  match a with AttOne x => String.eqb s x | AttSome l => smem s l end.
(** Lines 133-187, for a resource that is not custom. *)
Definition getatt_spec_check (sp : list (string * attributes)) (prop : string) (t : val) (attrs : list val) (p : path) : res (list rulematch) :=
  match sp with
  | [] => Ok [mkRM p ("Property """ ++ prop ++ """ has no valid Fn::GetAtt options at " ++ path_text p)]
  | _ =>
      match t with
      | VList _ | VDict _ => Err ETypeErr
      | _ =>
          Ok (match (match t with VStr s => assoc s sp | _ => None end) with
              | None => [mkRM p (quoted_message prop "Fn::GetAtt to a resource of types" (keys sp) p)]
              | Some a => if attribute_in (joined_attribute attrs) a then []
                          else [mkRM p ("Property """ ++ prop ++ """ can Fn::GetAtt to a resource attribute """ ++ attributes_text a ++ """ at " ++ path_text p)]
              end)
      end
  end.
Definition stack_outputs (t : val) (attrs : list val) : res bool :=
  if eq_str "AWS::CloudFormation::Stack" t || eq_str "AWS::ServiceCatalog::CloudFormationProvisionedProduct" t then
    match attrs with a :: _ => Ok (eq_str "Outputs" a) | [] => Err EIndex end
  else Ok false.
Definition getatt_value (ps : pspec) (item whole : vrule) (prop : string) (v : val) (p : path) : res (list rulematch) :=
  do names <- getatt_names v;
  do sp <- chosen_getatt ps prop p (true, vr_getatt whole) (false, vr_getatt item);
  do t <- resource_type_of (fst names);
  do c <- is_custom t;
  if c then Ok []
  else
    do o <- stack_outputs t (snd names);
    if o then Ok (if fst sp then [mkRM p ("CloudFormation stack outputs need to be strings not lists at " ++ path_text p)] else [])
    else match snd sp with None => Ok [] | Some sp => getatt_spec_check sp prop t (snd names) p end.
Definition ref_getatt_check (props : val) (specs : pspecs) (p : path) : res (list rulematch) :=
  per_value props specs p (fun _ _ _ _ => Ok [])
    (fun prop ps =>
       let item := vrule_of vs (value_type "ValueType" ps) in
       let whole := vrule_of vs (value_type "ListValueType" ps) in
       [("Ref", ref_value ps item whole prop); ("Fn::GetAtt", getatt_value ps item whole prop)]).

(** * E3012 *)

(** [int(text)] and [float(text)] succeed. *)
Variable int_ok float_ok : string -> bool.
(** ValuePrimitiveType._value_check without strict, ValuePrimitiveType.py:54-96: whether there is a finding.  Values that reach it
    have been rejected by check_primitive_type. *)
Definition lax_fault (t : string) (v : val) : bool :=
  if String.eqb t "String" then false
  else if String.eqb t "Boolean" then negb (existsb (fun s => eq_str s v) ["True"; "true"; "False"; "false"])
  else if is_bool v then true
  else if String.eqb t "Integer" then match v with VStr s => negb (int_ok s) | VInt _ | VFloat _ => false | _ => true end
  else if String.eqb t "Long" then match v with VStr s => negb (int_ok s) | VInt _ => false | _ => true end
  else match v with VStr s => negb (float_ok s) | VInt _ | VFloat _ => false | _ => true end.
(** check_primitive_type, ValuePrimitiveType.py:98-138.  The keyword arguments of the finding (the names of the types) are left
    out. *)
Definition primitive_match (t : string) (p : path) : rulematch := mkRM p ("Property " ++ path_text p ++ " should be of type " ++ t).
Definition lax_check (strict : bool) (t : string) (v : val) (p : path) : list rulematch :=
  if strict || lax_fault t v then [primitive_match t p] else [].
Definition is_float (v : val) : bool := match v with VFloat _ => true | _ => false end.
Definition check_primitive (strict : bool) (t : string) (v : val) (p : path) : list rulematch :=
  if is_dict v && String.eqb t "Json" then []
  else if String.eqb t "String" then if is_str v then [] else lax_check strict t v p
  else if String.eqb t "Boolean" then if is_bool v then [] else lax_check strict t v p
  else if String.eqb t "Double" then if is_int v || is_float v then [] else lax_check strict t v p
  else if String.eqb t "Integer" then if is_int v then [] else lax_check strict t v p
  else if String.eqb t "Long" then if is_int v then [] else lax_check strict t v p
  else if is_list v then [mkRM p ("Property should be of type " ++ t ++ " at " ++ path_text p)] else [].
(** check_value, ValuePrimitiveType.py:140-159: [map] tells a property of type Map; the primitive type is not empty. *)
Definition map_values (f : val -> path -> list rulematch) (v : val) (p : path) : list rulematch :=
  match v with
  | VDict d => flat_map (fun kx => if is_dict (snd kx) then [] else f (snd kx) (p ++ [PKey (fst kx)])%list) d
  | _ => []
  end.
Definition primitive_value (map strict : bool) (t : string) (v : val) (p : path) : res (list rulematch) :=
  Ok (if map then map_values (check_primitive strict t) v p
      else if is_dict v then [] else check_primitive strict t v p).
(** The loop of ValuePrimitiveType.check (lines 161-188) and of DynamicReferenceSecureString.check: the properties are not
    resolved first. *)
Definition primitive_of (ps : pspec) : string :=
  match ps_primitive ps with
  | Some t => if String.eqb t "" then match ps_primitive_item ps with Some t => t | None => "" end else t
  | None => match ps_primitive_item ps with Some t => t | None => "" end
  end.
Definition per_primitive (props : val) (specs : pspecs) (f : string -> pspec -> string -> res (list rulematch)) : res (list rulematch) :=
  do ks <- iter_val props;
  concat_res (fun k =>
    match k with
    | VStr prop =>
        match assoc prop specs with
        | Some ps => if String.eqb (primitive_of ps) "" then Ok [] else f prop ps (primitive_of ps)
        | None => Ok []
        end
    | VList _ | VDict _ => Err ETypeErr
    | _ => Ok []
    end) ks.
Definition strict_exceptions : list (string * list string) :=
  [("AWS::CloudFormation::Stack", ["Parameters"]); ("AWS::Lambda::Function.Environment", ["Variables"])].
Definition in_table (t prop : string) (table : list (string * list string)) : bool :=
  match assoc t table with Some l => smem prop l | None => false end.
Definition primitive_check (strict : bool) (spec_type : string) (props : val) (specs : pspecs) (p : path) : res (list rulematch) :=
  per_primitive props specs (fun prop ps t =>
    check_value props prop p (primitive_value (opt_eqb (ps_type ps) "Map") (strict && negb (in_table spec_type prop strict_exceptions)) t) []).

(** * E1027 *)

(** REGEX_DYN_REF, REGEX_DYN_REF_SSM and REGEX_DYN_REF_SSM_SECURE, helpers.py:77-79, as the languages they describe: the text is one
    line, which a line feed may end, and the reference is somewhere in it. *)
Fixpoint no_newline (s : string) : bool := match s with EmptyString => true | String a s' => negb (char_eqb a newline) && no_newline s' end.
Fixpoint after_prefix (p s : string) : option string :=
  match p, s with
  | EmptyString, _ => Some s
  | String a p', String b s' => if char_eqb a b then after_prefix p' s' else None
  | _, _ => None
  end.
Fixpoint skip_while (f : ascii -> bool) (s : string) : nat * string :=
  match s with
  | EmptyString => (0, s)
  | String a s' => if f a then let r := skip_while f s' in (S (fst r), snd r) else (0, s)
  end.
Definition name_char (a : ascii) : bool :=
  is_digit a || in_range 65 90 a || in_range 97 122 a || char_eqb a "_" || char_eqb a "." || char_eqb a "-" || char_eqb a "/".
(** [[a-zA-Z0-9_\.\-/]+:\d+}}]. *)
Definition versioned (s : string) : bool :=
  match skip_while name_char s with
  | (S _, String c s') =>
      char_eqb c ":" && match skip_while is_digit s' with (S _, s'') => match after_prefix "}}" s'' with Some _ => true | None => false end | _ => false end
  | _ => false
  end.
Fixpoint anywhere (test : string -> bool) (s : string) : bool := test s || match s with EmptyString => false | String _ s' => anywhere test s' end.
Definition behind (p : string) (test : string -> bool) (s : string) : bool := match after_prefix p s with Some r => test r | None => false end.
Definition one_line (test : string -> bool) (s : string) : bool := let l := drop_last_newline s in no_newline l && anywhere test l.
Definition dyn_ref : string -> bool :=
  one_line (behind "{{resolve:" (fun r => match r with String _ r' => contains_text "}}" r' | EmptyString => false end)).
Definition dyn_ref_ssm : string -> bool := one_line (behind "{{resolve:ssm:" versioned).
Definition dyn_ref_ssm_secure : string -> bool := one_line (behind "{{resolve:ssm-secure:" versioned).

(** check_dyn_ref_value, check_value and check_sub, DynamicReferenceSecureString.py:54-92. *)
Definition secure_match (p : path) : rulematch := mkRM p ("Dynamic Reference secure strings are not supported for this property at " ++ path_text p).
Definition secure_text (v : val) (p : path) : list rulematch :=
  match v with VStr s => if dyn_ref_ssm_secure s then [secure_match p] else [] | _ => [] end.
Definition secure_value (map : bool) (v : val) (p : path) : res (list rulematch) :=
  Ok (if map then map_values secure_text v p else secure_text v p).
Definition secure_sub (v : val) (p : path) : res (list rulematch) :=
  match v with
  | VList [] => Err EIndex
  | VList (x :: _) => Ok (secure_text x (p ++ [PIdx 0])%list)
  | _ => Ok (secure_text v p)
  end.
Definition secure_exceptions : list (string * list string) :=
  [("AWS::DirectoryService::MicrosoftAD", ["Password"]); ("AWS::DirectoryService::SimpleAD", ["Password"]);
   ("AWS::ElastiCache::ReplicationGroup", ["AuthToken"]); ("AWS::IAM::User.LoginProfile", ["Password"]);
   ("AWS::KinesisFirehose::DeliveryStream.RedshiftDestinationConfiguration", ["Password"]); ("AWS::OpsWorks::App.Source", ["Password"]);
   ("AWS::OpsWorks::Stack.RdsDbInstance", ["DbPassword"]); ("AWS::OpsWorks::Stack.Source", ["Password"]);
   ("AWS::RDS::DBCluster", ["MasterUserPassword"]); ("AWS::RDS::DBInstance", ["MasterUserPassword"]);
   ("AWS::Redshift::Cluster", ["MasterUserPassword"])].
(** check, DynamicReferenceSecureString.py:94-122. *)
Definition secure_check (spec_type : string) (props : val) (specs : pspecs) (p : path) : res (list rulematch) :=
  per_primitive props specs (fun prop ps t =>
    if in_table spec_type prop secure_exceptions then Ok []
    else check_value props prop p (secure_value (opt_eqb (ps_type ps) "Map")) [("Fn::Sub", secure_sub)]).

(** * W3010 and W3002 *)

(** AvailabilityZone.check_az_value and check, AvailabilityZone.py:50-82; the comparison of path[-1] with a list is always true. *)
Definition zone_value (v : val) (p : path) : res (list rulematch) :=
  Ok (if eq_str "all" v then [] else [mkRM p ("Don't hardcode " ++ text_of v ++ " for AvailabilityZones")]).
Definition zone_check (props : val) (p : path) : res (list rulematch) :=
  do a <- check_value props "AvailabilityZone" p zone_value [];
  do b <- check_value props "AvailabilityZones" p zone_value [];
  Ok (a ++ b)%list.
(** PropertiesTemplated.check_value and match_resource_properties, PropertiesTemplated.py:30-60. *)
Definition templated : list (string * list string) :=
  [("AWS::ApiGateway::RestApi", ["BodyS3Location"]); ("AWS::Lambda::Function", ["Code"]); ("AWS::Lambda::LayerVersion", ["Content"]);
   ("AWS::ElasticBeanstalk::ApplicationVersion", ["SourceBundle"]); ("AWS::StepFunctions::StateMachine", ["DefinitionS3Location"])].
Definition templated_value (v : val) (p : path) : res (list rulematch) :=
  Ok (match v with
      | VStr _ => [mkRM p ("This code may only work with `package` cli command as the property (" ++ path_text p ++ ") is a string")]
      | _ => []
      end).
Definition templated_check (rt : string) (props : val) (p : path) : res (list rulematch) :=
  concat_res (fun key => check_value props key p templated_value []) (match assoc rt templated with Some l => l | None => [] end).

(** * W2501 *)
Variable globals : val.
Definition password_properties : list string :=
  ["AccountPassword"; "AdminPassword"; "ADDomainJoinPassword"; "CrossRealmTrustPrincipalPassword"; "KdcAdminPassword"; "Password";
   "DbPassword"; "MasterUserPassword"; "PasswordParam"].
(** [tree[0] == 'Resources' and tree[2] == 'Properties'], Password.py:34-37; the tree ends in the value. *)
Definition in_properties (p : path) (v : val) : bool :=
  match p with
  | PKey k :: _ :: e :: _ => String.eqb k "Resources" && match e with PKey k' => String.eqb k' "Properties" | PIdx _ => false end
  | [PKey k; _] => String.eqb k "Resources" && eq_str "Properties" v
  | _ => false
  end.
(** Password.py:39-65: the findings about one value, and the parameters to be fixed.  A value that is no text is in no
    list of names; a parameter that is a text is asked whether it contains NoEcho. *)
Definition password_parameter (names : list string) (v : val) : res (list string) :=
  match v with
  | VStr s =>
      if smem s names then
        do params <- vget "Parameters" template;
        do param <- vget s params;
        do b <- py_member (VStr "NoEcho") param;
        if b then
          match param with
          | VDict d => match assoc "NoEcho" d with Some x => Ok (if truthy x then [] else [s]) | None => Err EKey end
          | _ => Err ETypeErr
          end
        else Ok [s]
      else Ok []
  | _ => Ok []
  end.
Definition password_text (s : string) (p : path) : list rulematch :=
  if dyn_ref s then
    if dyn_ref_ssm s then [mkRM p ("Password should use a secure dynamic reference for " ++ path_text p)] else []
  else [mkRM p ("Password shouldn't be hardcoded for " ++ path_text p)].
Definition password_value (names : list string) (p : path) (v : val) : res (list rulematch * list string) :=
  match v with
  | VStr s => Ok (password_text s p, [])
  | VDict [(k, x)] => if String.eqb k "Ref" then do l <- password_parameter names x; Ok ([], l) else Ok ([], [])
  | VDict _ => Ok ([mkRM p ("Inappropriate map found for password on " ++ path_text p)], [])
  | _ => Ok ([], [])
  end.
Definition echo_match (prop name : string) : rulematch :=
  mkRM [PKey "Parameters"; PKey name] ("Parameter " ++ name ++ " used as " ++ prop ++ ", therefore NoEcho should be True").
(** Template.get_parameter_names, template.py:126-132. *)
Definition get_parameter_names : res (list string) :=
  do ps <- vget_def "Parameters" (VDict []) template;
  Ok (match ps with VDict d => keys d | _ => [] end).
Definition password_match : res (list rulematch) :=
  do names <- get_parameter_names;
  do found <- concat_res (fun prop =>
    map_res (fun pv => do r <- password_value names (fst pv) (snd pv); Ok (prop, r))
            (filter (fun pv => in_properties (fst pv) (snd pv)) (search_deep_keys prop template globals))) password_properties;
  Ok (flat_map (fun r => fst (snd r)) found ++ flat_map (fun r => map (echo_match (fst r)) (snd (snd r))) found)%list.

(** * W2506: ImageId.match, ImageId.py:19-50.  [valid_refs] is a RegexDict (helpers.py:205-221). *)
Definition image_types : list string := ["AWS::EC2::Image::Id"; "AWS::SSM::Parameter::Value<AWS::EC2::Image::Id>"].
Definition image_parameter (valid : list (string * ref_info)) (v : val) : res (list rulematch) :=
  match v with
  | VStr s =>
      match regex_get valid s with
      | Some info => Ok (if existsb (fun t => eq_str t (ref_type info)) image_types then []
                         else [mkRM [PKey "Parameters"; PKey s] ("Parameter " ++ s ++ " should be of type [" ++ join_str ", " image_types ++ "]")])
      | None => Ok []
      end
  | _ => match valid with [] => Ok [] | _ => Err ETypeErr end
  end.
Definition image_value (valid : list (string * ref_info)) (pv : path * val) : res (list rulematch) :=
  match snd pv with
  | VDict [(k, x)] => if String.eqb k "Ref" then image_parameter valid x else Ok []
  | VDict _ => Ok [mkRM (fst pv) ("Inappropriate map found for ImageId on " ++ path_text (fst pv))]
  | _ => Ok []
  end.
Definition in_resources (p : path) : bool := match p with PKey k :: _ => String.eqb k "Resources" | _ => false end.
Definition image_match : res (list rulematch) :=
  do valid <- get_valid_refs template;
  concat_res (image_value valid) (filter (fun pv => in_resources (fst pv)) (search_deep_keys "ImageId" template globals)).
End Values.

(** The rules as the collection holds them.  E3030, E3031 and E3008 look at all types of the specification; E3012 and E1027
    too, but skip property types without properties (ValuePrimitiveType.py:190-207, DynamicReferenceSecureString.py:124-141).
    [definition] and its defaults are the rule's configuration (ValuePrimitiveType.py:34-40). *)
Definition typed_rule (id : string) (definition : list (string * (cfgtype * val))) (rs : rspec)
    (check : config -> string -> val -> pspecs -> path -> res (list rulematch)) : rule :=
  mkRule id false definition (map (fun d => (fst d, snd (snd d))) definition) [] []
    (fun _ => (keys (rs_resource_types rs), keys (rs_property_types rs))) None
    (Some (fun cfg _ props rt p => check cfg rt props (specs_of rt (rs_resource_types rs)) p))
    (Some (fun cfg _ props pt p => match specs_of pt (rs_property_types rs) with [] => Ok [] | specs => check cfg pt props specs p end)).
Section RuleRecords.
Variables (hash : val -> string) (fuel : nat) (str_other : val -> string) (matches : string -> string -> bool) (int_ok float_ok : string -> bool).
Definition allowed_value_rule rs vs := spec_rule hash fuel "E3030" rs (fun _ => allowed_value_check vs str_other).
Definition allowed_pattern_rule rs vs := spec_rule hash fuel "E3031" rs (fun _ => allowed_pattern_check vs str_other matches).
Definition ref_getatt_rule rs vs kinds :=
  mkRule "E3008" false [] [] [] []
    (fun _ => (keys (rs_resource_types rs), keys (rs_property_types rs))) None
    (Some (fun _ c props rt p => ref_getatt_check vs str_other (template c) kinds props (specs_of rt (rs_resource_types rs)) p))
    (Some (fun _ c props pt p => ref_getatt_check vs str_other (template c) kinds props (specs_of pt (rs_property_types rs)) p)).
Definition primitive_configured (cfg : config) (t : string) (props : val) (specs : pspecs) (p : path) : res (list rulematch) :=
  match assoc "strict" cfg with Some s => primitive_check int_ok float_ok (truthy s) t props specs p | None => Err EKey end.
Definition primitive_rule rs := typed_rule "E3012" [("strict", (CBoolean, VBool true))] rs primitive_configured.
Definition secure_rule rs := typed_rule "E1027" [] rs (fun _ => secure_check).
(** AvailabilityZone.py:18-48 and PropertiesTemplated.py:20-28. *)
Definition zone_resource_types : list string :=
  ["AWS::AutoScaling::AutoScalingGroup"; "AWS::DAX::Cluster"; "AWS::DMS::ReplicationInstance"; "AWS::EC2::Host"; "AWS::EC2::Instance";
   "AWS::EC2::Subnet"; "AWS::EC2::Volume"; "AWS::ElasticLoadBalancing::LoadBalancer"; "AWS::OpsWorks::Instance"; "AWS::RDS::DBCluster";
   "AWS::RDS::DBInstance"].
Definition zone_property_types : list string :=
  ["AWS::EC2::LaunchTemplate.Placement"; "AWS::EC2::SpotFleet.LaunchTemplateOverrides"; "AWS::EC2::SpotFleet.SpotPlacement";
   "AWS::EMR::Cluster.PlacementType"; "AWS::ElasticLoadBalancingV2::TargetGroup.TargetDescription";
   "AWS::Glue::Connection.PhysicalConnectionRequirements"].
Definition zone_rule :=
  mkRule "W3010" false [] [] zone_resource_types zone_property_types (fun _ => ([], [])) None
    (Some (fun _ _ props _ p => zone_check str_other props p)) (Some (fun _ _ props _ p => zone_check str_other props p)).
Definition templated_rule :=
  mkRule "W3002" false [] [] (keys templated) [] (fun _ => ([], [])) None
    (Some (fun _ _ props rt p => templated_check rt props p)) None.
Variable globals : val.
Definition password_rule := mkRule "W2501" false [] [] [] [] (fun _ => ([], [])) (Some (fun _ c => password_match (template c) globals)) None None.
Definition image_rule := mkRule "W2506" false [] [] [] [] (fun _ => ([], [])) (Some (fun _ c => image_match (template c) globals)) None None.
End RuleRecords.
