(** Models of the rules about intrinsic functions: src/cfnlint/rules/functions/ (If E1028, RefExist E1012 and
    RelationshipConditions W1001 are modelled elsewhere).  A result of search_deep_keys is the pair of the path that ends in
    the function's key and of the function's argument. *)
From Verif.Model Require Import Base Helpers Search Rules Refs ConditionRules Relationship Limits Parameters Policies.
Local Open Scope string_scope.

Section Functions.
Variable template globals : val.
(** Python's [str()] of a value. *)
Variable str_of : val -> string.

Definition at_text (words : string) (p : path) : string := words ++ path_text p.
Definition each (key : string) (check : path -> val -> res (list rulematch)) : res (list rulematch) :=
  concat_res (fun pv => check (fst pv) (snd pv)) (search_deep_keys key template globals).

(** * Base64.match (E1021), Base64.py:18-41. *)
Definition base64_check (p : path) (v : val) : res (list rulematch) :=
  Ok (match v with
      | VDict [(k, _)] => if String.eqb k "Fn::Split" then [mkRM p (at_text "Base64 needs a string at " p)] else []
      | VDict _ => [mkRM p (at_text "Base64 needs a string not a map or list at " p)]
      | VStr _ => []
      | _ => [mkRM p (at_text "Base64 needs a string at " p)]
      end).
Definition base64_match : res (list rulematch) := each "Fn::Base64" base64_check.

(** * Not.match (E1023), functions/Not.py:17-26.  The path of a match ends in the argument, which the model leaves out: it is no
    key and no item, so that the location is the same. *)
Definition not_check (p : path) (v : val) : res (list rulematch) :=
  Ok (match v with VList _ => [] | _ => [mkRM p ("Function Not " ++ path_text (removelast p) ++ " should be a list")] end).
Definition not_match : res (list rulematch) := each "Fn::Not" not_check.

(** * Ref.match (E1020), Ref.py:17-29. *)
Definition ref_text_check (p : path) (v : val) : res (list rulematch) :=
  Ok (match v with VStr _ => [] | _ => [mkRM p (at_text "Ref can only be a string for " p)] end).
Definition ref_text_match : res (list rulematch) := each "Ref" ref_text_check.

(** Template.get_resource_names, template.py:116-124. *)
Definition get_resource_names : res (list string) :=
  do rs <- vget_def "Resources" (VDict []) template;
  Ok (match rs with VDict d => keys d | _ => [] end).
(** RefInCondition.match (E1026), RefInCondition.py:17-33. *)
Definition ref_condition_check (names : list string) (p : path) (v : val) : res (list rulematch) :=
  Ok (match p, v with
      | PKey k :: _, VStr s =>
          if String.eqb k "Conditions" && smem s names
          then [mkRM p ("Cannot reference resource " ++ s ++ " in the Conditions block of the template at " ++ path_text p)] else []
      | _, _ => []
      end).
Definition ref_condition_match : res (list rulematch) :=
  do names <- get_resource_names; each "Ref" (ref_condition_check names).

(** * GetAz.match (E1015), GetAz.py:18-46: other values are passed over. *)
Definition getaz_check (regions : list string) (p : path) (v : val) : res (list rulematch) :=
  Ok (match v with
      | VStr s => if negb (String.eqb s "") && negb (smem s regions)
                  then [mkRM p (at_text "GetAZs should be of empty or string of valid region for " p)] else []
      | VDict [(k, x)] => if negb (String.eqb k "Ref") || negb (eq_str "AWS::Region" x)
                          then [mkRM p (at_text "GetAZs should be of Ref to AWS::Region for " p)] else []
      | VDict _ => [mkRM p (at_text "GetAZs should be of Ref to AWS::Region for " p)]
      | _ => []
      end).
Definition getaz_match (regions : list string) : res (list rulematch) := each "Fn::GetAZs" (getaz_check regions).

(** * ImportValue.match (E1016), ImportValue.py:18-60. *)
Definition import_functions : list string :=
  ["Fn::Base64"; "Fn::FindInMap"; "Fn::If"; "Fn::Join"; "Fn::Select"; "Fn::Split"; "Fn::Sub"; "Ref"].
Definition import_place (p : path) : list rulematch :=
  match p with
  | PKey k :: _ => if String.eqb k "Conditions" then [mkRM p ("ImportValue cannot be used inside " ++ k ++ " at " ++ path_text (removelast p))] else []
  | _ => []
  end.
Definition import_shape (p : path) (v : val) : list rulematch :=
  match v with
  | VDict [(k, _)] => if smem k import_functions then [] else [mkRM p ("ImportValue should be using supported function for " ++ path_text (removelast p))]
  | VDict _ => [mkRM p ("ImportValue should have one mapping for " ++ path_text (removelast p))]
  | VStr _ => []
  | _ => [mkRM p (at_text "ImportValue should have supported function or string for " p)]
  end.
Definition import_check (p : path) (v : val) : res (list rulematch) := Ok (import_place p ++ import_shape p v)%list.
Definition import_match : res (list rulematch) := each "Fn::ImportValue" import_check.

(** * Select.match (E1017), Select.py:18-77.  [py_int]: whether int() accepts a text; int() of null, a list or an object raises
    TypeError. *)
Variable py_int : string -> bool.
Definition select_functions : list string :=
  ["Fn::FindInMap"; "Fn::GetAtt"; "Fn::GetAZs"; "Fn::If"; "Fn::Split"; "Fn::Cidr"; "Ref"].
Definition select_index (p : path) (v : val) : res (list rulematch) :=
  match v with
  | VDict [(k, _)] => Ok (if smem k ["Ref"; "Fn::FindInMap"] then []
                          else [mkRM p (at_text "Select index should be an Integer or a function Ref or FindInMap for " p)])
  | VDict _ => Ok []
  | VInt _ | VBool _ | VFloat _ => Ok []
  | VStr s => Ok (if py_int s then [] else [mkRM p (at_text "Select index should be an Integer or a function of Ref or FindInMap for " p)])
  | VNull | VList _ => Err ETypeErr
  end.
Definition select_list (p : path) (v : val) : list rulematch :=
  let unsupported := [mkRM p ("Select should use a supported function of " ++ join_str ", " select_functions)] in
  match v with
  | VDict [(k, _)] => if smem k select_functions then [] else unsupported
  | VDict _ => unsupported
  | VList _ => []
  | _ => [mkRM p (at_text "Select should be an array of values for " p)]
  end.
Definition select_check (p : path) (v : val) : res (list rulematch) :=
  match v with
  | VList [i; l] => do a <- select_index p i; Ok (a ++ select_list p l)%list
  | _ => Ok [mkRM p (at_text "Select should be a list of 2 elements for " p)]
  end.
Definition select_match : res (list rulematch) := each "Fn::Select" select_check.

(** * Split.match (E1018), Split.py:18-70.  The path of an unsupported function leads from the list of arguments to a key, where
    there is none. *)
Definition split_functions : list string :=
  ["Fn::Base64"; "Fn::FindInMap"; "Fn::GetAZs"; "Fn::GetAtt"; "Fn::If"; "Fn::ImportValue"; "Fn::Join"; "Fn::Select"; "Fn::Sub"; "Ref"].
Definition split_delimiter (p : path) (v : val) : list rulematch :=
  match v with VStr _ => [] | _ => [mkRM (p ++ [PIdx 0])%list (at_text "Split delimiter has to be of type string for " p)] end.
Definition split_text (p : path) (v : val) : list rulematch :=
  match v with
  | VDict [(k, _)] => if smem k split_functions then []
                      else [mkRM (p ++ [PKey k])%list ("Fn::Split doesn't support the function " ++ k ++ " at " ++ path_text p)]
  | VDict _ => [mkRM p (at_text "Split list of singular function or string for " p)]
  | VStr _ => []
  | _ => [mkRM p (at_text "Split has to be of type string or valid function for " p)]
  end.
Definition split_check (p : path) (v : val) : res (list rulematch) :=
  Ok (match v with
      | VList [d; s] => (split_delimiter p d ++ split_text p s)%list
      | _ => [mkRM p (at_text "Split should be an array of 2 for " p)]
      end).
Definition split_match : res (list rulematch) := each "Fn::Split" split_check.

(** * FindInMap.match (E1011), FindInMap.py:21-133. *)
(** Template.get_mappings, template.py:108-114. *)
Definition get_mappings : res val :=
  do ms <- vget_def "Mappings" (VDict []) template;
  Ok (if truthy ms then ms else VDict []).
Definition map_functions : list string := ["Fn::FindInMap"; "Ref"].
Definition map_functions_text : string := join_str ", " map_functions.
Definition map_dict (d : list (string * val)) (p : path) : list rulematch :=
  match d with
  | [(k, _)] => if smem k map_functions then []
                else [mkRM (p ++ [PKey k])%list ("FindInMap only supports [" ++ map_functions_text ++ "] functions at " ++ path_text p)%string]
  | _ => [mkRM p ("FindInMap only supports an object of 1 of [" ++ map_functions_text ++ "] functions at " ++ path_text p)]
  end.
Definition map_name (mappings v : val) (p : path) : res (list rulematch) :=
  match v with
  | VDict d => Ok (map_dict d (p ++ [PIdx 0])%list)
  | VStr s => do b <- py_member v mappings;
              Ok (if b then [] else [mkRM (p ++ [PIdx 0])%list ("Map Name " ++ s ++ " does not exist for " ++ s)%string])
  | _ => Ok [mkRM (p ++ [PIdx 0])%list ("Map Name should be a " ++ map_functions_text ++ ", or string at " ++ path_text p)%string]
  end.
Definition map_key (word : string) (i : nat) (v : val) (p : path) : list rulematch :=
  match v with
  | VStr _ | VInt _ | VBool _ => []
  | VDict d => map_dict d (p ++ [PIdx i])%list
  | _ => [mkRM (p ++ [PIdx i])%list ("FindInMap " ++ word ++ " key should be a " ++ map_functions_text ++ ", string, or int at " ++ path_text p)%string]
  end.
(** ['/'.join(tree)] raises TypeError when the tree has a list index. *)
Definition no_index (p : path) : bool := forallb (fun e => match e with PKey _ => true | PIdx _ => false end) p.
Definition find_in_map_check (mappings : val) (p : path) (v : val) : res (list rulematch) :=
  match v with
  | VList [n; k1; k2] =>
      do a <- map_name mappings n p;
      Ok (a ++ map_key "first" 1 k1 p ++ map_key "second" 2 k2 p)%list
  | VList _ => Ok [mkRM (p ++ [PIdx 1])%list (at_text "FindInMap is a list with 3 values for " p)]
  | _ => if no_index p then Ok [mkRM p (at_text "FindInMap is a list with 3 values for " p)] else Err ETypeErr
  end.
Definition find_in_map_match : res (list rulematch) :=
  do ms <- get_mappings; each "Fn::FindInMap" (find_in_map_check ms).

(** * FindInMapKeys.match (W1011), FindInMapKeys.py:19-64. *)
(** [obj.get(key)] for a key that is any hashable value. *)
Definition vget_any (k obj : val) : res val :=
  match k with
  | VStr s => vget s obj
  | _ => vget "" (match obj with VDict _ => VDict [] | o => o end)
  end.
Definition key_text (v : val) : string := match v with VStr s => s | _ => str_of v end.
Definition missing_second (p : path) (k2 : val) (map_name k1 : string) : rulematch :=
  mkRM (p ++ [PIdx 2])%list ("FindInMap second key """ ++ key_text k2 ++ """ doesn't exist in map """ ++ map_name ++ """ under """ ++ k1 ++ """ at " ++ path_text p).
Definition is_key (v : val) : bool := match v with VStr _ | VInt _ | VBool _ => true | _ => false end.
Definition check_map_keys (mappings : val) (p : path) (n k1 k2 : val) : res (list rulematch) :=
  if is_key k2 then
    match n with
    | VStr name =>
        do mapping <- vget name mappings;
        if truthy mapping then
          if is_key k1 then
            do x <- vget_any k1 mapping;
            let a := match x with VNull => [mkRM (p ++ [PIdx 1])%list ("FindInMap first key """ ++ key_text k1 ++ """ doesn't exist in map """ ++ name ++ """ at " ++ path_text p)%string] | _ => [] end in
            if truthy x then
              do y <- vget_any k2 x;
              Ok (a ++ match y with VNull => [missing_second p k2 name (key_text k1)] | _ => [] end)%list
            else Ok a
          else
            do d <- items_of mapping;
            concat_res (fun kx => do y <- vget_any k2 (snd kx);
                                  Ok (match y with VNull => [missing_second p k2 name (fst kx)] | _ => [] end)) d
        else Ok []
    | _ => Ok []
    end
  else Ok [].
(** The characters of a text of length 3 count as the arguments; an object of 3 members has no member 0 (KeyError). *)
Definition find_keys_check (mappings : val) (p : path) (v : val) : res (list rulematch) :=
  match v with
  | VList [n; k1; k2] => check_map_keys mappings p n k1 k2
  | VStr (String a (String b (String c EmptyString))) =>
      check_map_keys mappings p (VStr (String a "")) (VStr (String b "")) (VStr (String c ""))
  | VDict [_; _; _] => Err EKey
  | VList _ | VStr _ | VDict _ => Ok []
  | _ => Err ETypeErr
  end.
Definition find_keys_match : res (list rulematch) :=
  do ms <- get_mappings; each "Fn::FindInMap" (find_keys_check ms).

(** * Cidr.match (E1024), Cidr.py:22-163. *)
(** REGEX_CIDR, helpers.py:71-72, as the language it describes: four octets and a mask; [$] also matches before a line feed at the
    end. *)
Definition octet (s : string) : bool :=
  match s with
  | String a EmptyString => is_digit a
  | String a (String b EmptyString) => in_range 49 57 a && is_digit b
  | String a (String b (String c EmptyString)) =>
      (char_eqb a "1" && is_digit b && is_digit c) || (char_eqb a "2" && in_range 48 52 b && is_digit c) ||
      (char_eqb a "2" && char_eqb b "5" && in_range 48 53 c)
  | _ => false
  end.
Definition mask (s : string) : bool :=
  match s with
  | String a EmptyString => is_digit a
  | String a (String b EmptyString) => (in_range 49 50 a && is_digit b) || (char_eqb a "3" && in_range 48 50 b)
  | _ => false
  end.
Definition cidr_body (s : string) : bool :=
  match split_on "/" s with
  | [ip; m] => match split_on "." ip with [a; b; c; d] => octet a && octet b && octet c && octet d && mask m | _ => false end
  | _ => false
  end.
Fixpoint drop_last_newline (s : string) : string :=
  match s with
  | EmptyString => ""
  | String a EmptyString => if char_eqb a newline then "" else s
  | String a s' => String a (drop_last_newline s')
  end.
Definition cidr_matches (s : string) : bool := cidr_body (drop_last_newline s).

Definition cidr_functions : list string := ["Fn::FindInMap"; "Fn::Select"; "Ref"; "Fn::GetAtt"; "Fn::Sub"; "Fn::ImportValue"].
Definition cidr_block (p : path) (v : val) : list rulematch :=
  let q := (p ++ [PIdx 0])%list in
  match v with
  | VDict [(k, _)] => if smem k cidr_functions then [] else [mkRM q (at_text "Cidr ipBlock should be Cidr Range, Ref, GetAtt, Sub or Select for " q)]
  | VDict _ => []
  | VStr s => if cidr_matches s then [] else [mkRM q (at_text "Cidr ipBlock should be a Cidr Range based string for " q)]
  | _ => [mkRM q (at_text "Cidr ipBlock should be a string for " q)]
  end.
(** The count and the size mask; in a list of 2 arguments the size mask is None, which is no integer. *)
Definition cidr_number (word : string) (i : nat) (p : path) (v : val) : list rulematch :=
  let q := (p ++ [PIdx i])%list in
  match v with
  | VDict [(k, _)] => if smem k cidr_functions then [] else [mkRM q (at_text ("Cidr " ++ word ++ " should be Int, Ref, or Select for ")%string q)]
  | VDict _ => []
  | VInt _ | VBool _ => []
  | _ => [mkRM q (at_text ("Cidr " ++ word ++ " should be a int for ")%string q)]
  end.
Definition cidr_check (p : path) (v : val) : list rulematch :=
  match v with
  | VList [b; c] => (cidr_block p b ++ cidr_number "count" 1 p c ++ cidr_number "sizeMask" 2 p VNull)%list
  | VList [b; c; m] => (cidr_block p b ++ cidr_number "count" 1 p c ++ cidr_number "sizeMask" 2 p m)%list
  | _ => [mkRM p (at_text "Cidr should be a list of 2 or 3 elements for " p)]
  end.
(** The Refs collected from the i-th argument, Cidr.py:119-120 and 137-138. *)
Definition cidr_ref (i : nat) (v : val) : list val :=
  match v with
  | VList l => if Nat.eqb (List.length l) 2 || Nat.eqb (List.length l) 3
               then match nth_error l i with Some (VDict [(k, x)]) => if String.eqb k "Ref" then [x] else [] | _ => [] end else []
  | _ => []
  end.
(** [set(refs)]: an object or list among the refs raises TypeError; [order]: the order in which Python lists the set. *)
Variable order : list val -> list val.
Fixpoint py_nodup (l : list val) : list val :=
  match l with [] => [] | x :: xs => if py_in x xs then py_nodup xs else x :: py_nodup xs end.
Definition py_set (l : list val) : res (list val) :=
  if forallb hashable l then Ok (order (py_nodup l)) else Err ETypeErr.
(** [not v or v < 1 or v > 256]. *)
Definition outside_256 (v : val) : res bool :=
  if truthy v then
    match num_of v with Some q => Ok (negb (Qle_bool 1 q && Qle_bool q 256)) | None => Err ETypeErr end
  else Ok true.
Definition cidr_bound (p : path) (obj : val) (key text : string) : res (list rulematch) :=
  do v <- vget key obj;
  do b <- outside_256 v;
  Ok (if b then [mkRM (p ++ [PKey key])%list (at_text text (p ++ [PKey key])%list)] else []).
(** check_parameter_count and check_parameter_size_mask, Cidr.py:22-71. *)
Definition cidr_parameter (min_text max_text : string) (name : val) : res (list rulematch) :=
  do ps <- get_parameters template;
  do obj <- (match name with VStr s => vget_def s (VDict []) ps | _ => vget_def "" (VDict []) (match ps with VDict _ => VDict [] | o => o end) end);
  if truthy obj then
    let p := [PKey "Parameters"; PKey (key_text name)] in
    do t <- vget "Type" obj;
    if eq_str "Number" t then
      (* both bounds are read before either is compared; reading them does not raise here *)
      do a <- cidr_bound p obj "MinValue" min_text;
      do b <- cidr_bound p obj "MaxValue" max_text;
      Ok (a ++ b)%list
    else Ok [mkRM p (at_text "Parameter for Cidr count have be of Type Number at " p)]
  else Ok [].
Definition cidr_count_parameter : val -> res (list rulematch) :=
  cidr_parameter "Parameter for Cidr count have MinValue between 1 and 256 at " "Parameter for Cidr count have MaxValue between 1 and 256 at ".
Definition cidr_mask_parameter : val -> res (list rulematch) :=
  cidr_parameter "Parameter for Cidr sizeMask have MinValue between 1 and 128 (for ipv6) and 32 (for ipv4) at "
                 "Parameter for Cidr count have MaxValue between 1 and 128 (for ipv6) and 32 (for ipv4) at ".
Definition cidr_match : res (list rulematch) :=
  let found := search_deep_keys "Fn::Cidr" template globals in
  do counts <- py_set (flat_map (fun pv => cidr_ref 1 (snd pv)) found);
  do a <- concat_res cidr_count_parameter counts;
  do masks <- py_set (flat_map (fun pv => cidr_ref 2 (snd pv)) found);
  do b <- concat_res cidr_mask_parameter masks;
  Ok (flat_map (fun pv => cidr_check (fst pv) (snd pv)) found ++ a ++ b)%list.

(** * Template.get_valid_getatts, template.py:167-200. *)
(** An attribute in the specification: its Type and its PrimitiveItemType. *)
Record attspec := mkAtt { att_type : option string; att_primitive_item : option string }.
(** RESOURCE_SPECS['us-east-1']['ResourceTypes']: the Attributes of each type ([None]: the type lists none). *)
Variable types : list (string * option (list (string * attspec))).
Definition getatts : Type := list (string * list (string * attspec)).
Definition getatts_of (t : string) : option (list (string * attspec)) :=
  if starts_with "AWS::CloudFormation::Stack" t then Some [("*", mkAtt None (Some "String"))]
  else if starts_with "Custom::" t || starts_with "AWS::Serverless::" t || starts_with "AWS::CloudFormation::CustomResource" t || ends_with "::MODULE" t
       then Some [("*", mkAtt None None)]
       else match assoc t types with Some a => a | None => None end.
Definition get_valid_getatts : res getatts :=
  do rs <- vget_def "Resources" (VDict []) template;
  do rs <- items_of rs;
  concat_res (fun nx =>
    do t <- member_type (snd nx);
    Ok (match t with Some (VStr t) => match getatts_of t with Some a => [(fst nx, a)] | None => [] end | _ => [] end)) rs.

(** * GetAtt.match (E1010), GetAtt.py:34-107.  As in [not_check] a path that ends in the argument is cut before it. *)
Definition second_text (p : path) (v : val) : string := match p with _ :: e :: _ => str_of_pelem e | _ => key_text v end.
Definition invalid_getatt (p : path) (v : val) (name : string) (attr : option string) : rulematch :=
  mkRM p ("Invalid GetAtt " ++ name ++ "." ++ match attr with Some a => a | None => "None" end ++ " for resource " ++ second_text p v).
(** ['.'.join(items)]. *)
Definition join_dots (l : list val) : res string :=
  do l <- map_res (fun v => match v with VStr s => Ok s | _ => Err ETypeErr end) l;
  Ok (join_str "." l).
(** [text.split('.', 1)]: the text before the first '.' and the text behind it. *)
Fixpoint split_dot (s : string) : option (string * string) :=
  match s with
  | EmptyString => None
  | String a s' => if char_eqb a "." then Some ("", s') else match split_dot s' with Some (x, y) => Some (String a x, y) | None => None end
  end.
(** GetAtt.py:45-80: the resource, the attribute and the findings about the structure.  [None] for a resource that is not
    looked up. *)
Definition getatt_parts (p : path) (v : val) : res (option val * option string * list rulematch) :=
  let structure := mkRM p ("Invalid GetAtt structure " ++ str_of v ++ " at " ++ path_text p) in
  match v with
  | VStr s => match split_dot s with Some (x, y) => Ok (Some (VStr x), Some y, []) | None => Err EValue end
  | VList (r :: VStr a :: rest) => do t <- join_dots (VStr a :: rest); Ok (Some r, Some t, [])
  | VList (r :: VDict d :: _) =>
      Ok (Some r, None, match d with
                        | [(k, _)] => if String.eqb k "Ref" then [] else [mkRM p ("GetAtt only supports functions ""Ref"" for attributes at " ++ path_text p)]
                        | _ => [structure]
                        end)
  | VList (_ :: _ :: _) => Ok (None, None, [structure])
  | VDict _ => Err EKey
  | _ => Err ETypeErr
  end.
Definition getatt_attribute (p : path) (v : val) (name : string) (atts : list (string * attspec)) (attr : string) : list rulematch :=
  let bad := [invalid_getatt p v name (Some attr)] in
  let missing := if mem_assoc attr atts || mem_assoc "*" atts then [] else bad in
  match split_on "." attr with
  | first :: _ :: _ =>
      match assoc first atts with
      | Some a => match att_type a with Some t => if String.eqb t "Map" then [] else (bad ++ missing)%list | None => (bad ++ missing)%list end
      | None => missing
      end
  | _ => missing
  end.
Definition in_module (modules : list string) (name : val) : res bool :=
  match modules, name with
  | [], _ => Ok false
  | _, VStr s => Ok (existsb (fun m => starts_with m s) modules)
  | _, _ => Err EAttribute
  end.
Definition getatt_target_check (valid : getatts) (p : path) (v name : val) (attr : option string) : res (list rulematch) :=
  if truthy name then
    match name with
    | VList _ | VDict _ => Err ETypeErr
    | _ =>
        match (match name with VStr s => assoc s valid | _ => None end) with
        | Some atts => Ok (match attr with Some a => getatt_attribute p v (key_text name) atts a | None => [] end)
        | None =>
            do ms <- get_modules str_of template;
            do b <- in_module ms name;
            Ok (if b then [] else [invalid_getatt p v (key_text name) attr])
        end
    end
  else Ok [].
Definition getatt_check (valid : getatts) (p : path) (v : val) : res (list rulematch) :=
  do n <- (match v with VStr s => Ok (String.length s) | VList l => Ok (List.length l) | VDict d => Ok (List.length d) | _ => Err ETypeErr end);
  if Nat.ltb n 2 then Ok [mkRM p (at_text "Invalid GetAtt for " p)]
  else
    do parts <- getatt_parts p v;
    let '(name, attr, ms) := parts in
    match name with
    | Some r => do ms' <- getatt_target_check valid p v r attr; Ok (ms ++ ms')%list
    | None => Ok ms
    end.
Definition getatt_match : res (list rulematch) :=
  do valid <- get_valid_getatts; each "Fn::GetAtt" (getatt_check valid).

(** * Join.match (E1022), Join.py:34-167. *)
(** The functions of IntrinsicTypes that return a list or a single value, Join.py:22-27 and
    data/ExtendedSpecs/all/02_intrinsic_types.json. *)
Definition list_functions : list string :=
  ["Fn::Cidr"; "Fn::FindInMap"; "Fn::GetAZs"; "Fn::GetAtt"; "Fn::If"; "Fn::Select"; "Fn::Split"; "Ref"].
Definition single_functions : list string :=
  ["Fn::Base64"; "Fn::FindInMap"; "Fn::GetAtt"; "Fn::If"; "Fn::ImportValue"; "Fn::Join"; "Fn::Select"; "Fn::Sub"; "Ref"].
(** _get_parameters, Join.py:29-40 and Sub.py:31-42. *)
Definition parameter_types : res (list (string * val)) :=
  do ps <- vget_def "Parameters" (VDict []) template;
  match ps with
  | VDict d => map_res (fun kx => do t <- vget_def "Type" (VStr "String") (snd kx); Ok (fst kx, t)) d
  | _ => Ok []
  end.
Definition is_list_type (t : val) : bool := existsb (fun s => eq_str s t) VALID_PARAMETER_TYPES_LIST.
(** _is_ref_a_list, Join.py:48-60. *)
Definition is_ref_a_list (v : val) (params : list (string * val)) : res bool :=
  match v with
  | VList _ | VDict _ => Err ETypeErr
  | VStr s => Ok (match assoc s params with Some t => is_list_type t | None => false end || String.eqb s "AWS::NotificationARNs")
  | _ => Ok false
  end.
(** _is_getatt_a_list, Join.py:62-77; [item i] is [parameter[i]]. *)
Inductive verdict := VTrue | VFalse | VUnknown.
Fixpoint getatt_list_atts (item : nat -> res val) (resource : string) (atts : list (string * attspec)) : res (option verdict) :=
  match atts with
  | [] => Ok None
  | (name, a) :: rest =>
      do r <- item 0;
      if eq_str resource r then
        if String.eqb name "*" then
          Ok (Some (match att_primitive_item a with
                    | Some t => if String.eqb t "" then match att_type a with Some t => if String.eqb t "List" then VTrue else VUnknown | None => VUnknown end else VFalse
                    | None => match att_type a with Some t => if String.eqb t "List" then VTrue else VUnknown | None => VUnknown end
                    end))
        else
          do x <- item 1;
          if eq_str name x then
            match att_type a with
            | Some t => if String.eqb t "List" then Ok (Some VTrue) else getatt_list_atts item resource rest
            | None => getatt_list_atts item resource rest
            end
          else getatt_list_atts item resource rest
      else getatt_list_atts item resource rest
  end.
Fixpoint getatt_list (item : nat -> res val) (valid : getatts) : res verdict :=
  match valid with
  | [] => Ok VFalse
  | (resource, atts) :: rest =>
      do x <- getatt_list_atts item resource atts;
      match x with Some b => Ok b | None => getatt_list item rest end
  end.
(** [parameter[i]] of a normalized Fn::GetAtt (Join.py:42-46): a text is split at its first '.'. *)
Definition getatt_item (v : val) (i : nat) : res val :=
  match v with
  | VStr s => match split_dot s, i with
              | Some (x, _), 0 => Ok (VStr x)
              | Some (_, y), 1 => Ok (VStr y)
              | None, 0 => Ok v
              | _, _ => Err EIndex
              end
  | VList l => match nth_error l i with Some x => Ok x | None => Err EIndex end
  | VDict _ => Err EKey
  | _ => Err ETypeErr
  end.
Definition is_getatt_a_list (v : val) (valid : getatts) : res verdict := getatt_list (getatt_item v) valid.

Definition join_item (params : list (string * val)) (valid : getatts) (p : path) (v : val) : res (list rulematch) :=
  match v with
  | VDict [(k, x)] =>
      if smem k single_functions then
        if String.eqb k "Ref" then
          do b <- is_ref_a_list x params;
          Ok (if b then [mkRM p (at_text "Fn::Join must not be a list at " p)] else [])
        else if String.eqb k "Fn::GetAtt" then
          do b <- is_getatt_a_list x valid;
          Ok (match b with VTrue => [mkRM p (at_text "Fn::Join must not be a list at " p)] | _ => [] end)
        else Ok []
      else Ok [mkRM p (at_text "Join unsupported function for " p)]
  | VDict _ => Ok [mkRM p (at_text "Join list of values should be singular for " p)]
  | VStr _ => Ok []
  | _ => Ok [mkRM p (at_text "Join list of singular function or string for " p)]
  end.
(** _match_string_objs, Join.py:79-142. *)
Definition join_values (p : path) (v : val) : res (list rulematch) :=
  do params <- parameter_types;
  do valid <- get_valid_getatts;
  match v with
  | VDict [(k, x)] =>
      if smem k list_functions then
        if String.eqb k "Ref" then
          do b <- is_ref_a_list x params;
          Ok (if b then [] else [mkRM p (at_text "Fn::Join must use a list at " p)])
        else if String.eqb k "Fn::GetAtt" then
          do b <- is_getatt_a_list x valid;
          Ok (match b with VFalse => [mkRM p (at_text "Fn::Join must use a list at " p)] | _ => [] end)
        else Ok []
      else Ok [mkRM p (at_text "Fn::Join unsupported function for " p)]
  | VDict _ => Ok [mkRM p (at_text "Join list of values should be singular for " p)]
  | VList l => concat_res (join_item params valid p) l
  | _ => Ok [mkRM p (at_text "Join list of values for " p)]
  end.
Definition join_check (p : path) (v : val) : res (list rulematch) :=
  match v with
  | VList [d; l] =>
      do a <- join_values p l;
      Ok ((match d with VStr _ => [] | _ => [mkRM p (at_text "Join string has to be of type string for " p)] end) ++ a)%list
  | _ => Ok [mkRM p (at_text "Join should be an array of 2 for " p)]
  end.
Definition join_match : res (list rulematch) := each "Fn::Join" join_check.

(** SubNotJoin.match (I1022), SubNotJoin.py:17-29. *)
Definition sub_not_join_check (p : path) (v : val) : res (list rulematch) :=
  match v with
  | VList [] => Err EIndex
  | VList (VStr s :: _) => Ok (if String.eqb s "" then [mkRM p "Prefer using Fn::Sub over Fn::Join with an empty delimiter"] else [])
  | _ => Ok []
  end.
Definition sub_not_join_match : res (list rulematch) := each "Fn::Join" sub_not_join_check.

(** * Sub.match (E1019), Sub.py:19-183. *)
(** One attribute of one resource, Sub.py:108-122: the findings and whether it is found.  [parts]: the parameter split at '.'. *)
Definition sub_attribute (p : path) (text : string) (parts : list string) (resource : string) (na : string * attspec) : res (list rulematch * bool) :=
  match parts with
  | [] => Err EIndex
  | first :: rest =>
      if String.eqb resource first then
        if String.eqb (fst na) "*" then Ok ([], true)
        else if String.eqb (fst na) (join_str "." rest) then
          Ok (match att_type (snd na) with
              | Some t => if String.eqb t "List" then [mkRM p ("Fn::Sub cannot use list " ++ text ++ " at " ++ path_text p)] else []
              | None => []
              end, true)
        else
          match rest with
          | [] => Err EIndex
          | second :: _ => Ok ([], String.eqb (fst na) second && match att_type (snd na) with Some t => String.eqb t "Map" | None => false end)
          end
      else Ok ([], false)
  end.
(** _test_parameter, Sub.py:88-131. *)
Definition sub_test (params : list (string * val)) (p : path) (v : val) : res (list rulematch) :=
  do valid <- get_valid_getatts;
  do names <- get_resource_names;
  do ptypes <- parameter_types;
  if existsb (fun s => eq_str s v) (PSEUDOPARAMS ++ names ++ keys params)%list then Ok []
  else
    do isp <- (match v with VStr s => Ok (assoc s ptypes) | VList _ | VDict _ => Err ETypeErr | _ => Ok None end);
    let a := match isp with
             | Some t => if is_list_type t then [mkRM p ("Fn::Sub cannot use list " ++ key_text v ++ " at " ++ path_text p)] else []
             | None => []
             end in
    do rs <- map_res (fun x => match v with VStr s => sub_attribute p s (split_on "." s) (fst x) (snd x) | _ => Err EAttribute end)
               (flat_map (fun ra => map (fun na => (fst ra, na)) (snd ra)) valid);
    let found := (match isp with Some _ => true | None => false end) || existsb snd rs in
    Ok (a ++ flat_map fst rs ++
        (if found then [] else [mkRM p ("Parameter " ++ key_text v ++ " for Fn::Sub not found at " ++ path_text p)%string]))%list.
(** _test_string, Sub.py:19-29. *)
Definition sub_string (params : list (string * val)) (p : path) (v : val) : res (list rulematch) :=
  match v with
  | VStr s => concat_res (fun x => sub_test params p (VStr x)) (get_sub_parameters s)
  | _ => Err ETypeErr
  end.
(** _test_parameters, Sub.py:44-86. *)
Definition sub_functions : list string := split_functions.
Definition sub_parameter (p : path) (nx : string * val) : res (list rulematch) :=
  let q := (p ++ [PKey (fst nx)])%list in
  match snd nx with
  | VDict [(k, x)] =>
      if smem k sub_functions then
        if String.eqb k "Ref" then sub_test [] p x
        else if String.eqb k "Fn::GetAtt" then
          match x with
          | VList l => if forallb is_str l then do s <- join_dots l; sub_test [] p (VStr s) else Ok []
          | VStr _ => sub_test [] p x
          | _ => Ok []
          end
        else Ok []
      else Ok [mkRM q (at_text "Sub parameter should use a valid function for " p)]
  | VDict _ => Ok [mkRM q (at_text "Sub parameter should be an object of 1 for " p)]
  | VList _ => Ok [mkRM q (at_text "Sub parameter value should be a string for " p)]
  | _ => Ok []
  end.
Definition sub_shape (p : path) : rulematch := mkRM p (at_text "Sub should be a string or array of 2 items for " p).
Definition sub_check (p : path) (v : val) : res (list rulematch) :=
  match v with
  | VStr _ => sub_string [] p v
  | VList [s; ps] =>
      let a := match s with VStr _ => [] | _ => [mkRM (p ++ [PIdx 0])%list (at_text "Subs first element should be of type string for " p)] end in
      match ps with
      | VDict d =>
          do b <- sub_string d (p ++ [PIdx 0])%list s;
          do c <- concat_res (sub_parameter p) d;
          Ok (a ++ b ++ c)%list
      | _ => Ok (a ++ [mkRM (p ++ [PIdx 1])%list (at_text "Subs second element should be an object for " p)])%list
      end
  | VList _ => Ok [mkRM p (at_text "Sub should be an array of 2 for " p)]
  | VDict [(k, _)] => Ok (if String.eqb k "Fn::Transform" then [] else [sub_shape p])
  | _ => Ok [sub_shape p]
  end.
Definition sub_match : res (list rulematch) := each "Fn::Sub" sub_check.

(** SubParametersUsed.match (W1019), SubParametersUsed.py:18-51. *)
Definition sub_used_check (p : path) (v : val) : res (list rulematch) :=
  Ok (match v with
      | VList [VStr s; VDict d] =>
          flat_map (fun nx => if smem (fst nx) (get_sub_parameters s) then []
                              else [mkRM (p ++ [PIdx 1])%list ("Parameter " ++ fst nx ++ " not used in Fn::Sub at " ++ path_text (p ++ [PIdx 1; PKey (fst nx)])%list)%string]) d
      | _ => []
      end).
Definition sub_used_match : res (list rulematch) := each "Fn::Sub" sub_used_check.

(** SubUnneeded.match (W1020), SubUnneeded.py:18-46.  [pre]: the template before a transform. *)
Definition sub_unneeded_string (p : path) (v : val) : res (list rulematch) :=
  match v with
  | VStr s => Ok (match get_sub_parameters s with [] => [mkRM p (at_text "Fn::Sub isn't needed because there are no variables at " p)] | _ => [] end)
  | _ => Err ETypeErr
  end.
Definition sub_unneeded_check (p : path) (v : val) : res (list rulematch) :=
  match v with
  | VStr _ => sub_unneeded_string p v
  | VList [s; _] => sub_unneeded_string (p ++ [PIdx 0])%list s
  | _ => Ok []
  end.
Definition sub_unneeded_match (pre : val) : res (list rulematch) :=
  concat_res (fun pv => sub_unneeded_check (fst pv) (snd pv)) (search_deep_keys "Fn::Sub" pre (VDict [])).
End Functions.
