(** Model of rules/resources/properties/Properties.py (E3002): the objects and lists of a resource against the specification. *)
From Verif.Model Require Import Base Helpers Node Conditions Search Resolve Rules Refs Relationship Limits Parameters JsonDump PropertyRules Functions ValueRules.
Import Verif.Model.Rules.
Local Open Scope string_scope.

(** What the rule reads from the specification of a property ('Type', 'ItemType', 'PrimitiveType', 'PrimitiveItemType') and of a
    resource type or property type ('Properties', 'Type', 'ItemType', 'AdditionalProperties').  The data is an argument. *)
Record mspec := mkMS { ms_type : option string; ms_item : option string; ms_primitive : option string; ms_primitive_item : option string }.
Record ospec := mkOS { os_props : list (string * mspec); os_type : option string; os_item : option string; os_additional : bool }.

Section PropertyTree.
Variable resource_types : list (string * ospec).
Variable property_types : list (string * ospec).
(** IntrinsicTypes: the ReturnTypes of each function. *)
Variable intrinsic_types : list (string * list string).
Variable template : val.

(** primitivetypecheck, Properties.py:28-69. *)
Definition primitive_functions : list string :=
  ["Fn::Base64"; "Fn::GetAtt"; "Fn::GetAZs"; "Fn::ImportValue"; "Fn::Join"; "Fn::Split"; "Fn::FindInMap"; "Fn::Select"; "Ref";
   "Fn::If"; "Fn::Contains"; "Fn::Sub"; "Fn::Cidr"; "Fn::Transform"].
Definition not_list_match (t : string) (p : path) : rulematch :=
  mkRM p ("Property should be of type " ++ t ++ " not List at " ++ path_text p).
Definition illegal_match (k : string) (p : path) : rulematch :=
  mkRM p ("Property " ++ path_text p ++ " has an illegal function " ++ k).
Definition object_match (t : string) (p : path) : rulematch :=
  mkRM p ("Property is an object instead of " ++ t ++ " at " ++ path_text p).
Definition is_arns (k : string) (x : val) : bool := String.eqb k "Ref" && eq_str "AWS::NotificationARNs" x.
Fixpoint primitive_tree (v : val) (t : string) (p : path) {struct v} : list rulematch :=
  match v with
  | VList _ => [not_list_match t p]
  | VDict [(k, x)] =>
      ((if is_arns k x then [not_list_match t p] else []) ++
       if String.eqb t "Json" then []
       else if smem k CONDITION_FUNCTIONS then
         match x with
         | VList [_; a; b] => primitive_tree a t (p ++ [PKey "Fn::If"; PIdx 1])%list ++ primitive_tree b t (p ++ [PKey "Fn::If"; PIdx 2])%list
         | _ => []
         end
       else if smem k primitive_functions then [] else [illegal_match k p])%list
  | VDict _ => if String.eqb t "Json" then [] else [object_match t p]
  | _ => []
  end.

(** [resource_type.startswith('Custom::')]. *)
Definition starts_custom (t : val) : res bool :=
  match t with
  | VStr s => Ok (starts_with "Custom::" s)
  | VList _ | VDict _ => Err ETemplateAttribute
  | _ => Err EAttribute
  end.
(** The name of the resource of a Fn::GetAtt, Properties.py:92-96 and 146-150; None when it is neither a list nor a text. *)
Definition getatt_owner (x : val) : res (option val) :=
  match x with
  | VList [] => Err EIndex
  | VList (n :: _) => Ok (Some n)
  | VStr s => Ok (match split_on "." s with n :: _ => Some (VStr n) | [] => None end)
  | _ => Ok None
  end.
(** Lines 92-106 and 146-157: [accepted] decides by the type of the resource, [m] is what is reported otherwise. *)
Definition getatt_list (accepted : val -> res bool) (m : rulematch) (x : val) : res (list rulematch) :=
  do o <- getatt_owner x;
  match o with
  | Some n =>
      if truthy n then
        do t <- resource_type_of template n;
        do ok <- accepted t;
        Ok (if ok then [] else [m])
      else Ok []
  | None => Ok []
  end.
Definition custom_or_generic (t : val) : res bool :=
  if eq_str "AWS::CloudFormation::CustomResource" t then Ok true else starts_custom t.

Variable parent : string.
Variable resource : string.

Definition list_at_match (prop : string) (p : path) : rulematch :=
  mkRM p ("Property " ++ prop ++ " should be of type List for resource " ++ resource ++ " at " ++ path_text p).
Definition list_match (prop : string) (p : path) : rulematch :=
  mkRM p ("Property " ++ prop ++ " should be of type List for resource " ++ resource).
Definition parameter_match (prop : string) (p : path) : rulematch :=
  mkRM p ("Property " ++ prop ++ " should be of type List or Parameter should be a list for resource " ++ resource).
Definition singular_match (prop k : string) (p : path) : rulematch :=
  mkRM p ("Property " ++ prop ++ " is using " ++ k ++ " when a List is needed for resource " ++ resource).
Definition bad_if_match (p : path) : rulematch := mkRM p ("Invalid !If condition specified at " ++ path_text p).
Definition expecting_match (p : path) : rulematch := mkRM p ("Expecting an object at " ++ path_text p).
Definition invalid_match (p : path) : rulematch := mkRM p ("Invalid Property " ++ path_text p).

Section Lists.
(** [items l p]: the items of a list at [p] are checked. *)
Variable items : list val -> path -> res (list rulematch).
Variable prop : string.
(** _check_list_for_condition, Properties.py:71-130.  A text has the characters after its first as branches, and an object with
    three members raises an exception. *)
Fixpoint list_condition (t : val) (p : path) {struct t} : res (list rulematch) :=
  let branch (v : val) (q : path) : res (list rulematch) :=
    match v with
    | VList l => items l q
    | VDict [(k, x)] =>
        if String.eqb k "Ref" && eq_str "AWS::NoValue" x then Ok []
        else if String.eqb k "Fn::GetAtt" then getatt_list starts_custom (list_at_match prop q) x
        else if String.eqb k "Fn::If" then list_condition x q
        else Ok [list_at_match prop q]
    | _ => Ok [list_at_match prop q]
    end in
  match t with
  | VList [_; a; b] =>
      do m1 <- branch a (p ++ [PIdx 1])%list;
      do m2 <- branch b (p ++ [PIdx 2])%list;
      Ok (m1 ++ m2)%list
  | VList _ => Ok [bad_if_match p]
  | VStr s => Ok (if Nat.eqb (String.length s) 3 then [list_at_match prop (p ++ [PIdx 1])%list; list_at_match prop (p ++ [PIdx 2])%list] else [bad_if_match p])
  | VDict d => if Nat.eqb (List.length d) 3 then Err ETypeErr else Ok [bad_if_match p]
  | _ => Err ETypeErr
  end.
(** check_list_for_condition, Properties.py:132-173. *)
Definition list_object (d : list (string * val)) (p : path) : res (list rulematch) :=
  match d with
  | [(k, x)] =>
      if smem k CONDITION_FUNCTIONS then list_condition x (p ++ [PKey k])%list
      else if String.eqb k "Fn::FindInMap" then Ok []
      else if String.eqb k "Fn::GetAtt" then getatt_list custom_or_generic (object_match "List" p) x
      else if String.eqb k "Ref" && eq_str "AWS::NoValue" x then Ok []
      else Ok [object_match "List" p]
  | _ => Ok [object_match "List" p]
  end.
(** Properties.py:262-281. *)
Definition object_list (x : val) (p : path) : res (list rulematch) :=
  match x with
  | VList l => items l p
  | VDict d => list_object d p
  | _ => Ok [list_match prop p]
  end.
End Lists.

(** [template['Parameters'][ref]['Type']] for a parameter that exists.  Subscripting a text or list with 'Type' is a TypeError. *)
Definition parameter_type (name : string) : res val :=
  do ps <- vget_def "Parameters" (VDict []) template;
  match ps with
  | VDict d =>
      match assoc name d with
      | Some (VDict o) => match assoc "Type" o with Some t => Ok t | None => Err EKey end
      | Some _ => Err ETypeErr
      | None => Err EKey
      end
  | _ => Err ETypeErr
  end.
(** [ref in parameternames]: the parameters' names are a list of texts, so any value can be looked for. *)
Definition ref_parameter (names : list string) (r : val) : option string :=
  match r with VStr s => if smem s names then Some s else None | _ => None end.
(** Properties.py:290-302. *)
Definition ref_list (names : list string) (prop : string) (r : val) (p : path) : res (list rulematch) :=
  if eq_str "AWS::NotificationARNs" r then Ok []
  else match ref_parameter names r with
       | Some s =>
           do t <- parameter_type s;
           if truthy t then
             do a <- py_member (VStr "List<") t;
             do b <- py_member (VStr "<List") t;
             Ok (if a || b || eq_str "CommaDelimitedList" t then [] else [parameter_match prop p])
           else Ok []
       | None => Ok [list_match prop p]
       end.
(** Properties.py:311-321. *)
Definition function_list (prop k : string) (p : path) : list rulematch :=
  match assoc k intrinsic_types with
  | Some [t] => if String.eqb t "Singular" then [singular_match prop k p] else []
  | _ => []
  end.
(** Properties.py:283-327. *)
Definition primitive_list (names : list string) (prop prim : string) (x : val) (p : path) : res (list rulematch) :=
  match x with
  | VList l => Ok (flat_map (fun ix => primitive_tree (snd ix) prim (p ++ [PIdx (fst ix)])%list) (enum l))
  | VDict d =>
      match assoc "Ref" d with
      | Some r => ref_list names prop r p
      | None => match d with [(k, _)] => Ok (function_list prop k p) | _ => Ok [] end
      end
  | _ => Ok [list_match prop p]
  end.

(** check_exceptions, Properties.py:175-194. *)
Definition templated_exceptions : list (string * list string) :=
  [("AWS::ApiGateway::RestApi", ["S3Location"]); ("AWS::Lambda::Function", ["Code"]); ("AWS::Lambda::LayerVersion", ["Content"]);
   ("AWS::ElasticBeanstalk::ApplicationVersion", ["SourceBundle"]); ("AWS::StepFunctions::StateMachine", ["S3Location"])].
Definition check_exceptions (t : string) (v : val) : bool :=
  match assoc parent templated_exceptions with
  | Some l => smem t l && match v with VStr _ => true | _ => false end
  | None => false
  end.

(** Properties.py:201-215. *)
Definition property_type_name (t : string) : string :=
  let full := parent ++ "." ++ t in
  if mem_assoc full property_types then full else if mem_assoc t property_types then t else full.
Definition spec_at (root : bool) (t : string) : option ospec :=
  if root then assoc parent resource_types else assoc (property_type_name t) property_types.

Section Step.
(** The recursive call: value, type, path, root. *)
Variable again : val -> string -> path -> bool -> res (list rulematch).
Definition again_items (t : string) (root : bool) (l : list val) (p : path) : res (list rulematch) :=
  concat_res (fun ix => again (snd ix) t (p ++ [PIdx (fst ix)])%list root) (enum l).
(** A list of objects without 'ItemType' is a KeyError as soon as an item is reached. *)
Definition typed_items (o : option string) (root : bool) (l : list val) (p : path) : res (list rulematch) :=
  match o with
  | Some t => again_items t root l p
  | None => match l with [] => Ok [] | _ => Err EKey end
  end.
(** A property that the specification does not know, Properties.py:240-261. *)
Definition unknown_member (os : ospec) (t : string) (root : bool) (d : list (string * val)) (prop : string) (x : val) (p : path) : res (list rulematch) :=
  if smem prop CONDITION_FUNCTIONS && Nat.eqb (List.length d) 1 then
    concat_res (fun qw =>
      match snd qw with
      | VDict _ => again (snd qw) t (p ++ [PKey prop] ++ fst qw)%list root
      | VList l => again_items t root l (p ++ [PKey prop] ++ fst qw)%list
      | _ => Ok []
      end) (condition_values x [])
  else if is_function_returning_object d then Ok []
  else if Nat.eqb (List.length d) 1 && contains_text prop "Ref" && eq_str "AWS::NoValue" x then Ok []
  else if os_additional os then Ok []
  else Ok [invalid_match (p ++ [PKey prop])%list].
(** A property that it knows, Properties.py:262-335. *)
Definition known_member (names : list string) (ms : mspec) (prop : string) (x : val) (p : path) : res (list rulematch) :=
  match ms_type ms with
  | Some t =>
      if String.eqb t "List" then
        match ms_primitive_item ms with
        | None => object_list (typed_items (ms_item ms) false) prop x p
        | Some prim => primitive_list names prop prim x p
        end
      else if String.eqb t "Map" then Ok []
      else again x t p false
  | None => match ms_primitive ms with Some prim => Ok (primitive_tree x prim p) | None => Ok [] end
  end.
Definition member_check (names : list string) (os : ospec) (t : string) (root : bool) (d : list (string * val)) (p : path) (kv : string * val) : res (list rulematch) :=
  match assoc (fst kv) (os_props os) with
  | None => unknown_member os t root d (fst kv) (snd kv) p
  | Some ms => known_member names ms (fst kv) (snd kv) (p ++ [PKey (fst kv)])%list
  end.
(** propertycheck, Properties.py:196-337. *)
Definition object_check (names : list string) (v : val) (t : string) (p : path) (root : bool) : res (list rulematch) :=
  match spec_at root t with
  | None => Err EKey
  | Some os =>
      match os_props os with
      | [] =>
          if opt_eqb (os_type os) "List" then
            match v with VList l => typed_items (os_item os) root l p | _ => Ok [] end
          else Ok []
      | _ =>
          if eq_str "AWS::NoValue" v then Ok []
          else match v with
               | VDict d => concat_res (member_check names os t root d p) d
               | _ => Ok (if check_exceptions t v then [] else [expecting_match p])
               end
      end
  end.
End Step.

(** The recursion of propertycheck.  Every call is on a value inside the value; [fuel] bounds the nesting and running out of it is an
    error value.  Python's own recursion limit is not modelled. *)
Fixpoint property_tree (fuel : nat) (names : list string) (v : val) (t : string) (p : path) (root : bool) : res (list rulematch) :=
  match fuel with
  | 0 => Err EOutOfFuel
  | S f => object_check (property_tree f names) names v t p root
  end.
End PropertyTree.

(** How deeply a value nests: enough fuel for it. *)
Fixpoint depth (v : val) : nat :=
  match v with
  | VList l => S ((fix go l := match l with [] => 0 | x :: r => Nat.max (depth x) (go r) end) l)
  | VDict d => S ((fix go d := match d with [] => 0 | (_, x) :: r => Nat.max (depth x) (go r) end) d)
  | _ => 0
  end.

Section Match.
Variable resource_types property_types : list (string * ospec).
Variable intrinsic_types : list (string * list string).
Variable template : val.
(** Properties.match, Properties.py:339-361. *)
Definition checked_type (rt : string) : string :=
  if starts_with "Custom::" rt && negb (mem_assoc rt resource_types) then "AWS::CloudFormation::CustomResource" else rt.
Definition resource_tree (names : list string) (kv : string * val) : res (list rulematch) :=
  match assoc "Properties" (dict_of (snd kv)), assoc "Type" (dict_of (snd kv)) with
  | Some props, Some t =>
      match t with
      | VStr rt =>
          if mem_assoc (checked_type rt) resource_types then
            property_tree resource_types property_types intrinsic_types template (checked_type rt) (fst kv) (S (depth props)) names props ""
              [PKey "Resources"; PKey (fst kv); PKey "Properties"] true
          else Ok []
      | VList _ | VDict _ => Err ETemplateAttribute
      | _ => Err EAttribute
      end
  | _, _ => Ok []
  end.
Definition properties_match : res (list rulematch) :=
  do names <- get_parameter_names template;
  concat_res (resource_tree names) (get_resources template).
End Match.
