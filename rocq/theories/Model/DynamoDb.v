(** Model of rules/resources/dynamodb/AttributeMismatch.py (E3039). *)
From Verif.Model Require Import Base Helpers Node Conditions Search Resolve Rules Relationship Config PropertyRules.
Import Verif.Model.Rules.
Local Open Scope string_scope.

Section Attributes.
(** The text of a list of texts in a message, AttributeMismatch.py:80-81. *)
Variable show_names : list string -> string.
(** [for attribute in v]: members of an object are its keys, and the first character of a text has no [get]. *)
Definition each_definition (v : val) : res (list val) :=
  match v with
  | VList l => Ok l
  | VDict d => Ok (map VStr (keys d))
  | VStr "" => Ok []
  | VStr _ => Err EAttribute
  | _ => Err ETypeErr
  end.
(** AttributeMismatch.py:57-63: None when the rule gives up. *)
Fixpoint defined_names (l : list val) : res (option (list string)) :=
  match l with
  | [] => Ok (Some [])
  | x :: r =>
      do n <- vget "AttributeName" x;
      match n with
      | VStr s => do o <- defined_names r; Ok (match o with Some ns => Some (s :: ns) | None => None end)
      | _ => Ok None
      end
  end.
(** The body of the loops of AttributeMismatch._get_key_schema_attributes, AttributeMismatch.py:29-32: a name that is an
    Fn::If with texts passes the test, and then cannot be a member of a set. *)
Definition key_name (k : val) : res (list string) :=
  match k with
  | VDict d =>
      do l <- get_safe d "AttributeName" VNull [] (Some is_str);
      match l, assoc "AttributeName" d with
      | [], _ => Ok []
      | _, Some (VStr s) => Ok [s]
      | _, _ => Err ETypeErr
      end
  | VStr _ | VList _ => Err ETemplateAttribute
  | _ => Err EAttribute
  end.
Definition items_of_list (v : val) : list val := match v with VList l => l | _ => [] end.
(** AttributeMismatch._get_key_schema_attributes of [obj.get_safe('KeySchema', [], [], list)], AttributeMismatch.py:24-33. *)
Definition schema_names (obj : val) : res (list string) :=
  match obj with
  | VDict d =>
      do sets <- get_safe d "KeySchema" (VList []) [] (Some is_list);
      concat_res (fun wq => concat_res key_name (items_of_list (fst wq))) sets
  | VStr _ | VList _ => Err ETemplateAttribute
  | _ => Err EAttribute
  end.
(** AttributeMismatch._get_attribute_secondary, AttributeMismatch.py:35-47. *)
Definition index_names (d : list (string * val)) (key : string) (p : path) : res (list string) :=
  do sets <- get_safe d key (VList []) p (Some is_list);
  concat_res (fun wq => concat_res schema_names (items_of_list (fst wq))) sets.
(** [sorted(list(names))] of a set of names. *)
Definition sorted_set (l : list string) : list string := sort_strings (nodup string_dec l).
Definition same_set (a b : list string) : bool := forallb (fun x => smem x b) a && forallb (fun x => smem x a) b.
(** AttributeMismatch.check_property_set, AttributeMismatch.py:49-84. *)
Definition table_set (p : path) (x : option scenario * val) : res (list rulematch) :=
  match snd x with
  | VDict d =>
      do ds <- each_definition (match assoc "AttributeDefinitions" d with Some v => v | None => VList [] end);
      do names <- defined_names ds;
      match names with
      | None => Ok []
      | Some attributes =>
          do a <- schema_names (VDict d);
          do b <- index_names d "GlobalSecondaryIndexes" p;
          do c <- index_names d "LocalSecondaryIndexes" p;
          let ks := (a ++ b ++ c)%list in
          Ok (if same_set attributes ks then []
              else [mkRM p ("The set of Attributes in AttributeDefinitions: " ++ show_names (sorted_set attributes) ++ " and KeySchemas: " ++
                            show_names (sorted_set ks) ++ " must match at " ++ path_text p)])
      end
  | VStr _ | VList _ => Err ETemplateAttribute
  | _ => Err EAttribute
  end.
Variable order : list string -> list string.
(** AttributeMismatch.check, AttributeMismatch.py:86-94. *)
Definition table_match (c : conditions) (props : val) (p : path) : res (list rulematch) :=
  do sets <- get_object_without_conditions order c props ["AttributeDefinitions"; "KeySchema"; "GlobalSecondaryIndexes"; "LocalSecondaryIndexes"];
  concat_res (table_set p) sets.
End Attributes.
Definition table_rule (show_names : list string -> string) (hash : val -> string) (order : list string -> list string) (fuel : nat) : rule :=
  mkRule "E3039" false [] [] ["AWS::DynamoDB::Table"] [] (fun _ => ([], [])) None
    (Some (fun _ c props _ p => table_match show_names order (load hash fuel (template c)) props p)) None.
