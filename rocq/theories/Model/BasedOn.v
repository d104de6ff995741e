(** Models of rules/resources/properties/BasedOnValue.py and its two subclasses RequiredBasedOnValue.py (E3017) and
    UnwantedBasedOnValue.py (E3018). *)
From Verif.Model Require Import Base Helpers Node Conditions Search Resolve Rules Refs Relationship PropertyRules.
Import Verif.Model.Rules.
Local Open Scope string_scope.

(** An entry of data/AdditionalSpecs/BasedOnValue.json: 'Regex' ([""] if there is none), 'Ref', 'GetAtt', 'RequiredProperties' and
    'UnwantedProperties'.  The data is an argument. *)
Record bspec := mkBS {
  bs_regex : string;
  bs_ref : list string;
  bs_getatt : list (string * string);
  bs_required : list string;
  bs_unwanted : list string }.
Definition btable := list (string * list bspec).

Section BasedOn.
(** [matches regex text]: re.match finds a match at the start of the text. *)
Variable matches : string -> string -> bool.
Variable template : val.

(** [cfn.template.get('Resources').get(v, {}).get('Type') in ref], BasedOnValue.py:48; a Type that is no text is in no list of texts. *)
Definition ref_fits (ref : list string) (n : string) : res bool :=
  do rs <- vget "Resources" template;
  do r <- vget_def n (VDict []) rs;
  do t <- vget "Type" r;
  Ok (match t with VStr s => smem s ref | _ => false end).
(** BasedOnValue.py:53-56.  [.get(v[0])] needs a hashable name; [restype in getatt] a hashable type; without a second item
    [v[1]] is an IndexError. *)
Definition getatt_fits (getatt : list (string * string)) (l : list val) : res bool :=
  match l with
  | [] => Err EIndex
  | n :: rest =>
      do rs <- vget "Resources" template;
      do r <- match n, rs with
              | VStr s, _ => vget s rs
              | (VList _ | VDict _), VDict _ => Err ETypeErr
              | _, VDict _ => Ok VNull
              | _, _ => vget "" rs
              end;
      do t <- vget "Type" r;
      match t with
      | VStr s =>
          match assoc s getatt with
          | None => Ok false
          | Some a => match rest with [] => Err EIndex | x :: _ => Ok (eq_str a x) end
          end
      | VList _ | VDict _ => Err ETypeErr
      | _ => Ok false
      end
  end.
(** BasedOnValue._check_value, BasedOnValue.py:34-58. *)
Definition value_fits (v : val) (s : bspec) : res bool :=
  match v with
  | VStr t => Ok (negb (String.eqb (bs_regex s) "") && matches (bs_regex s) t)
  | VDict [(k, x)] =>
      match bs_ref s, x with
      | _ :: _, VStr n =>
          if String.eqb k "Ref" then ref_fits (bs_ref s) n else Ok false
      | _, VList l =>
          match bs_getatt s with
          | _ :: _ => if String.eqb k "Fn::GetAtt" then getatt_fits (bs_getatt s) l else Ok false
          | [] => Ok false
          end
      | _, _ => Ok false
      end
  | _ => Ok false
  end.

Variable order : list string -> list string.
Variable c : conditions.
(** 'RequiredProperties' and [prop not in], or 'UnwantedProperties' and [prop in]; and the words of the message. *)
Variable which : bspec -> list string.
Variable wrong : bool -> bool.
Variable words : string.

(** The messages of BasedOnValue._check_obj, BasedOnValue.py:78-92. *)
Definition based_match (p : path) (sc : option scenario) (k prop : string) : rulematch :=
  mkRM p ("When property '" ++ k ++ "' has its current value property '" ++ prop ++ "' " ++ words ++
          match sc with None => " at " ++ path_text p | Some s => " when " ++ scenario_text s end).
(** One object of BasedOnValue._check_obj, BasedOnValue.py:75-92: [scenario.get('Object').get(k)]. *)
Definition based_set (p : path) (k : string) (s : bspec) (so : option scenario * val) : res (list rulematch) :=
  do v <- vget k (snd so);
  do fits <- value_fits v s;
  Ok (if fits then
        flat_map (fun prop => if wrong (mem_assoc prop (dict_of (snd so))) then [based_match p (fst so) k prop] else []) (which s)
      else []).
(** BasedOnValue._check_obj, BasedOnValue.py:64-94. *)
Definition based_spec (props : val) (p : path) (k : string) (s : bspec) : res (list rulematch) :=
  match which s with
  | [] => Ok []
  | ps =>
      do sets <- get_object_without_conditions order c props (k :: ps);
      concat_res (based_set p k s) sets
  end.
Definition based_check (props : val) (specs : btable) (p : path) : res (list rulematch) :=
  concat_res (fun kv => concat_res (based_spec props p (fst kv)) (snd kv)) specs.
End BasedOn.

(** * The rules as the collection holds them *)
Section Records.
Variable matches : string -> string -> bool.
Variable hash : val -> string.
Variable order : list string -> list string.
Variable fuel : nat.
(** The types with such an entry, BasedOnValue.py:23-32 (a type is listed once per entry there). *)
Definition based_types (which : bspec -> list string) (tables : list (string * btable)) : list string :=
  keys (filter (fun t => existsb (fun kv => existsb (fun s => match which s with [] => false | _ => true end) (snd kv)) (snd t)) tables).
(** BasedOnValue.match_resource_properties and match_resource_sub_properties, BasedOnValue.py:96-127. *)
Definition based_rule (id : string) (which : bspec -> list string) (wrong : bool -> bool) (words : string)
    (resource_types property_types : list (string * btable)) : rule :=
  mkRule id false [] [] (based_types which resource_types) (based_types which property_types)
    (fun _ => ([], [])) None
    (Some (fun _ c props rt p =>
       if is_null props then Ok []
       else based_check matches (template c) order (load hash fuel (template c)) which wrong words props (table_of rt resource_types) p))
    (Some (fun _ c props pt p =>
       if is_null props then Ok []
       else based_check matches (template c) order (load hash fuel (template c)) which wrong words props (table_of pt property_types) p)).
(** RequiredBasedOnValue.py:8-19 and UnwantedBasedOnValue.py:8-19. *)
Definition required_based_rule := based_rule "E3017" bs_required negb "should be specified".
Definition unwanted_based_rule := based_rule "E3018" bs_unwanted (fun b => b) "should not be specified".
End Records.
