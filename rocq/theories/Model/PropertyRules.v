(** Models of rules on resource properties: rules/resources/properties/Required.py (E3003), Exclusive.py (E2520),
    Inclusive.py (E2521), AtLeastOne.py (E2522), OnlyOne.py (E2523), ListSize.py (E3032), StringSize.py (E3033),
    NumberSize.py (E3034), ListDuplicates.py (E3037), ListDuplicatesAllowed.py (I3037), and Template.check_value
    (template.py:529-582). *)
From Verif.Model Require Import Base Helpers Node Conditions Search Resolve Rules Relationship Parameters JsonDump.

(** What these rules read from the resource specification of a region (RESOURCE_SPECS[region]): for each property of a type
    its 'Required', 'Type', 'PrimitiveType', 'PrimitiveItemType', 'Value' and 'DuplicatesAllowed'; for each value type its
    bounds.  Bounds of numbers come with their text.  The data is an argument of the model. *)
Record pspec := mkPS {
  ps_required : bool;
  ps_type : option string;
  ps_primitive : option string;
  ps_primitive_item : option string;
  ps_value : list (string * string);
  ps_duplicates : option bool }.
Record vspec := mkVS {
  v_list_min : option Z; v_list_max : option Z;
  v_string_min : option Z; v_string_max : option Z;
  v_number_min : option (Q * string); v_number_max : option (Q * string) }.
Definition no_vspec : vspec := mkVS None None None None None None.
Definition pspecs : Type := list (string * pspec).
Record rspec := mkRS {
  rs_resource_types : list (string * pspecs);
  rs_property_types : list (string * pspecs);
  rs_value_types : list (string * vspec) }.

(** [.get(type, {}).get('Properties', {})]. *)
Definition specs_of (t : string) (types : list (string * pspecs)) : pspecs :=
  match assoc t types with Some s => s | None => [] end.
(** [.get('ValueTypes').get(value_type, {})]. *)
Definition value_spec (rs : rspec) (t : string) : vspec :=
  match assoc t (rs_value_types rs) with Some v => v | None => no_vspec end.
(** [specs.get(prop).get('Value', {}).get(key, '')]. *)
Definition value_type (key : string) (ps : pspec) : string :=
  match assoc key (ps_value ps) with Some t => t | None => "" end.

(** [obj.items_safe(path)]: dict_node and list_node have it (node.py:154-180, 216-226), str_node answers with a
    TemplateAttributeError (node.py:42-43), other values with an AttributeError. *)
Definition obj_items_safe (v : val) (p : path) : res (list (val * path)) :=
  match v with
  | VDict _ => Ok (items_safe v p)
  | VList l => Ok (list_items_safe (fun _ => true) l p)
  | VStr _ => Err ETemplateAttribute
  | _ => Err EAttribute
  end.

(** * E3003 *)

(** Required._get_required_attrs_specs, Required.py:37-43. *)
Definition required_attrs (specs : pspecs) : list string := keys (filter (fun kp => ps_required (snd kp)) specs).

(** Required.check_obj, Required.py:45-59. *)
Definition missing_match (p : path) (name : string) : rulematch :=
  mkRM p ("Property " ++ name ++ " missing at " ++ path_text p)%string.
Definition required_obj (required : list string) (vp : val * path) : res (list rulematch) :=
  concat_res (fun name => do b <- py_member (VStr name) (fst vp);
                          Ok (if b then [] else [missing_match (snd vp) name])) required.
Definition required_check (obj : val) (required : list string) (p : path) : res (list rulematch) :=
  do items <- obj_items_safe obj p;
  concat_res (required_obj required) items.

(** Required.match_resource_properties, Required.py:61-77, and match_resource_sub_properties, Required.py:79-90.  The
    types asked for are those of the specification (Required.py:26-35), so [.get(type)] is no None. *)
Definition required_props (rs : rspec) (props : val) (rt : string) (p : path) : res (list rulematch) :=
  if is_null props then Ok []
  else required_check props (required_attrs (specs_of rt (rs_resource_types rs))) p.
Definition required_subs (rs : rspec) (props : val) (pt : string) (p : path) : res (list rulematch) :=
  required_check props (required_attrs (specs_of pt (rs_property_types rs))) p.

(** Required.match, Required.py:92-110: custom resources the specification does not list.  A Type that is no text has no
    startswith.  [self.resourcetypes.get('AWS::CloudFormation::CustomResource')] is taken to be there. *)
Definition required_custom (rs : rspec) (nr : string * val) : res (list rulematch) :=
  match snd nr with
  | VDict attrs =>
      match assoc "Properties" attrs, assoc "Type" attrs with
      | Some props, Some t =>
          match t with
          | VStr rt =>
              if starts_with "Custom::" rt && negb (mem_assoc rt (rs_resource_types rs)) then
                required_check props (required_attrs (specs_of "AWS::CloudFormation::CustomResource" (rs_resource_types rs)))
                  [PKey "Resources"; PKey (fst nr); PKey "Properties"]
              else Ok []
          | VList _ | VDict _ => Err ETemplateAttribute
          | _ => Err EAttribute
          end
      | _, _ => Ok []
      end
  | _ => Ok []
  end.
Definition required_match (rs : rspec) (template : val) : res (list rulematch) :=
  concat_res (required_custom rs) (get_resources template).

(** The rule as the collection holds it (Required.py:10-35). *)
Definition required_rule (rs : rspec) : rule :=
  mkRule "E3003" false [] [] [] []
    (fun _ => (keys (rs_resource_types rs), keys (rs_property_types rs)))
    (Some (fun _ c => required_match rs (template c)))
    (Some (fun _ _ props rt p => required_props rs props rt p))
    (Some (fun _ _ props pt p => required_subs rs props pt p)).

(** * Groups of properties *)

Section Groups.
Variable order : list string -> list string.
Variable c : conditions.

(** [property_set['Object'].clean()]. *)
Definition cleaned (o : val) : res (list (string * val)) :=
  match o with
  | VDict d => Ok (clean d)
  | VStr _ | VList _ => Err ETemplateAttribute
  | _ => Err EAttribute
  end.
(** [''] or the text of the scenario followed by a space. *)
Definition with_scenario (s : option scenario) : string :=
  match s with Some sc => (scenario_text sc ++ " ")%string | None => "" end.

(** Exclusive.check, Exclusive.py:30-56. *)
Definition exclusive_match (p : path) (s : option scenario) (prop excl : string) : rulematch :=
  mkRM (p ++ [PKey prop]) ("Property " ++ excl ++ " should NOT exist with " ++ prop ++ " " ++ with_scenario s ++ "for " ++ path_text p)%string.
Definition exclusive_set (exclusions : list (string * list string)) (p : path) (so : option scenario * val)
  : res (list rulematch) :=
  do obj <- cleaned (snd so);
  Ok (flat_map (fun kv =>
        match assoc (fst kv) exclusions with
        | Some l => flat_map (fun e => if mem_assoc e obj then [exclusive_match p (fst so) (fst kv) e] else []) l
        | None => []
        end) obj).
Definition exclusive_check (props : val) (exclusions : list (string * list string)) (p : path) : res (list rulematch) :=
  do sets <- get_object_without_conditions order c props [];
  concat_res (exclusive_set exclusions p) sets.

(** Inclusive.check, Inclusive.py:30-58. *)
Definition inclusive_match (p : path) (s : option scenario) (prop incl : string) : rulematch :=
  mkRM p ("Property " ++ incl ++ " should exist with " ++ prop ++ " " ++ with_scenario s ++ "for " ++ path_text p)%string.
Definition inclusive_set (inclusions : list (string * list string)) (p : path) (so : option scenario * val)
  : res (list rulematch) :=
  do obj <- cleaned (snd so);
  Ok (flat_map (fun kv =>
        match assoc (fst kv) inclusions with
        | Some l => flat_map (fun e => if mem_assoc e obj then [] else [inclusive_match p (fst so) (fst kv) e]) l
        | None => []
        end) obj).
Definition inclusive_check (props : val) (inclusions : list (string * list string)) (p : path) : res (list rulematch) :=
  if truthy props then
    do sets <- get_object_without_conditions order c props [];
    concat_res (inclusive_set inclusions p) sets
  else Ok [].

(** The counting loop of OnlyOne.check and AtLeastOne.check, OnlyOne.py:39-42. *)
Fixpoint count_in (group : list string) (o : val) : res nat :=
  match group with
  | [] => Ok 0
  | k :: rest => do b <- py_member (VStr k) o; do n <- count_in rest o; Ok (if b then S n else n)
  end.

(** OnlyOne.check, OnlyOne.py:31-62, and AtLeastOne.check, AtLeastOne.py:32-62: they differ in the test of the count
    ([bad]) and in the first words of the message. *)
Definition group_match (words : string) (group : list string) (p q : path) (s : option scenario) : rulematch :=
  mkRM p (words ++ " of [" ++ join_str ", " group ++ "] should be specified " ++
          match s with None => "for " | Some sc => scenario_text sc ++ " at " end ++ path_text q)%string.
Definition group_set (words : string) (bad : nat -> bool) (group : list string) (p q : path) (so : option scenario * val)
  : res (list rulematch) :=
  do n <- count_in group (snd so);
  Ok (if bad n then [group_match words group p q (fst so)] else []).
Definition group_check (words : string) (bad : nat -> bool) (props : val) (groups : list (list string)) (p : path)
  : res (list rulematch) :=
  concat_res (fun group =>
    do items <- obj_items_safe props p;
    concat_res (fun vq =>
      do sets <- get_object_without_conditions order c (fst vq) group;
      concat_res (group_set words bad group p (snd vq)) sets) items) groups.
Definition only_one_check := group_check "Only one" (fun n => negb (Nat.eqb n 1)).
Definition at_least_one_check := group_check "At least one" (fun n => Nat.eqb n 0).

(** * Sizes *)

(** [for prop in p_value]: the keys of a dict, the items of a list, the characters of a text. *)
Fixpoint chars (s : string) : list val :=
  match s with EmptyString => [] | String a s' => VStr (String a "") :: chars s' end.
Definition iter_val (v : val) : res (list val) :=
  match v with
  | VDict d => Ok (map VStr (keys d))
  | VList l => Ok l
  | VStr s => Ok (chars s)
  | _ => Err ETypeErr
  end.
(** The loops these rules share: [for p_value, p_path in properties.items_safe(path[:]): for prop in p_value:
    if prop in specs: ...] (ListSize.py:67-69 and others). *)
Definition per_property (props : val) (specs : pspecs) (p : path)
    (f : val -> path -> string -> pspec -> res (list rulematch)) : res (list rulematch) :=
  do items <- obj_items_safe props p;
  concat_res (fun vq =>
    do ks <- iter_val (fst vq);
    concat_res (fun k =>
      match k with
      | VStr prop => match assoc prop specs with Some ps => f (fst vq) (snd vq) prop ps | None => Ok [] end
      | VList _ | VDict _ => Err ETypeErr
      | _ => Ok []
      end) ks) items.

(** ListSize.check_value, ListSize.py:28-61.  [len(prop)] is compared with the bounds as integers. *)
Definition list_size_match (p : path) (prop : string) (lo hi : Z) (s : option scenario) : rulematch :=
  mkRM (p ++ [PKey prop])
    (prop ++ " has to have between " ++ str_of_Z lo ++ " and " ++ str_of_Z hi ++ " items specified" ++
     match s with Some sc => " when " ++ scenario_text sc | None => "" end)%string.
Definition list_size_set (p : path) (prop : string) (lo hi : Z) (so : option scenario * val) : res (list rulematch) :=
  do v <- vget prop (snd so);
  Ok (match v with
      | VList l => let n := Z.of_nat (List.length l) in
                   if Z.leb lo n && Z.leb n hi then [] else [list_size_match p prop lo hi (fst so)]
      | _ => []
      end).
Definition list_size_value (v : val) (p : path) (prop : string) (vs : vspec) : res (list rulematch) :=
  match v_list_min vs, v_list_max vs with
  | Some lo, Some hi =>
      do sets <- get_object_without_conditions order c v [];
      concat_res (list_size_set p prop lo hi) sets
  | _, _ => Ok []
  end.
(** ListSize.check, ListSize.py:64-83. *)
Definition list_size_check (rs : rspec) (props : val) (specs : pspecs) (p : path) : res (list rulematch) :=
  per_property props specs p (fun v q prop ps =>
    match ps_value ps with
    | [] => Ok []
    | _ =>
        if opt_eqb (ps_type ps) "List" then list_size_value v q prop (value_spec rs (value_type "ListValueType" ps))
        else Ok []
    end).

(** Template.check_value, template.py:529-582.  [handlers]: the functions given for single intrinsic functions, by the name
    of the function; a function without handler is passed over. *)
Definition check_value (obj : val) (key : string) (p : path) (f : val -> path -> res (list rulematch))
    (handlers : list (string * (val -> path -> res (list rulematch)))) : res (list rulematch) :=
  do vs <- get_values obj key (p ++ [PKey key]);
  concat_res (fun qv =>
    match snd qv with
    | VDict [(k, x)] =>
        if smem k FUNCTIONS then
          match assoc k handlers with Some h => h x (fst qv ++ [PKey k]) | None => Ok [] end
        else f (snd qv) (fst qv)
    | v => f v (fst qv)
    end) (match vs with Some l => l | None => [] end).

(** StringSize._check_string_length, StringSize.py:28-44. *)
Definition between_match (words : string) (lo hi : string) (p : path) : rulematch :=
  mkRM p (words ++ " between " ++ lo ++ " and " ++ hi ++ " at " ++ path_text p)%string.
Definition string_length (lo hi : Z) (v : val) (p : path) : res (list rulematch) :=
  Ok (match v with
      | VStr s => let n := Z.of_nat (String.length s) in
                  if Z.leb lo n && Z.leb n hi then []
                  else [between_match "String has to have length" (str_of_Z lo) (str_of_Z hi) p]
      | _ => []
      end).
(** StringSize.check, StringSize.py:46-73: bounds that are 0 count as missing; the values are looked up in [properties],
    not in [p_value]. *)
Definition string_size_check (rs : rspec) (props : val) (specs : pspecs) (p : path) : res (list rulematch) :=
  per_property props specs p (fun v q prop ps =>
    let t := value_type "ValueType" ps in
    if String.eqb t "" then Ok []
    else
      let kind := if opt_eqb (ps_type ps) "List" then ps_primitive_item ps else ps_primitive ps in
      match v_string_max (value_spec rs t), v_string_min (value_spec rs t) with
      | Some hi, Some lo =>
          if negb (Z.eqb hi 0) && negb (Z.eqb lo 0) && opt_eqb kind "String"
          then check_value props prop q (string_length lo hi) [] else Ok []
      | _, _ => Ok []
      end).

(** [float(text)]: None for a ValueError, Some None for nan and the infinities, which no bounds include. *)
Variable py_float : string -> option (option Q).
(** NumberSize._check_number_value, NumberSize.py:28-62. *)
Definition outside (lo hi : Q) (x : option Q) : bool :=
  match x with Some q => negb (Qle_bool lo q && Qle_bool q hi) | None => true end.
Definition number_value (lo hi : Q * string) (v : val) (p : path) : res (list rulematch) :=
  let m := between_match "Value has to be" (snd lo) (snd hi) p in
  Ok (match v with
      | VStr s => match py_float s with
                  | None => [m]
                  | Some x => if outside (fst lo) (fst hi) x then [m] else []
                  end
      | _ => match num_of v with
             | Some q => if outside (fst lo) (fst hi) (Some q) then [m] else []
             | None => []
             end
      end).
(** NumberSize.check, NumberSize.py:64-86. *)
Definition number_size_check (rs : rspec) (props : val) (specs : pspecs) (p : path) : res (list rulematch) :=
  per_property props specs p (fun v q prop ps =>
    let t := value_type "ValueType" ps in
    if String.eqb t "" then Ok []
    else
      match v_number_max (value_spec rs t), v_number_min (value_spec rs t) with
      | Some hi, Some lo =>
          if match ps_primitive ps with Some k => smem k ["Integer"; "Double"; "Long"; "String"] | None => false end
          then check_value props prop q (number_value lo hi) [] else Ok []
      | _, _ => Ok []
      end).

(** * Duplicates *)

(** The SHA-1 digest of a text, as hexadecimal text, and the text of a float. *)
Variable sha1 : string -> string.
Variable float_text : Q -> string.

(** ListDuplicates.py:51-52 (here the word when is in the message, not in the text). *)
Definition plain_scenario_text (sc : scenario) : string :=
  join_str " and " (map (fun kb => ("condition """ ++ fst kb ++ """ is " ++ bool_text (snd kb))%string) sc).
(** ListDuplicates._check_duplicates, ListDuplicates.py:34-60, and ListDuplicatesAllowed._check_duplicates, which has the
    same text.  [not scenario] also holds for an empty scenario. *)
Definition duplicate_match (p : path) (s : option scenario) (i : nat) : rulematch :=
  match s with
  | None | Some [] => mkRM (p ++ [PIdx i]) ("List has a duplicate value at " ++ path_text (p ++ [PIdx i])%list)%string
  | Some sc => mkRM p ("List has a duplicate value at " ++ path_text p ++ " when " ++ plain_scenario_text sc)%string
  end.
Fixpoint duplicates_from (p : path) (s : option scenario) (i : nat) (l : list val) (seen : list string) : list rulematch :=
  match l with
  | [] => []
  | v :: rest =>
      let h := sha1 (dumps float_text v) in
      (if smem h seen then [duplicate_match p s i] else []) ++ duplicates_from p s (S i) rest (seen ++ [h])
  end.
Definition duplicates_in (p : path) (s : option scenario) (v : val) : list rulematch :=
  match v with VList l => duplicates_from p s 0 l [] | _ => [] end.
(** ListDuplicates.check_duplicates, ListDuplicates.py:62-74. *)
Definition check_duplicates (v : val) (p : path) : res (list rulematch) :=
  match v with
  | VList _ => Ok (duplicates_in p None v)
  | VDict _ =>
      do sets <- get_object_without_conditions order c v [];
      Ok (flat_map (fun so => duplicates_in p (fst so) (snd so)) sets)
  | _ => Ok []
  end.
(** ListDuplicates.check, ListDuplicates.py:76-91, and ListDuplicatesAllowed.check: [applies] tells the properties the rule
    looks at.  [p_value[prop]] on a list or text is a TypeError. *)
Definition item_of (v : val) (prop : string) : res val :=
  match v with
  | VDict d => match assoc prop d with Some x => Ok x | None => Err EKey end
  | _ => Err ETypeErr
  end.
Definition duplicates_check (applies : pspec -> bool) (props : val) (specs : pspecs) (p : path) : res (list rulematch) :=
  per_property props specs p (fun v q prop ps =>
    if applies ps then do x <- item_of v prop; check_duplicates x (q ++ [PKey prop]) else Ok []).
(** ListDuplicates.py:83-85. *)
Definition no_duplicates (ps : pspec) : bool :=
  opt_eqb (ps_type ps) "List" && negb (match ps_duplicates ps with Some b => b | None => true end).
(** ListDuplicatesAllowed.py:83-87. *)
Definition duplicates_discouraged (ps : pspec) : bool :=
  opt_eqb (ps_type ps) "List" && (match ps_duplicates ps with Some b => b | None => false end) &&
  match ps_primitive_item ps with Some k => smem k ["String"; "Integer"] | None => false end.
End Groups.

(** * The rules as the collection holds them *)

Section RuleRecords.
Variable hash : val -> string.
Variable order : list string -> list string.
(** Bound of the recursion of the condition loader, see [load]. *)
Variable fuel : nat.

(** A rule whose additional specification maps types to tables: __init__, match_resource_properties and
    match_resource_sub_properties of Exclusive.py, Inclusive.py, OnlyOne.py and AtLeastOne.py ([.get(type, {})]).
    [cfn.conditions] is loaded from the template (template.py:57-58). *)
Definition table_of {A} (t : string) (tables : list (string * list A)) : list A :=
  match assoc t tables with Some x => x | None => [] end.
Definition table_rule {A} (id : string) (resource_types property_types : list (string * list A))
    (check : conditions -> val -> list A -> path -> res (list rulematch)) : rule :=
  mkRule id false [] [] (keys resource_types) (keys property_types)
    (fun _ => ([], [])) None
    (Some (fun _ c props rt p => check (load hash fuel (template c)) props (table_of rt resource_types) p))
    (Some (fun _ c props pt p => check (load hash fuel (template c)) props (table_of pt property_types) p)).
Definition exclusive_rule rt pt := table_rule "E2520" rt pt (exclusive_check order).
Definition inclusive_rule rt pt := table_rule "E2521" rt pt (inclusive_check order).
Definition at_least_one_rule rt pt := table_rule "E2522" rt pt (at_least_one_check order).
Definition only_one_rule rt pt := table_rule "E2523" rt pt (only_one_check order).

(** A rule that looks at all types of the resource specification: initialize, match_resource_properties and
    match_resource_sub_properties of ListSize.py, StringSize.py, NumberSize.py, ListDuplicates.py and
    ListDuplicatesAllowed.py. *)
Definition spec_rule (id : string) (rs : rspec) (check : conditions -> val -> pspecs -> path -> res (list rulematch)) : rule :=
  mkRule id false [] [] [] []
    (fun _ => (keys (rs_resource_types rs), keys (rs_property_types rs))) None
    (Some (fun _ c props rt p => check (load hash fuel (template c)) props (specs_of rt (rs_resource_types rs)) p))
    (Some (fun _ c props pt p => check (load hash fuel (template c)) props (specs_of pt (rs_property_types rs)) p)).
Variable py_float : string -> option (option Q).
Variable sha1 : string -> string.
Variable float_text : Q -> string.
Definition list_size_rule rs := spec_rule "E3032" rs (fun c => list_size_check order c rs).
Definition string_size_rule rs := spec_rule "E3033" rs (fun _ => string_size_check rs).
Definition number_size_rule rs := spec_rule "E3034" rs (fun _ => number_size_check py_float rs).
Definition duplicates_rule rs := spec_rule "E3037" rs (fun c => duplicates_check order c sha1 float_text no_duplicates).
Definition duplicates_allowed_rule rs := spec_rule "I3037" rs (fun c => duplicates_check order c sha1 float_text duplicates_discouraged).
End RuleRecords.
