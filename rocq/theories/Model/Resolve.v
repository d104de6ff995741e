(** Model of the condition-resolving methods of Template (src/cfnlint/template.py:584-945).

    Python's None is [VNull].  Python sets are lists without repeats; where a set is turned into a list or iterated the
    order is the argument [order].  Results carry no positions: the node classes' marks are not modelled here. *)
From Verif.Model Require Import Base Helpers Conditions Search.

(** [scenario.get(key, None)]: unhashable keys raise TypeError; keys that are no strings are not in a scenario. *)
Definition scenario_get (sc : scenario) (key : val) : res (option bool) :=
  match key with
  | VStr s => Ok (match assoc s sc with Some b => b | None => None end)
  | VList _ | VDict _ => Err ETypeErr
  | _ => Ok None
  end.

Definition is_novalue (k : string) (x : val) : bool := String.eqb k "Ref" && eq_str "AWS::NoValue" x.

(** The branch of {'Fn::If': 'xyz'}: [if_values] may also be a string of three characters. *)
Definition resolve_if_string (sc : scenario) (v : val) (s : string) : val :=
  match s with
  | String a (String b (String c EmptyString)) =>
      match assoc (String a "") sc with
      | Some (Some true) => VStr (String b "")
      | Some (Some false) => VStr (String c "")
      | _ => v
      end
  | _ => v
  end.

(** get_value of get_value_from_scenario, template.py:686-713. *)
Fixpoint resolve_value (sc : scenario) (v : val) {struct v} : res val :=
  match v with
  | VDict [(k, x)] =>
      if String.eqb k "Fn::If" then
        match x with
        | VList [c; t; e] =>
            do p <- scenario_get sc c;
            match p with
            | Some true => resolve_value sc t
            | Some false => resolve_value sc e
            | None => Ok v
            end
        | VList _ => Ok v
        | VStr s => Ok (resolve_if_string sc v s)
        | VDict d => if Nat.eqb (List.length d) 3 then Err EKey else Ok v
        | _ => Err ETypeErr
        end
      else if is_novalue k x then Ok VNull else Ok v
  | VList l =>
      do l' <- (fix go (l : list val) : res (list val) :=
                  match l with
                  | [] => Ok []
                  | x :: xs => do y <- resolve_value sc x; do ys <- go xs; Ok (if is_null y then ys else y :: ys)
                  end) l;
      Ok (VList l')
  | _ => Ok v
  end.

(** The loop of get_value_from_scenario over the members, template.py:725-733. *)
Fixpoint resolve_members (sc : scenario) (d acc : list (string * val)) : res (list (string * val)) :=
  match d with
  | [] => Ok acc
  | (k, x) :: d' =>
      do y <- resolve_value sc x;
      resolve_members sc d' (if is_null y then acc else set_assoc k y acc)
  end.

(** get_value_from_scenario, template.py:681-733.  [obj.start_mark] exists on dict, list and string nodes only. *)
Definition get_value_from_scenario (obj : val) (sc : scenario) : res val :=
  match obj with
  | VDict [(k, x)] =>
      if String.eqb k "Fn::If" && truthy x then
        do y <- resolve_value sc obj;
        Ok (if is_null y then VDict [] else y)
      else rmap VDict (resolve_members sc [(k, x)] [])
  | VDict d => rmap VDict (resolve_members sc d [])
  | VList _ | VStr _ => Ok (VDict [])
  | _ => Err EAttribute
  end.

Definition set_union (a b : list string) : list string := fold_left (fun s x => set_add x s) b a.

(** get_conditions_from_property, template.py:823-840. *)
Fixpoint property_conditions (v : val) : list string :=
  match v with
  | VDict [(k, x)] =>
      if String.eqb k "Fn::If" then
        match x with
        | VList [VStr c; t; e] => set_union (set_union [c] (property_conditions t)) (property_conditions e)
        | _ => []
        end
      else []
  | VList l =>
      (fix go (l : list val) (acc : list string) : list string :=
         match l with [] => acc | x :: xs => go xs (set_union acc (property_conditions x)) end) l []
  | _ => []
  end.

(** The members called Fn::If of the branches of a conditional object, template.py:852-856. *)
Definition branch_conditions (branch : val) (acc : list string) : list string :=
  match branch with
  | VDict d =>
      fold_left (fun acc kv => if String.eqb (fst kv) "Fn::If"
                               then set_union acc (property_conditions (VDict [kv])) else acc) d acc
  | _ => acc
  end.

(** The names [con] collected from one object, template.py:847-859; the Boolean says whether all of them are strings
    (a name that is another hashable value never is a condition, so get_scenarios returns [] for it). *)
Definition object_conditions (obj : val) : res (list string * bool) :=
  let members d := fold_left (fun acc kv => set_union acc (property_conditions (snd kv))) d [] in
  match obj with
  | VDict [(k, x)] =>
      if String.eqb k "Fn::If" then
        match x with
        | VList [c; t; e] =>
            match c with
            | VStr s => Ok (branch_conditions e (branch_conditions t [s]), true)
            | VList _ | VDict _ => Err ETypeErr
            | _ => Ok (branch_conditions e (branch_conditions t []), false)
            end
        | VList _ => Ok (property_conditions x, true)
        | VStr (String a (String _ (String _ EmptyString))) => Ok ([String a ""], true)
        | VStr _ => Ok ([], true)
        | VDict d => if Nat.eqb (List.length d) 3 then Err EKey else Ok (property_conditions x, true)
        | _ => Err ETypeErr
        end
      else Ok (property_conditions x, true)
  | VDict d => Ok (members d, true)
  | _ => Ok ([], true)
  end.

Section Scenarios.
Variable order : list string -> list string.
Variable c : conditions.

(** get_conditions_scenarios_from_object, template.py:819-860, on a list of objects. *)
Fixpoint objects_conditions (objs : list val) (acc : list string) (strings : bool) : res (list string * bool) :=
  match objs with
  | [] => Ok (acc, strings)
  | o :: rest =>
      do r <- object_conditions o;
      objects_conditions rest (set_union acc (fst r)) (strings && snd r)
  end.
Definition get_conditions_scenarios_from_object (objs : list val) : res (list scenario) :=
  do r <- objects_conditions objs [] true;
  if snd r then get_scenarios order c (order (fst r)) else Ok [].

(** The part of the object whose conditions are looked at, template.py:766-772. *)
Definition selected (obj : val) (property_names : list string) : res val :=
  match property_names with
  | [] => Ok obj
  | _ =>
      match obj with
      | VDict d =>
          Ok (VDict (fold_left (fun o p => set_assoc p (match assoc p d with Some x => x | None => VNull end) o)
                               property_names []))
      | VStr _ | VList _ => Err ETemplateAttribute
      | _ => Err EAttribute
      end
  end.

(** get_object_without_conditions, template.py:735-797. *)
Fixpoint resolve_all (obj : val) (scs : list scenario) : res (list (option scenario * val)) :=
  match scs with
  | [] => Ok []
  | sc :: rest =>
      do o <- get_value_from_scenario obj sc;
      do r <- resolve_all obj rest;
      Ok (if truthy o then (Some sc, o) :: r else r)
  end.
Definition get_object_without_conditions (obj : val) (property_names : list string)
  : res (list (option scenario * val)) :=
  do o <- selected obj property_names;
  do scs <- get_conditions_scenarios_from_object [o];
  match obj with
  | VDict d =>
      match scs with
      | [] =>
          match d with
          | [(k, x)] => if is_novalue k x then Ok [] else Ok [(None, obj)]
          | _ => Ok [(None, obj)]
          end
      | _ => resolve_all obj scs
      end
  | _ => Ok []
  end.
End Scenarios.

(** * Conditions met along a path *)

(** A set of Booleans, and a dict from condition names to such sets: {'c': {True}}.  Names that are hashable but no
    strings never are conditions; the second component says whether all names are strings. *)
Record taken := mkTaken { t_true : bool; t_false : bool }.
Definition taken_union (a b : taken) : taken := mkTaken (t_true a || t_true b) (t_false a || t_false b).
Definition taken_in (x : option bool) (t : taken) : bool :=
  match x with Some true => t_true t | Some false => t_false t | None => false end.
Definition conds : Type := list (string * taken) * bool.
Definition no_conds : conds := ([], true).
Definition add_taken (k : string) (t : taken) (r : list (string * taken)) : list (string * taken) :=
  match assoc k r with Some t' => set_assoc k (taken_union t' t) r | None => set_assoc k t r end.
(** template.py:932-935. *)
Definition add_conds (r child : conds) : conds :=
  (fold_left (fun r kt => add_taken (fst kt) (snd kt) r) (fst child) (fst r), snd r && snd child).

(** get_condition_name, template.py:900-915. *)
Definition condition_name (value : val) (t : taken) : res conds :=
  match value with
  | VList [c; _; _] =>
      match c with
      | VStr s => Ok ([(s, t)], true)
      | VList _ | VDict _ => Err ETypeErr
      | _ => Ok ([], false)
      end
  | _ => Ok no_conds
  end.

(** [text[path[0]]], template.py:931. *)
Definition step (text : val) (p : pelem) : res val :=
  match text, p with
  | VDict d, PKey k => match assoc k d with Some x => Ok x | None => Err EKey end
  | VDict _, PIdx _ => Err EKey
  | VList l, PIdx n => match nth_error l n with Some x => Ok x | None => Err EIndex end
  | VStr s, PIdx n => match String.get n s with Some a => Ok (VStr (String a "")) | None => Err EIndex end
  | _, _ => Err ETypeErr
  end.

(** What the If at the root of the path contributes, template.py:918-926. *)
Definition root_condition (text : val) (p : path) (only_last : bool) : res conds :=
  match p with
  | PKey k :: rest =>
      if String.eqb k "Fn::If" && (match rest with [] => true | _ => false end || negb only_last) then
        do condition <- vget "Fn::If" text;
        match rest with
        | [] => condition_name condition (mkTaken true true)
        | PIdx 1 :: _ => condition_name condition (mkTaken true false)
        | PIdx 2 :: _ => condition_name condition (mkTaken false true)
        | _ => Ok no_conds
        end
      else Ok no_conds
  | _ => Ok no_conds
  end.

(** _get_conditions_from_path, template.py:886-940: a KeyError ends the walk with what was found so far.  An empty path
    raises IndexError. *)
Fixpoint conditions_from_path (text : val) (p : path) (include_if_in_function only_last : bool) : res conds :=
  match p with
  | [] => Err EIndex
  | pe :: rest =>
      match root_condition text p only_last with
      | Err e => Err e
      | Ok r =>
          match rest with
          | [] => Ok r
          | _ =>
              if (match pe with PKey k => smem k FUNCTIONS && negb (String.eqb k "Fn::If") | _ => false end)
                 && negb include_if_in_function
              then Ok r
              else
                match step text pe with
                | Err EKey => Ok r
                | Err e => Err e
                | Ok x => do child <- conditions_from_path x rest include_if_in_function only_last; Ok (add_conds r child)
                end
          end
      end
  end.

(** [results[condition].add(True)] for the Condition of a resource or output, template.py:879-882. *)
Definition add_resource_condition (condition : val) (r : conds) : res conds :=
  if truthy condition then
    match condition with
    | VStr s => Ok (add_taken s (mkTaken true false) (fst r), snd r)
    | VList _ | VDict _ => Err ETypeErr
    | _ => Ok (fst r, false)
    end
  else Ok r.

(** get_conditions_from_path, template.py:862-884. *)
Definition get_conditions_from_path (text : val) (p : path) (include_resource include_function only_last : bool)
  : res conds :=
  do r <- conditions_from_path text p include_function only_last;
  if include_resource then
    match p with
    | PKey section :: PKey name :: _ =>
        if smem section ["Resources"; "Outputs"] then
          do s <- vget_def section (VDict []) text;
          do o <- vget_def name (VDict []) s;
          do condition <- vget "Condition" o;
          add_resource_condition condition r
        else Ok r
    | PKey section :: PIdx _ :: _ =>
        if smem section ["Resources"; "Outputs"] then
          do s <- vget_def section (VDict []) text;
          do _ <- vget "" s;
          Ok r
        else Ok r
    | _ => Ok r
    end
  else Ok r.

(** is_resource_available, template.py:584-621, for a resource name that is a string. *)
Definition unavailable (path_conditions : list (string * taken)) (resource_condition : string) (sc : scenario) : bool :=
  match assoc resource_condition sc with Some (Some true) => false | _ => true end &&
  forallb (fun kt => taken_in (match assoc (fst kt) sc with Some b => b | None => None end) (snd kt)) path_conditions.
Definition is_resource_available (order : list string -> list string) (c : conditions) (template : val) (p : path)
    (resource : string) : res (list scenario) :=
  do pc <- get_conditions_from_path template p true true false;
  do rs <- vget_def "Resources" (VDict []) template;
  do r <- vget_def resource (VDict []) rs;
  do rc <- vget "Condition" r;
  if truthy rc then
    match rc with
    | VStr s =>
        if mem_assoc s (fst pc) then Ok []
        else if snd pc then
          do scs <- get_scenarios order c (keys (fst pc) ++ [s]);
          Ok (filter (unavailable (fst pc) s) scs)
        else Ok []
    | VList _ | VDict _ => Err ETypeErr
    | _ => Ok []
    end
  else Ok [].

(** get_condition_scenarios_below_path, template.py:799-817: [results] keeps the keys only (the union of line 813 is
    thrown away, but the values are not read). *)
Fixpoint path_prefix (a b : path) : bool :=
  match a, b with
  | [], _ => true
  | x :: a', y :: b' => pelem_eqb x y && path_prefix a' b'
  | _, [] => false
  end.
Fixpoint below_path (template : val) (p : path) (include_function : bool) (ifs : list path) (acc : conds) : res conds :=
  match ifs with
  | [] => Ok acc
  | q :: rest =>
      if path_prefix p q then
        do r <- get_conditions_from_path template q false include_function false;
        below_path template p include_function rest (add_conds acc r)
      else below_path template p include_function rest acc
  end.
Definition get_condition_scenarios_below_path (order : list string -> list string) (c : conditions)
    (template globals : val) (p : path) (include_function : bool) : res (list scenario) :=
  do r <- below_path template p include_function (map fst (search_deep_keys "Fn::If" template globals)) no_conds;
  if snd r then get_scenarios order c (keys (fst r)) else Ok [].

(** get_value of get_object_without_nested_conditions, template.py:643-671.  Members of dicts that become None stay as
    None. *)
Fixpoint resolve_deep (sc : scenario) (v : val) {struct v} : res val :=
  let members :=
    fix go (d : list (string * val)) : res (list (string * val)) :=
      match d with
      | [] => Ok []
      | (k, x) :: rest => do y <- resolve_deep sc x; do ys <- go rest; Ok ((k, y) :: ys)
      end in
  match v with
  | VDict [(k, x)] =>
      if String.eqb k "Fn::If" then
        match x with
        | VList [c; t; e] =>
            do p <- scenario_get sc c;
            match p with
            | Some true => resolve_deep sc t
            | Some false => resolve_deep sc e
            | None => do d' <- members [(k, x)]; Ok (VDict d')
            end
        | VList _ => do d' <- members [(k, x)]; Ok (VDict d')
        | VStr s => Ok (resolve_if_string sc v s)
        | VDict d => if Nat.eqb (List.length d) 3 then Err EKey else do d' <- members [(k, x)]; Ok (VDict d')
        | _ => Err ETypeErr
        end
      else if is_novalue k x then Ok VNull
      else do d' <- members [(k, x)]; Ok (VDict d')
  | VDict d => do d' <- members d; Ok (VDict d')
  | VList l =>
      do l' <- (fix go (l : list val) : res (list val) :=
                  match l with
                  | [] => Ok []
                  | x :: xs => do y <- resolve_deep sc x; do ys <- go xs; Ok (if is_null y then ys else y :: ys)
                  end) l;
      Ok (VList l')
  | _ => Ok v
  end.

(** get_object_without_nested_conditions, template.py:623-679. *)
Definition get_object_without_nested_conditions (order : list string -> list string) (c : conditions)
    (template globals obj : val) (p : path) : res (list (option scenario * val)) :=
  do scs <- get_condition_scenarios_below_path order c template globals p false;
  if is_dict obj || is_list obj then
    match scs with
    | [] =>
        match obj with
        | VDict [(k, x)] => if is_novalue k x then Ok [] else Ok [(None, obj)]
        | _ => Ok [(None, obj)]
        end
    | _ => map_res (fun sc => rmap (fun o => (Some sc, o)) (resolve_deep sc obj)) scs
    end
  else Ok [].
