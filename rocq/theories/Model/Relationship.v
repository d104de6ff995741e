(** Models of rules/functions/RelationshipConditions.py (W1001) and rules/resources/DependsOn.py (E3005). *)
From Verif.Model Require Import Base Helpers Conditions Search Resolve Rules.

Section Rules.
Variable order : list string -> list string.
Variable c : conditions.
Variable template globals : val.

(** ['%s' % v] for the value of a scenario. *)
Definition bool_text (b : option bool) : string :=
  match b with Some true => "True" | Some false => "False" | None => "None" end.
(** RelationshipConditions.py:34-35. *)
Definition scenario_text (sc : scenario) : string :=
  join_str " and " (map (fun kb => ("when condition """ ++ fst kb ++ """ is " ++ bool_text (snd kb))%string) sc).
Definition path_text (p : path) : string := join_str "/" (map str_of_pelem p).

(** [cfn.is_resource_available(obj, value)] where [obj] is a result of search_deep_keys, i.e. [p] followed by the value
    found there (template.py:599-602): only a value that is the text 'Fn::If' matters as a path element. *)
Definition available_at (p : path) (last value : val) : res (list scenario) :=
  let full := match last with VStr s => p ++ [PKey s] | _ => p end in
  match value with
  | VStr s => is_resource_available order c template full s
  | VList _ | VDict _ =>
      do _ <- get_conditions_from_path template full true true false;
      do _ <- vget "Resources" template; Err ETypeErr
  | _ =>
      do _ <- get_conditions_from_path template full true true false;
      do rs <- vget_def "Resources" (VDict []) template;
      do _ <- vget "" rs; Ok []
  end.

Definition is_pseudo (v : val) : bool := match v with VStr s => smem s PSEUDOPARAMS | _ => false end.

(** RelationshipConditions.py:25-43. *)
Definition ref_matches (pv : path * val) : res (list rulematch) :=
  let (p, value) := pv in
  if is_pseudo value then Ok []
  else
    do scs <- available_at p value value;
    Ok (map (fun sc => mkRM p ("Ref to resource """ ++ (match value with VStr s => s | _ => "" end) ++
                               """ that may not be available " ++ scenario_text sc ++ " at " ++ path_text p)%string) scs).

(** RelationshipConditions.py:46-66. *)
Definition getatt_target (v : val) : res val :=
  match v with
  | VList (x :: _) => Ok x
  | VList [] => Err EIndex
  | VStr s => Ok (match split_on "." s with x :: _ => VStr x | [] => VNull end)
  | _ => Ok VNull
  end.
Definition getatt_matches (pv : path * val) : res (list rulematch) :=
  let (p, value_obj) := pv in
  do value <- getatt_target value_obj;
  if truthy value && negb (is_pseudo value) then
    do scs <- available_at p value_obj value;
    Ok (map (fun sc => mkRM p ("GetAtt to resource """ ++ (match value with VStr s => s | _ => "" end) ++
                               """ that may not be available " ++ scenario_text sc ++ " at " ++ path_text p)%string) scs)
  else Ok [].

(** RelationshipConditions.match, RelationshipConditions.py:20-68. *)
Definition relationship_match : res (list rulematch) :=
  do a <- concat_res ref_matches (search_deep_keys "Ref" template globals);
  do b <- concat_res getatt_matches (search_deep_keys "Fn::GetAtt" template globals);
  Ok (a ++ b).

(** [sorted(scenario)], DependsOn.py:32. *)
Fixpoint insert_key (x : string * option bool) (l : scenario) : scenario :=
  match l with
  | [] => [x]
  | y :: l' => if str_leb (fst x) (fst y) then x :: l else y :: insert_key x l'
  end.
Definition sort_scenario (sc : scenario) : scenario := fold_right insert_key [] sc.

(** DependsOn.check_value, DependsOn.py:18-37. *)
Definition depends_check (key : val) (p : path) : res (list rulematch) :=
  match key with
  | VStr s =>
      if mem_assoc s (get_resources template) then
        do scs <- is_resource_available order c template p s;
        Ok (flat_map (fun sc => match sc with
                                | [] => []
                                | _ => [mkRM p ("DependsOn " ++ s ++ " may not exist when condition " ++
                                                scenario_text (sort_scenario sc) ++ " at " ++ path_text p)%string]
                                end) scs)
      else Ok [mkRM p ("DependsOn should reference other resources at " ++ path_text p)%string]
  | _ => Ok [mkRM p ("DependsOn values should be of string at " ++ path_text p)%string]
  end.

(** DependsOn.match, DependsOn.py:39-57. *)
Definition depends_on_resource (nr : string * val) : res (list rulematch) :=
  do depends_ons <- vget "DependsOn" (snd nr);
  let p := [PKey "Resources"; PKey (fst nr); PKey "DependsOn"] in
  if truthy depends_ons then
    match depends_ons with
    | VList l => concat_res (fun iv => depends_check (snd iv) (p ++ [PIdx (fst iv)])) (enum l)
    | _ => depends_check depends_ons p
    end
  else Ok [].
Definition depends_on_match : res (list rulematch) := concat_res depends_on_resource (get_resources template).
End Rules.
