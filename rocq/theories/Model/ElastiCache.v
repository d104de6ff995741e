(** Model of rules/resources/elasticache/CacheClusterFailover.py (E3026). *)
From Coq Require Import QArith.
From Verif.Model Require Import Base Helpers Node Conditions Search Resolve Rules Relationship PropertyRules.
Import Verif.Model.Rules.
Local Open Scope string_scope.

(** get_value of get_value_from_scenario with the scenario None, template.py:686-713: [scenario.get] raises AttributeError
    as soon as there is an Fn::If of length three. *)
Definition three_long (x : val) : res bool :=
  match x with
  | VList l => Ok (Nat.eqb (List.length l) 3)
  | VDict d => Ok (Nat.eqb (List.length d) 3)
  | VStr s => Ok (Nat.eqb (String.length s) 3)
  | _ => Err ETypeErr
  end.
Fixpoint unresolved_value (v : val) : res val :=
  match v with
  | VDict [(k, x)] =>
      if String.eqb k "Fn::If" then do b <- three_long x; if b then Err EAttribute else Ok v
      else if is_novalue k x then Ok VNull else Ok v
  | VList l =>
      do l' <- (fix go (l : list val) : res (list val) :=
                  match l with
                  | [] => Ok []
                  | x :: xs => do y <- unresolved_value x; do ys <- go xs; Ok (if is_null y then ys else y :: ys)
                  end) l;
      Ok (VList l')
  | _ => Ok v
  end.
Fixpoint unresolved_members (d acc : list (string * val)) : res (list (string * val)) :=
  match d with
  | [] => Ok acc
  | (k, x) :: d' => do y <- unresolved_value x; unresolved_members d' (if is_null y then acc else set_assoc k y acc)
  end.
(** get_value_from_scenario with the scenario None, template.py:681-733. *)
Definition get_value_without_scenario (obj : val) : res val :=
  match obj with
  | VDict [(k, x)] =>
      if String.eqb k "Fn::If" && truthy x then
        do y <- unresolved_value obj;
        Ok (if is_null y then VDict [] else y)
      else rmap VDict (unresolved_members [(k, x)] [])
  | VDict d => rmap VDict (unresolved_members d [])
  | VList _ | VStr _ => Ok (VDict [])
  | _ => Err EAttribute
  end.
Definition scenario_value (obj : val) (sc : option scenario) : res val :=
  match sc with Some s => get_value_from_scenario obj s | None => get_value_without_scenario obj end.

(** CacheClusterFailover.is_cluster_enabled, CacheClusterFailover.py:25-32. *)
Definition is_cluster_enabled (v : val) : bool :=
  match v with
  | VDict d => existsb (fun kx => String.eqb (fst kx) "cluster-enabled" && eq_str "yes" (snd kx)) d
  | _ => false
  end.
(** [num_cache_nodes <= 1], CacheClusterFailover.py:65. *)
Definition at_most_one (v : val) : res bool :=
  match v with
  | VBool _ => Ok true
  | VInt z => Ok (Z.leb z 1)
  | VFloat q => Ok (Qle_bool q 1)
  | _ => Err ETypeErr
  end.
(** [c_value not in pg_conditions.get(c_name)] for some condition of the scenario, CacheClusterFailover.py:40-44. *)
Definition rules_out (pc : list (string * taken)) (sc : option scenario) : bool :=
  match sc with
  | Some s => existsb (fun cb => match assoc (fst cb) pc with Some t => negb (taken_in (snd cb) t) | None => false end) s
  | None => false
  end.
Definition cluster_words (key : string) : string :=
  if String.eqb key "AutomaticFailoverEnabled" then """AutomaticFailoverEnabled"" must be misssing or True when setting up a cluster"
  else """NumCacheClusters"" must be greater than one when creating a cluster".
Definition cluster_found (p : path) (sc : option scenario) (key : string) : rulematch :=
  let q := (p ++ [PKey key])%list in
  mkRM q (cluster_words key ++ (match sc with Some s => " when " ++ scenario_text s | None => "" end) ++ " at " ++ path_text q).

(** CacheClusterFailover._test_cluster_settings, CacheClusterFailover.py:34-78.  What [scenario_value] yields for properties that
    have a CacheParameterGroupName is an object. *)
Definition cluster_scenario (template props : val) (p : path) (group : val) (group_path : path) (sc : option scenario) : res (list rulematch) :=
  do pc <- get_conditions_from_path template group_path true true false;
  if rules_out (fst pc) sc then Ok []
  else
    do g <- scenario_value group sc;
    if is_cluster_enabled g then
      do o <- scenario_value props sc;
      match o with
      | VDict d =>
          let get k := match assoc k d with Some x => x | None => VNull end in
          let failover := if bool_compare (get "AutomaticFailoverEnabled") (VBool false) then [cluster_found p sc "AutomaticFailoverEnabled"] else [] in
          if truthy (get "NumNodeGroups") then Ok failover
          else
            do few <- at_most_one (match assoc "NumCacheClusters" d with Some x => x | None => VInt 0 end);
            Ok (failover ++ (if few then [cluster_found p sc "NumCacheClusters"] else []))%list
      | _ => Err EAttribute
      end
    else Ok [].

Section Group.
Variable order : list string -> list string.
Variable c : conditions.
(** CacheClusterFailover.test_cluster_settings, CacheClusterFailover.py:80-97. *)
Definition cluster_group (template props : val) (p : path) (name : string) (group_path : path) : res (list rulematch) :=
  do rs <- vget_def "Resources" (VDict []) template;
  do r <- vget_def name (VDict []) rs;
  do ps <- vget_def "Properties" (VDict []) r;
  do group <- vget_def "Properties" (VDict []) ps;
  do scs <- get_conditions_scenarios_from_object order c [props; group];
  match scs with
  | [] => cluster_scenario template props p group group_path None
  | _ => concat_res (fun s => cluster_scenario template props p group group_path (Some s)) scs
  end.
(** The body of the loops of CacheClusterFailover.match_resource_properties, CacheClusterFailover.py:104-115. *)
Definition cluster_member (template props : val) (p : path) (group_path : path) (kx : string * val) : res (list rulematch) :=
  if String.eqb (fst kx) "Ref" then
    match snd kx with
    | VStr name => if mem_assoc name (get_resources template) then cluster_group template props p name group_path else Ok []
    | VList _ | VDict _ => Err ETypeErr
    | _ => Ok []
    end
  else Ok [].
Definition cluster_match (template : val) (props : val) (p : path) : res (list rulematch) :=
  match props with
  | VDict d =>
      do groups <- get_safe d "CacheParameterGroupName" (VStr "") p None;
      concat_res (fun wq => match fst wq with
                            | VDict e => concat_res (cluster_member template props p (snd wq)) e
                            | _ => Ok []
                            end) groups
  | VStr _ | VList _ => Err ETemplateAttribute
  | _ => Err EAttribute
  end.
End Group.
Definition cluster_rule (hash : val -> string) (order : list string -> list string) (fuel : nat) : rule :=
  mkRule "E3026" false [] [] ["AWS::ElastiCache::ReplicationGroup"] [] (fun _ => ([], [])) None
    (Some (fun _ c props _ p => cluster_match order (load hash fuel (template c)) (template c) props p)) None.
