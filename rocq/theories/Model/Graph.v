(** Model of src/cfnlint/graph.py and rules/resources/CircularDependency.py (E3004).

    Drawing the graph (labels, to_dot) is not modelled.  networkx.find_cycle is the argument [find_cycle]. *)
From Verif.Model Require Import Base Helpers Search.

(** Edges of the networkx.MultiDiGraph: source, target and the key networkx gives to parallel edges (the number of edges
    between the two nodes so far). *)
Notation edge := (string * string * nat)%type.

(** [regex.findall(string)] for r'\${([a-zA-Z0-9.]* )}' (graph.py:113-116): [run s acc] reads the rest of a placeholder. *)
Definition name_char (a : ascii) : bool := is_alnum a || char_eqb a ".".
Fixpoint placeholder (s acc : string) : option string :=
  match s with
  | EmptyString => None
  | String a s' =>
      if char_eqb a "}" then Some acc
      else if name_char a then placeholder s' (acc ++ String a "")%string else None
  end.
(** A match never contains '$' except as its first character, so that searching on from the next character finds the same
    matches as searching on from the end of the match. *)
Fixpoint find_parameter (s : string) : list string :=
  match s with
  | EmptyString => []
  | String a s' =>
      match s' with
      | String b s'' =>
          if char_eqb a "$" && char_eqb b "{" then
            match placeholder s'' "" with Some n => n :: find_parameter s' | None => find_parameter s' end
          else find_parameter s'
      | EmptyString => []
      end
  end.

Section Graph.
Variable template globals : val.

(** [cfn.template.get('Resources', {})], which must have items() or get(). *)
Definition resources_of : res (list (string * val)) :=
  do rs <- vget_def "Resources" (VDict []) template;
  match rs with VDict d => Ok d | VStr _ | VList _ => Err ETemplateAttribute | _ => Err EAttribute end.

(** _is_resource, graph.py:109-111: true for a resource that is not empty. *)
Definition is_resource (rs : list (string * val)) (identifier : val) : res bool :=
  match identifier with
  | VStr s => Ok (match assoc s rs with Some x => truthy x | None => false end)
  | VList _ | VDict _ => Err ETypeErr
  | _ => Ok false
  end.
Definition targets (rs : list (string * val)) (v : val) : list string :=
  match v with VStr s => if match assoc s rs with Some x => truthy x | None => false end then [s] else [] | _ => [] end.

(** The DependsOn edges of one resource, graph.py:24-35. *)
Definition depends_edges (rs : list (string * val)) (nr : string * val) : res (list (string * string)) :=
  do _ <- vget "Type" (snd nr);
  do d <- vget_def "DependsOn" (VList []) (snd nr);
  match d with
  | VList l => Ok (map (fun t => (fst nr, t)) (flat_map (targets rs) l))
  | VStr _ => Ok (map (fun t => (fst nr, t)) (targets rs d))
  | _ => Ok []
  end.

(** [ref_path[:2]] for a path below Resources. *)
Definition source_of (p : path) : option string :=
  match p with PKey r :: PKey s :: _ => if String.eqb r "Resources" then Some s else None | _ => None end.

(** graph.py:38-47. *)
Definition ref_edges (rs : list (string * val)) (pv : path * val) : list (string * string) :=
  match source_of (fst pv) with
  | Some s => map (fun t => (s, t)) (targets rs (snd pv))
  | None => []
  end.

(** graph.py:51-66. *)
Definition getatt_edges (rs : list (string * val)) (pv : path * val) : res (list (string * string)) :=
  match source_of (fst pv) with
  | None => Ok []
  | Some s =>
      match snd pv with
      | VList [x; _] => do b <- is_resource rs x; Ok (if b then map (fun t => (s, t)) (targets rs x) else [])
      | VStr v =>
          if has_char "." v then Ok (map (fun t => (s, t)) (targets rs (match split_on "." v with x :: _ => VStr x | [] => VNull end)))
          else Ok []
      | _ => Ok []
      end
  end.

(** [sub_parameter not in sub_parameter_values], graph.py:90: the values may be a dict, a list or a text. *)
Fixpoint substring_of (p s : string) : bool :=
  String.prefix p s || match s with EmptyString => false | String _ s' => substring_of p s' end.
Definition in_values (name : string) (values : val) : res bool :=
  match values with
  | VDict d => Ok (mem_assoc name d)
  | VList l => Ok (existsb (eq_str name) l)
  | VStr s => Ok (substring_of name s)
  | _ => Err ETypeErr
  end.
Definition sub_target (name : string) : string :=
  if has_char "." name then match split_on "." name with x :: _ => x | [] => name end else name.

(** graph.py:69-94. *)
Definition sub_edges (rs : list (string * val)) (pv : path * val) : res (list (string * string)) :=
  match source_of (fst pv) with
  | None => Ok []
  | Some s =>
      let edges names values :=
        concat_res (fun n => do b <- in_values n values;
                             Ok (if b then [] else map (fun t => (s, t)) (targets rs (VStr (sub_target n))))) names in
      match snd pv with
      | VList [] => Ok []
      | VList (x :: rest) =>
          match x with
          | VStr t => edges (find_parameter t) (match rest with [values] => values | _ => VDict [] end)
          | _ => Err ETypeErr
          end
      | VStr t => edges (find_parameter t) (VDict [])
      | _ => Ok []
      end
  end.

(** [graph.add_edge(u, v)]: the new edge's key. *)
Definition same_ends (u v : string) (e : edge) : bool := String.eqb u (fst (fst e)) && String.eqb v (snd (fst e)).
Definition add_edge (es : list edge) (uv : string * string) : list edge :=
  es ++ [(uv, List.length (filter (same_ends (fst uv) (snd uv)) es))].

(** Graph.__init__, graph.py:18-94. *)
Definition build_graph : res (list edge) :=
  do rs <- resources_of;
  do a <- concat_res (depends_edges rs) rs;
  let b := flat_map (ref_edges rs) (search_deep_keys "Ref" template globals) in
  do c <- concat_res (getatt_edges rs) (search_deep_keys "Fn::GetAtt" template globals);
  do d <- concat_res (sub_edges rs) (search_deep_keys "Fn::Sub" template globals);
  Ok (fold_left add_edge (a ++ b ++ c ++ d) []).

Variable find_cycle : list edge -> string -> option (list edge).

Definition edge_eqb (a b : edge) : bool :=
  String.eqb (fst (fst a)) (fst (fst b)) && String.eqb (snd (fst a)) (snd (fst b)) && Nat.eqb (snd a) (snd b).
(** Graph.get_cycles, graph.py:96-107. *)
Definition add_new (result : list edge) (e : edge) : list edge := if existsb (edge_eqb e) result then result else result ++ [e].
Definition get_cycles (es : list edge) (names : list string) : list edge :=
  fold_left (fun result s => match find_cycle es s with Some cyc => fold_left add_new cyc result | None => result end) names [].

(** CircularDependency.match, CircularDependency.py:18-30. *)
Definition circular_match : res (list rulematch) :=
  do es <- build_graph;
  do rs <- resources_of;
  Ok (map (fun e => mkRM [PKey "Resources"; PKey (fst (fst e))]
                         ("Circular Dependencies for resource " ++ fst (fst e) ++ ". Circular dependency with [" ++
                          snd (fst e) ++ "]")%string)
          (get_cycles es (keys rs))).
End Graph.

(** A search that fits the contract of networkx.find_cycle, used to show that the contract can be met: depth first, [path]
    being the edges walked so far, latest first. *)
Fixpoint cut (u : string) (path : list edge) (acc : list edge) : list edge :=
  match path with
  | [] => acc
  | e :: rest => if String.eqb (fst (fst e)) u then e :: acc else cut u rest (e :: acc)
  end.
Fixpoint dfs (fuel : nat) (es : list edge) (path : list edge) (u : string) : option (list edge) :=
  match fuel with
  | O => None
  | S f =>
      (fix go (out : list edge) : option (list edge) :=
         match out with
         | [] => None
         | e :: rest =>
             if String.eqb (fst (fst e)) u then
               if existsb (fun x => String.eqb (fst (fst x)) (snd (fst e))) (e :: path) then Some (cut (snd (fst e)) (e :: path) [])
               else match dfs f es (e :: path) (snd (fst e)) with Some c => Some c | None => go rest end
             else go rest
         end) es
  end.
Definition find_cycle_dfs (es : list edge) (s : string) : option (list edge) := dfs (S (2 * List.length es)) es [] s.
