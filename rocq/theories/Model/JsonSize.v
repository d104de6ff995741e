(** Model of rules/resources/properties/JsonSize.py (E3502).  Dates, which the loaders of YAML can give, are not modelled. *)
From Verif.Model Require Import Base Helpers Node Conditions Search Resolve Rules Relationship Parameters JsonDump PropertyRules.
Import Verif.Model.Rules.
Local Open Scope string_scope.

(** [re.sub(r'\${.*}', '', s)], JsonSize.py:49-51: the full stop stands for any character but a line feed, and as many as possible.
    [line_brace s] is the number of characters up to the last closing brace of the line. *)
Fixpoint line_brace (s : string) : option nat :=
  match s with
  | EmptyString => None
  | String a r =>
      if char_eqb a newline then None
      else match line_brace r with
           | Some n => Some (S n)
           | None => if char_eqb a "}" then Some 1 else None
           end
  end.
(** [skip] characters belong to the match. *)
Fixpoint strip (skip : nat) (s : string) : string :=
  match s with
  | EmptyString => ""
  | String a r =>
      match skip with
      | S n => strip n r
      | 0 =>
          if char_eqb a "$" then
            match r with
            | String b t => if char_eqb b "{" then match line_brace t with Some n => strip (S n) r | None => String a (strip 0 r) end else String a (strip 0 r)
            | EmptyString => String a (strip 0 r)
            end
          else String a (strip 0 r)
      end
  end.
Definition sub_text (v : val) : res val := match v with VStr s => Ok (VStr (strip 0 s)) | _ => Err ETypeErr end.
(** remove_functions, JsonSize.py:40-66. *)
Fixpoint remove_functions (v : val) : res val :=
  let members :=
    fix go (d : list (string * val)) : res (list (string * val)) :=
      match d with
      | [] => Ok []
      | (k, x) :: rest => do y <- remove_functions x; do ys <- go rest; Ok ((k, y) :: ys)
      end in
  match v with
  | VDict [(k, x)] =>
      if smem k FUNCTIONS then
        if String.eqb k "Fn::Sub" then
          match x with
          | VStr _ => sub_text x
          | VList (y :: _) => sub_text y
          | VList [] => Err EIndex
          | _ => Ok v
          end
        else Ok v
      else do y <- remove_functions x; Ok (VDict [(k, y)])
  | VDict d => do d' <- members d; Ok (VDict d')
  | VList l =>
      do l' <- (fix go (l : list val) : res (list val) := match l with [] => Ok [] | x :: xs => do y <- remove_functions x; do ys <- go xs; Ok (y :: ys) end) l;
      Ok (VList l')
  | _ => Ok v
  end.

Section Size.
(** The text of a float. *)
Variable float_text : Q -> string.
(** [json.dumps(value, separators=(',', ':'))]. *)
Fixpoint compact (v : val) : string :=
  match v with
  | VNull => "null"
  | VBool true => "true"
  | VBool false => "false"
  | VInt z => str_of_Z z
  | VFloat q => float_text q
  | VStr s => quote s
  | VList l => "[" ++ join_str "," (map compact l) ++ "]"
  | VDict d => "{" ++ join_str "," (map (fun kv => quote (fst kv) ++ ":" ++ compact (snd kv)) d) ++ "}"
  end.
(** The message of JsonSize.check_value, JsonSize.py:73-86; scenario_text has the word when, which the message has too. *)
Definition json_message (limit : Z) (s : option scenario) : string :=
  "Role trust policy JSON text cannot be longer than " ++ str_of_Z limit ++ " characters" ++
  match s with
  | Some (x :: sc) => " when " ++ scenario_text (x :: sc)
  | _ => ""
  end.
(** The loop of JsonSize.check_value, JsonSize.py:70-86.  [limit] is the JsonMax of the value type; a number is not compared with None. *)
Definition json_set (p : path) (prop : string) (limit : option Z) (so : option scenario * val) : res (list rulematch) :=
  do x <- item_of (snd so) prop;
  do y <- remove_functions x;
  match limit with
  | None => Err ETypeErr
  | Some n => Ok (if (n <? Z.of_nat (String.length (compact y)))%Z then [mkRM (p ++ [PKey prop])%list (json_message n (fst so))] else [])
  end.
Definition json_value (order : list string -> list string) (c : conditions) (template globals v : val) (p : path) (prop : string) (limit : option Z) : res (list rulematch) :=
  do sets <- get_object_without_nested_conditions order c template globals v p;
  concat_res (json_set p prop limit) sets.
(** JsonSize.check, JsonSize.py:90-108.  [json_max] gives the JsonMax of a value type. *)
Definition json_check (order : list string -> list string) (c : conditions) (template globals : val) (json_max : string -> option Z)
    (props : val) (specs : pspecs) (p : path) : res (list rulematch) :=
  per_property props specs p (fun v q prop ps =>
    match ps_value ps with
    | [] => Ok []
    | _ => if opt_eqb (ps_primitive ps) "Json" then json_value order c template globals v q prop (json_max (value_type "ValueType" ps)) else Ok []
    end).
(** The rule: initialize, match_resource_properties and match_resource_sub_properties, JsonSize.py:26-31 and 110-128. *)
Definition json_rule (hash : val -> string) (order : list string -> list string) (fuel : nat) (globals : val) (rs : rspec) (json_max : string -> option Z) : rule :=
  mkRule "E3502" false [] [] [] []
    (fun _ => (keys (rs_resource_types rs), keys (rs_property_types rs))) None
    (Some (fun _ c props rt p => json_check order (load hash fuel (template c)) (template c) globals json_max props (specs_of rt (rs_resource_types rs)) p))
    (Some (fun _ c props pt p => json_check order (load hash fuel (template c)) (template c) globals json_max props (specs_of pt (rs_property_types rs)) p)).
End Size.
