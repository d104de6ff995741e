(** Models of rules about parameters: parameters/Default.py (E2015) and parameters/Used.py (W2001). *)
From Verif.Model Require Import Base Helpers Rules Search Refs ConditionRules Limits.

(** isinstance(v, six.integer_types), with the integer it stands for. *)
Definition int_of (v : val) : option Z :=
  match v with VInt z => Some z | VBool b => Some (if b then 1 else 0)%Z | _ => None end.

(** [v in container]. *)
Definition py_member (v container : val) : res bool :=
  match container with
  | VList l => Ok (py_in v l)
  | VDict d => match v with VStr s => Ok (mem_assoc s d) | VList _ | VDict _ => Err ETypeErr | _ => Ok false end
  | VStr s => match v with VStr t => Ok (contains_text t s) | _ => Err ETypeErr end
  | _ => Err ETypeErr
  end.

Section Default.
(** [str(v)] of values other than texts, integers and booleans, and [re.match(pattern, text)]: [None] for a pattern that
    Python cannot compile (re.error). *)
Variable str_other : val -> string.
Variable re_match : string -> string -> option bool.

(** check_allowed_pattern, Default.py:19-31. *)
Definition check_allowed_pattern (value pattern : val) (p : path) : res (list rulematch) :=
  match pattern with
  | VStr r => Ok (match re_match r (py_str str_other value) with
                  | Some false => [mkRM p "Default should be allowed by AllowedPattern"]
                  | _ => []
                  end)
  | _ => Err ETypeErr
  end.
(** check_min_value and check_max_value, Default.py:33-55. *)
Definition check_min_value (value bound : val) (p : path) : list rulematch :=
  match int_of value, int_of bound with
  | Some v, Some b => if Z.ltb v b then [mkRM p "Default should be equal to or higher than MinValue"] else []
  | _, _ => []
  end.
Definition check_max_value (value bound : val) (p : path) : list rulematch :=
  match int_of value, int_of bound with
  | Some v, Some b => if Z.ltb b v then [mkRM p "Default should be less than or equal to MaxValue"] else []
  | _, _ => []
  end.
(** check_allowed_values, Default.py:57-66. *)
Definition check_allowed_values (value allowed : val) (p : path) : res (list rulematch) :=
  do b <- py_member value allowed;
  Ok (if b then [] else [mkRM p "Default should be a value within AllowedValues"]).
(** check_min_length and check_max_length, Default.py:68-92. *)
Definition check_min_length (value bound : val) (p : path) : list rulematch :=
  match int_of bound with
  | Some b => if Z.ltb (Z.of_nat (String.length (py_str str_other value))) b
              then [mkRM p "Default should have a length above or equal to MinLength"] else []
  | None => []
  end.
Definition check_max_length (value bound : val) (p : path) : list rulematch :=
  match int_of bound with
  | Some b => if Z.ltb b (Z.of_nat (String.length (py_str str_other value)))
              then [mkRM p "Default should have a length below or equal to MaxLength"] else []
  | None => []
  end.
(** The body of the loop of Default.match, Default.py:97-144. *)
Definition default_one (nx : string * val) : res (list rulematch) :=
  do v <- vget "Default" (snd nx);
  if is_null v then Ok []
  else
    let p := [PKey "Parameters"; PKey (fst nx); PKey "Default"] in
    do pattern <- vget "AllowedPattern" (snd nx);
    do m1 <- (if truthy pattern then check_allowed_pattern v pattern p else Ok []);
    do min_value <- vget "MinValue" (snd nx);
    let m2 := if truthy min_value then check_min_value v min_value p else [] in
    do max_value <- vget "MaxValue" (snd nx);
    let m3 := if is_null max_value then [] else check_max_value v max_value p in
    do allowed <- vget "AllowedValues" (snd nx);
    do m4 <- (if truthy allowed then check_allowed_values v allowed p else Ok []);
    do min_length <- vget "MinLength" (snd nx);
    let m5 := if is_null min_length then [] else check_min_length v min_length p in
    do max_length <- vget "MaxLength" (snd nx);
    let m6 := if is_null max_length then [] else check_max_length v max_length p in
    Ok (m1 ++ m2 ++ m3 ++ m4 ++ m5 ++ m6).
(** Default.match (E2015), Default.py:94-146. *)
Definition default_match (template : val) : res (list rulematch) :=
  do ps <- get_parameters template;
  do ps <- items_of ps;
  concat_res default_one ps.
End Default.

(** Template.get_sub_parameters, template.py:453-462: the matches of r'\${[^!].*?}' without their first two and their last
    character, stripped.  [up_to_brace] reads '.*?}', [placeholder_at] a match at the beginning of a text. *)
Definition newline : ascii := "010".
Fixpoint up_to_brace (s : string) : option string :=
  match s with
  | EmptyString => None
  | String a s' => if char_eqb a "}" then Some "" else if char_eqb a newline then None else option_map (String a) (up_to_brace s')
  end.
Definition placeholder_at (s : string) : option string :=
  match s with
  | String a (String b (String c s')) =>
      if char_eqb a "$" && char_eqb b "{" && negb (char_eqb c "!") then option_map (String c) (up_to_brace s') else None
  | _ => None
  end.
(** findall: after a match the search goes on behind it ([skip] characters are left to skip). *)
Fixpoint find_placeholders (s : string) (skip : nat) : list string :=
  match s with
  | EmptyString => []
  | String _ s' =>
      match skip with
      | S k => find_placeholders s' k
      | O => match placeholder_at s with
             | Some x => x :: find_placeholders s' (2 + String.length x)
             | None => find_placeholders s' 0
             end
      end
  end.
(** str.strip(); the white space among the ASCII characters. *)
Definition is_space (a : ascii) : bool := in_range 9 13 a || in_range 28 32 a.
Fixpoint lstrip (s : string) : string :=
  match s with String a s' => if is_space a then lstrip s' else s | EmptyString => "" end.
Fixpoint rstrip (s : string) : string :=
  match s with
  | String a s' => match rstrip s' with EmptyString => if is_space a then "" else String a "" | t => String a t end
  | EmptyString => ""
  end.
Definition strip (s : string) : string := rstrip (lstrip s).
Definition get_sub_parameters (s : string) : list string := map strip (find_placeholders s 0).

(** The names in the Fn::Sub trees, Used.py:43-48. *)
Definition sub_names (pv : path * val) : res (list string) :=
  match snd pv with
  | VList [] => Err EIndex
  | VList (VStr s :: _) => Ok (get_sub_parameters s)
  | VList _ => Err ETypeErr
  | VStr s => Ok (get_sub_parameters s)
  | _ => Ok []
  end.
(** Used.match (W2001), parameters/Used.py:34-59.  [pre] is the template before a transform: transform_pre is filled by
    Template.__init__ (template.py:37-41), when there are no Globals yet. *)
Definition parameters_used_match (pre template : val) : res (list rulematch) :=
  let refs := map snd (search_deep_keys "Ref" pre (VDict [])) in
  do subs <- concat_res sub_names (search_deep_keys "Fn::Sub" pre (VDict []));
  do ps <- get_parameters template;
  do ps <- items_of ps;
  Ok (flat_map (fun nx => if existsb (eq_str (fst nx)) refs || smem (fst nx) subs then []
                          else [mkRM [PKey "Parameters"; PKey (fst nx)] ("Parameter " ++ fst nx ++ " not used.")%string]) ps).
