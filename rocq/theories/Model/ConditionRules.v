(** Models of the rules about conditions: src/cfnlint/rules/conditions/ (Exists E8002, Used W8001, Configuration E8001, And E8004,
    Not E8005, Or E8006, Equals E8003) and rules/functions/If.py (E1028). *)
From Verif.Model Require Import Base Helpers Search Rules Refs.

Section Rules.
Variable template globals : val.
(** Python's [str()] of a scalar, used when a name that is not a text is put into a message. *)
Variable str_of : val -> string.

(** [x.items()]. *)
Definition items_of (x : val) : res (list (string * val)) :=
  match x with VDict d => Ok d | VStr _ | VList _ => Err ETemplateAttribute | _ => Err EAttribute end.
(** [key in obj] followed by [obj[key]]. *)
Definition member_of (k : string) (obj : val) : res (option val) :=
  match obj with
  | VDict d => Ok (assoc k d)
  | VStr s => if contains_text k s then Err ETypeErr else Ok None
  | VList l => if existsb (eq_str k) l then Err ETypeErr else Ok None
  | _ => Err ETypeErr
  end.

(** [d[key] = path] for a dict whose keys are values; only hashable values can be keys. *)
Fixpoint set_key (k : val) (p : path) (d : list (val * path)) : list (val * path) :=
  match d with
  | [] => [(k, p)]
  | (k', p') :: d' => if py_eq k k' then (k', p) :: d' else (k', p') :: set_key k p d'
  end.
Definition hashable (v : val) : bool := match v with VList _ | VDict _ => false | _ => true end.

(** [text in conditions] for the value of the Conditions section. *)
Definition in_conditions (name conditions : val) : res bool :=
  match conditions with
  | VDict d => Ok (match name with VStr s => mem_assoc s d | _ => false end)
  | VList l => Ok (py_in name l)
  | VStr s => match name with VStr n => Ok (contains_text n s) | _ => Err ETypeErr end
  | _ => Err ETypeErr
  end.

(** Exists.match, Exists.py:25-30.  The recorded path ends in the key 'Fn::If'; the code also appends the argument
    itself, which matches no key or item, so that the location is the same. *)
Fixpoint exists_ifs (l : list (path * val)) (d : list (val * path)) : res (list (val * path)) :=
  match l with
  | [] => Ok d
  | (p, v) :: rest =>
      match v with
      | VList [] => Err EIndex
      | VList (VStr s :: _) => exists_ifs rest (set_key (VStr s) p d)
      | _ => exists_ifs rest d
      end
  end.
(** Exists.py:32-37. *)
Fixpoint exists_resources (rs : list (string * val)) (d : list (val * path)) : res (list (val * path)) :=
  match rs with
  | [] => Ok d
  | (n, x) :: rest =>
      do c <- vget "Condition" x;
      exists_resources rest (match c with VStr s => set_key c [PKey "Resources"; PKey n; PKey "Condition"] d | _ => d end)
  end.
(** Exists.py:39-46. *)
Definition from_conditions (p : path) : bool := match p with PKey k :: _ => String.eqb k "Conditions" | _ => false end.
Fixpoint exists_conditions (l : list (path * val)) (d : list (val * path)) : list (val * path) :=
  match l with
  | [] => d
  | (p, v) :: rest =>
      exists_conditions rest
        (match v with VStr s => if from_conditions p then set_key v [PKey "Conditions"; PKey s] d else d | _ => d end)
  end.
(** Exists.py:48-52.  The path of an output's condition ends in the condition. *)
Fixpoint exists_outputs (os : list (string * val)) (d : list (val * path)) : res (list (val * path)) :=
  match os with
  | [] => Ok d
  | (_, x) :: rest =>
      do c <- member_of "Condition" x;
      match c with
      | None => exists_outputs rest d
      | Some v =>
          if hashable v then
            exists_outputs rest (set_key v [PKey "Outputs"; PKey (match v with VStr s => s | _ => str_of v end)] d)
          else Err ETypeErr
      end
  end.
(** Exists.py:54-63. *)
Definition exists_report (conditions : val) (d : list (val * path)) : res (list rulematch) :=
  concat_res (fun kp =>
    do b <- in_conditions (fst kp) conditions;
    Ok (if b then []
        else [mkRM (snd kp) ("Condition " ++ match fst kp with VStr s => s | v => str_of v end ++ " is not defined.")%string])) d.
Definition exists_match : res (list rulematch) :=
  do conditions <- vget_def "Conditions" (VDict []) template;
  do a <- exists_ifs (search_deep_keys "Fn::If" template globals) [];
  do b <- exists_resources (get_resources template) a;
  let c := exists_conditions (search_deep_keys "Condition" template globals) b in
  do os <- vget_def "Outputs" (VDict []) template;
  do os <- items_of os;
  do d <- exists_outputs os c;
  exists_report conditions d.

(** Used.match, Used.py:18-60. *)
Definition used_ifs (l : list (path * val)) : res (list val) :=
  concat_res (fun pv => match snd pv with VList [] => Err EIndex | VList (x :: _) => Ok [x] | v => Ok [v] end) l.
Definition used_conditions (l : list (path * val)) : list val :=
  flat_map (fun pv => match snd pv with VStr s => if from_conditions (fst pv) then [VStr s] else [] | _ => [] end) l.
Definition used_members (l : list (string * val)) : res (list val) :=
  concat_res (fun nx => do c <- member_of "Condition" (snd nx); Ok (match c with Some v => [v] | None => [] end)) l.
Definition used_match : res (list rulematch) :=
  do conditions <- vget_def "Conditions" (VDict []) template;
  if truthy conditions then
    do a <- used_ifs (search_deep_keys "Fn::If" template globals);
    let b := used_conditions (search_deep_keys "Condition" template globals) in
    do c <- used_members (get_resources template);
    do os <- vget_def "Outputs" (VDict []) template;
    do os <- items_of os;
    do d <- used_members os;
    do cs <- items_of conditions;
    Ok (flat_map (fun nx => if py_in (VStr (fst nx)) (a ++ b ++ c ++ d) then []
                            else [mkRM [PKey "Conditions"; PKey (fst nx)] ("Condition " ++ fst nx ++ " not used")%string]) cs)
  else Ok [].

(** Configuration.match (E8001), Configuration.py:16-53. *)
Definition condition_keys : list string := ["Condition"; "Fn::And"; "Fn::Equals"; "Fn::Not"; "Fn::Or"].
Definition configuration_check (nx : string * val) : list rulematch :=
  let '(n, x) := nx in
  match x with
  | VDict [(k, _)] =>
      if smem k condition_keys then []
      else [mkRM [PKey "Conditions"; PKey n; PKey k] ("Condition " ++ n ++ " has invalid property " ++ k)%string]
  | VDict _ => [mkRM [PKey "Conditions"; PKey n] ("Condition " ++ n ++ " has too many intrinsic conditions")%string]
  | _ => [mkRM [PKey "Conditions"; PKey n] ("Condition " ++ n ++ " has invalid property")%string]
  end.
Definition configuration_match : res (list rulematch) :=
  do conditions <- vget_def "Conditions" (VDict []) template;
  if truthy conditions then do cs <- items_of conditions; Ok (flat_map configuration_check cs) else Ok [].

(** check_condition_list, conditions/common.py:8-57. *)
Definition list_item_check (function : string) (p : path) (iv : nat * val) : list rulematch :=
  match snd iv with
  | VDict [(k, _)] =>
      if smem k ["Fn::And"; "Fn::Or"; "Fn::Not"; "Condition"; "Fn::Equals"] then []
      else [mkRM (p ++ [PIdx (fst iv); PKey k]) (function ++ " list must be another valid condition")%string]
  | _ => [mkRM (p ++ [PIdx (fst iv)]) (function ++ " list must be another valid condition")%string]
  end.
Definition list_check (function : string) (pv : path * val) : list rulematch :=
  let '(p, v) := pv in
  if from_conditions p then
    match v with
    | VList l =>
        if String.eqb function "Fn::Not" && negb (Nat.eqb (List.length l) 1) then
          [mkRM p (function ++ " must be a list of exactly 1 condition")%string]
        else if negb (String.eqb function "Fn::Not") && negb (Nat.leb 2 (List.length l) && Nat.leb (List.length l) 10) then
          [mkRM p (function ++ " must be a list of between 2 to 10 conditions")%string]
        else flat_map (list_item_check function p) (enum l)
    | _ => [mkRM p (function ++ " must be a condition list")%string]
    end
  else [].
Definition check_condition_list (function : string) : list rulematch :=
  flat_map (list_check function) (search_deep_keys function template globals).

(** Equals (E8003), Equals.py:18-86. *)
Definition allowed_functions : list string := ["Ref"; "Fn::FindInMap"; "Fn::Sub"; "Fn::Join"; "Fn::Select"; "Fn::Split"].
Definition allowed_text : string := join_str ", " allowed_functions.
Definition equals_object (valid : list (string * ref_info)) (p : path) (o : list (string * val)) : res (list rulematch) :=
  match o with
  | [(k, v)] =>
      if smem k allowed_functions then
        if String.eqb k "Ref" then
          match v with
          | VStr s =>
              match regex_get valid s with
              | Some i =>
                  if String.eqb (ref_from i) "Parameters" && py_in (ref_type i) (map VStr VALID_PARAMETER_TYPES_LIST) then
                    Ok [mkRM p "Every Fn::Equals object requires a list of 2 string parameters"]
                  else Ok []
              | None => Ok []
              end
          | _ => match valid with [] => Ok [] | _ => Err ETypeErr end
          end
        else Ok []
      else Ok [mkRM (p ++ [PKey k]) ("Fn::Equals element must be a supported function (" ++ allowed_text ++ ")")%string]
  | _ => Ok [mkRM p ("Fn::Equals element must be a supported function (" ++ allowed_text ++ ")")%string]
  end.
Definition equals_operand (valid : list (string * ref_info)) (p : path) (iv : nat * val) : res (list rulematch) :=
  match snd iv with
  | VDict o => equals_object valid (p ++ [PIdx (fst iv)]) o
  | VStr _ | VBool _ | VInt _ | VFloat _ => Ok []
  | _ => Ok [mkRM (p ++ [PIdx (fst iv)])
                  ("Fn::Equals element must be a String, Boolean, Number, or supported function (" ++ allowed_text ++ ")")%string]
  end.
Definition equals_check (valid : list (string * ref_info)) (pv : path * val) : res (list rulematch) :=
  let '(p, v) := pv in
  if from_conditions p then
    match v with
    | VList [a; b] => concat_res (equals_operand valid p) (enum [a; b])
    | _ => Ok [mkRM p "Fn::Equals must be a list of two elements"]
    end
  else Ok [].
Definition equals_match : res (list rulematch) :=
  do valid <- get_valid_refs template;
  concat_res (equals_check valid) (search_deep_keys "Fn::Equals" template globals).

(** If.match (E1028), If.py:18-45. *)
Definition if_check (pv : path * val) : res (list rulematch) :=
  let '(p, v) := pv in
  match v with
  | VList [] => Err EIndex
  | VList (c :: rest) =>
      Ok ((if Nat.eqb (List.length (c :: rest)) 3 then [] else [mkRM p "Fn::If must be a list of 3 elements."]) ++
          (match c with VStr _ => [] | _ => [mkRM (p ++ [PIdx 0]) "Fn::If first element must be a condition and a string."] end))
  | _ => Ok [mkRM p "Fn::If must be a list of 3 elements."]
  end.
Definition if_match : res (list rulematch) := concat_res if_check (search_deep_keys "Fn::If" template globals).
End Rules.
