(** Model of the parts of src/cfnlint/template.py that search a template and enumerate values. *)
From Verif.Model Require Import Base Node Helpers.

(** Template._search_deep_keys, template.py:283-309.  A result [path + [key, value]] is modelled as the pair
    (path + [key], value).  The loop at lines 298-302 is the one the recursive call performs on a list. *)
Fixpoint search (text : string) (v : val) (p : path) {struct v} : list (path * val) :=
  match v with
  | VDict d =>
      (fix god (d : list (string * val)) : list (path * val) :=
         match d with
         | [] => []
         | (key, x) :: rest =>
             (if String.eqb key text then [(p ++ [PKey key], x)] else []) ++
             search text x (p ++ [PKey key]) ++ god rest
         end) d
  | VList l =>
      (fix gol (i : nat) (l : list val) : list (path * val) :=
         match l with
         | [] => []
         | x :: xs => search text x (p ++ [PIdx i]) ++ gol (S i) xs
         end) 0 l
  | _ => []
  end.
(** Template.search_deep_keys, template.py:311-321: the template and the Globals section removed by a transform
    (empty dict unless there was a transform). *)
Definition search_deep_keys (text : string) (template globals : val) : list (path * val) :=
  search text template [] ++ search text globals [].

(** Template.get_condition_values, template.py:323-361: [t] is the argument list of an Fn::If. *)
Fixpoint condition_values (t : val) (p : path) {struct t} : list (path * val) :=
  match t with
  | VList [_; a; b] =>
      (match a with
       | VDict [(k, sv)] =>
           if smem k CONDITION_FUNCTIONS then condition_values sv (p ++ [PIdx 1] ++ [PKey k])
           else if String.eqb k "Ref" then
             if eq_str "AWS::NoValue" sv then [] else [(p ++ [PIdx 1], a)]
           else [(p ++ [PIdx 1], a)]
       | _ => [(p ++ [PIdx 1], a)]
       end) ++
      (match b with
       | VDict [(k, sv)] =>
           if smem k CONDITION_FUNCTIONS then condition_values sv (p ++ [PIdx 2] ++ [PKey k])
           else if String.eqb k "Ref" then
             if eq_str "AWS::NoValue" sv then [] else [(p ++ [PIdx 2], b)]
           else [(p ++ [PIdx 2], b)]
       | _ => [(p ++ [PIdx 2], b)]
       end)
  | _ => []
  end.

(** One item of a list value in get_values, template.py:406-431. *)
Definition list_value (i : nat) (x : val) (p : path) : list (path * val) :=
  match x with
  | VDict [(k, ov)] =>
      if smem k CONDITION_FUNCTIONS then condition_values ov (p ++ [PIdx i; PKey k])
      else if String.eqb k "Ref" && eq_str "AWS::NoValue" ov then []
      else [(p ++ [PIdx i], x)]
  | _ => [(p ++ [PIdx i], x)]
  end.

(** Template.get_values, template.py:363-446, for [value = obj.get(key)].  [None] is the Python None, on which the
    recursive call's [matches.extend] raises TypeError.  The recursion replaces the value by one that
    get_condition_values returned, which is no Fn::If again, so depth two is enough; the fuel is an error value and is
    proved never to run out (Proofs/SearchProofs.v). *)
Fixpoint values_of (fuel : nat) (value : val) (p : path) : res (option (list (path * val))) :=
  match fuel with
  | O => Err EOutOfFuel
  | S f =>
      match value with
      | VNull => Ok None
      | VDict [(k, ov)] =>
          if smem k CONDITION_FUNCTIONS then
            do l <- concat_res (fun r => do o <- values_of f (snd r) (fst r);
                                         match o with Some ms => Ok ms | None => Err ETypeErr end)
                      (condition_values ov (p ++ [PKey k]));
            Ok (Some l)
          else if String.eqb k "Ref" && eq_str "AWS::NoValue" ov then Ok (Some [])
          else Ok (Some [(p, value)])
      | VDict _ => Ok (Some [(p, value)])
      | VList l => Ok (Some (flat_map (fun ix => list_value (fst ix) (snd ix) p) (enum l)))
      | _ => Ok (Some [(p, value)])
      end
  end.
Definition get_values (obj : val) (key : string) (p : path) : res (option (list (path * val))) :=
  match obj with
  | VDict d => values_of 2 (match assoc key d with Some v => v | None => VNull end) p
  | _ => Ok None
  end.
