(** Model of src/cfnlint/decode/node.py: the methods of [dict_node] and [list_node] that rules rely on. *)
From Verif.Model Require Import Base.

(** The value [{'Ref': 'AWS::NoValue'}] as node.py recognises it: a dict of length one whose 'Ref' is the string
    'AWS::NoValue' (node.py:147-148, 175). *)
Definition is_novalue (v : val) : bool :=
  match v with
  | VDict [(k, x)] => String.eqb k "Ref" && eq_str "AWS::NoValue" x
  | _ => false
  end.

(** dict_node.clean, node.py:143-151: drop every member whose value is a Ref to AWS::NoValue.  Keys are distinct, so
    building the result by [result[k] = v] keeps the order and is a filter. *)
Definition clean (d : list (string * val)) : list (string * val) :=
  filter (fun kv => negb (is_novalue (snd kv))) d.

(** dict_node.items_safe without a type filter, node.py:154-180.  Called on dicts only; other values never reach it
    (the callers at lines 137 and 221 test [isinstance(v, dict)] first). *)
Fixpoint items_safe (v : val) (p : path) {struct v} : list (val * path) :=
  match v with
  | VDict d =>
      match d with
      | [(k, x)] =>
          if String.eqb k "Fn::If" then
            match x with
            | VList [_; a; b] =>
                (match a with
                 | VDict _ => items_safe a (p ++ [PKey k; PIdx 1])
                 | _ => [(a, p ++ [PKey k; PIdx 1])]
                 end) ++
                (match b with
                 | VDict _ => items_safe b (p ++ [PKey k; PIdx 2])
                 | _ => [(b, p ++ [PKey k; PIdx 2])]
                 end)
            | _ => []
            end
          else if String.eqb k "Ref" && eq_str "AWS::NoValue" x then []
          else [(VDict (clean d), p)]
      | _ => [(VDict (clean d), p)]
      end
  | _ => []
  end.

(** items_safe with [type_t] (node.py:154-180): each yielded value is tested with isinstance.  The test at lines 176
    and 179 is on [self], which is a dict exactly when the cleaned copy is. *)
Definition items_safe_t (t : val -> bool) (v : val) (p : path) : list (val * path) :=
  filter (fun vp => t (fst vp)) (items_safe v p).

(** list_node.items_safe, node.py:216-226. *)
Definition list_items_safe (t : val -> bool) (l : list val) (p : path) : list (val * path) :=
  filter (fun vp => t (fst vp))
    (flat_map (fun iv =>
       match snd iv with
       | VDict _ => items_safe (snd iv) (p ++ [PIdx (fst iv)])
       | v => [(v, p ++ [PIdx (fst iv)])]
       end) (enum l)).

(** dict_node.get_safe, node.py:114-141.  [default] is the Python argument ([VNull] for None); [t = None] is the
    empty [type_t]. *)
Definition get_safe (d : list (string * val)) (key : string) (default : val) (p : path)
    (t : option (val -> bool)) : res (list (val * path)) :=
  let value := match assoc key d with Some v => v | None => default end in
  if is_null value && is_null default then Ok []
  else
    let ok v := match t with None => true | Some f => f v end in
    if (match t with None => false | Some f => py_eq value default && negb (f default) end)
    then Err EValue
    else
      match value with
      | VDict _ => Ok (filter (fun vp => ok (fst vp)) (items_safe value (p ++ [PKey key])))
      | _ => Ok (if ok value then [(value, p ++ [PKey key])] else [])
      end.

(** dict_node.is_function_returning_object, node.py:84-106 (the [mappings] argument is unused by the code). *)
Definition is_function_returning_object (d : list (string * val)) : bool :=
  match d with
  | [(k, v)] =>
      String.eqb k "Fn::Select" &&
      match v with
      | VList [_; VDict [(lk, _)]] => String.eqb lk "Fn::FindInMap"
      | _ => false
      end
  | _ => false
  end.
