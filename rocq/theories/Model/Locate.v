(** Model of positions: templates with marks and Template.get_location_yaml (src/cfnlint/template.py:448-502). *)
From Verif.Model Require Import Base.

(** (start line, start column, end line, end column), zero based, as Template._loc returns it (template.py:448-451). *)
Record mark := mkMark { sl : Z; sc : Z; el : Z; ec : Z }.

(** A decoded template with its marks.  Strings, lists and dicts are node objects and carry marks
    (decode/node.py:24-30, 64-71, 196-203); other scalars are plain Python objects without marks.  A key may lack marks
    (it is a plain [str] or not a string in the source). *)
Inductive mval : Type :=
| MScalar (v : val)                               (* null, bool, int, float *)
| MStr (m : mark) (s : string)
| MList (m : mark) (l : list mval)
| MDict (m : mark) (d : list ((string * option mark) * mval)).

Fixpoint erase (t : mval) : val :=
  match t with
  | MScalar v => v
  | MStr _ s => VStr s
  | MList _ l => VList (map erase l)
  | MDict _ d => VDict (map (fun kv => (fst (fst kv), erase (snd kv))) d)
  end.

(** helpers.convert_dict (helpers.py:489-509) gives objects and lists that another library made the tuple [(0, 0)] for marks,
    which has no line.  Such a mark is written with lines and columns below zero, which no position in a file has. *)
Definition tuple_mark : mark := mkMark (-1) (-1) (-1) (-1).
Definition has_lines (m : mark) : option mark := if Z.ltb (sl m) 0 then None else Some m.
(** [self._loc(obj)], template.py:448-451; [None] stands for the AttributeError of an object without marks or whose marks have no
    lines. *)
Definition loc_of (t : mval) : option mark :=
  match t with
  | MScalar _ => None
  | MStr m _ => Some m
  | MList m _ => has_lines m
  | MDict m _ => has_lines m
  end.

Fixpoint massoc (k : string) (d : list ((string * option mark) * mval)) : option mval :=
  match d with
  | [] => None
  | ((k', _), v) :: d' => if String.eqb k k' then Some v else massoc k d'
  end.

Fixpoint keymark (k : string) (d : list ((string * option mark) * mval)) : option mark :=
  match d with
  | [] => None
  | ((k', m), _) :: d' => if String.eqb k k' then m else keymark k d'
  end.

(** [for item in l: if item == path[0]: result = self._loc(item)] on a list: a string item may equal a string path
    element, an integer item an integer one; the last marked match wins and an unmarked match raises AttributeError,
    which ends the loop and keeps what was found so far (template.py:480-485, 495-500). *)
Fixpoint scan_items (pe : pelem) (l : list mval) (acc : option mark) : option mark :=
  match l with
  | [] => acc
  | x :: xs =>
      let hit := match pe, x with
                 | PKey s, MStr _ s' | PKey s, MScalar (VStr s') => String.eqb s s'
                 | PIdx n, MScalar v => py_eq (VInt (Z.of_nat n)) v
                 | _, _ => false
                 end in
      if hit then match loc_of x with Some m => scan_items pe xs (Some m) | None => acc end
      else scan_items pe xs acc
  end.

(** The scan loop for a key (template.py:480-485 and 495-500).  Dict: look for the key; list: look for an equal item;
    string: its characters are plain [str] without marks, so a match raises AttributeError and nothing is found; a
    scalar is not iterable: TypeError, which is not caught there. *)
Definition scan_key (t : mval) (pe : pelem) : res (option mark) :=
  match t with
  | MDict _ d => Ok (match pe with PKey s => keymark s d | PIdx _ => None end)
  | MList _ l => Ok (scan_items pe l None)
  | MStr _ _ => Ok None
  | MScalar _ => Err ETypeErr
  end.

(** [text[path[0]]], template.py:472.  A str_node indexed by an integer gives a plain one-character string. *)
Definition mindex (t : mval) (pe : pelem) : res mval :=
  match t, pe with
  | MDict _ d, PKey s => match massoc s d with Some v => Ok v | None => Err EKey end
  | MDict _ _, PIdx _ => Err EKey
  | MList _ l, PIdx n => match nth_error l n with Some v => Ok v | None => Err EIndex end
  | MList _ _, PKey _ => Err ETypeErr
  | MStr _ s, PIdx n => match String.get n s with
                        | Some a => Ok (MScalar (VStr (String a EmptyString)))
                        | None => Err EIndex
                        end
  | MStr _ _, PKey _ => Err ETypeErr
  | MScalar (VStr s), PIdx n => match String.get n s with
                                | Some a => Ok (MScalar (VStr (String a EmptyString)))
                                | None => Err EIndex
                                end
  | MScalar _, _ => Err ETypeErr
  end.

(** Template.get_location_yaml, template.py:464-502.  [MScalar (VStr _)] (a plain character) iterates without marks,
    like a string. *)
Fixpoint get_location (t : mval) (p : path) {struct p} : res (option mark) :=
  match p with
  | [] => Err EIndex                                   (* path[0] on an empty path, line 489 *)
  | [pe] =>
      match t, pe with
      | MList _ l, PIdx n =>
          match nth_error l n with
          | Some x => Ok (loc_of x)
          | None => Err EIndex
          end
      | MScalar (VStr _), _ => Ok None
      | _, _ => scan_key t pe
      end
  | pe :: rest =>
      let inner : res (option mark) :=
        match mindex t pe with
        | Ok sub => get_location sub rest
        | Err e => Err e
        end in
      match inner with
      | Ok (Some m) => Ok (Some m)
      | Ok None | Err EKey | Err ETypeErr =>
          match t with
          | MScalar (VStr _) => Ok None
          | _ => scan_key t pe
          end
      | Err e => Err e
      end
  end.
