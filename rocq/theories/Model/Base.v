(** Common ground for all models: decoded template values, Python exceptions as values, and the handful of Python
    string and dict operations the code uses.  No proofs here. *)
From Coq Require Export List ZArith QArith String Ascii Bool Arith.
Export ListNotations.
Open Scope string_scope.
Open Scope list_scope.
Open Scope nat_scope.

(** * Values
    What [cfnlint.decode.decode] hands to the rules: [dict_node], [list_node], [str_node] and Python scalars
    (src/cfnlint/decode/node.py:17-237, decode/cfn_json.py, decode/cfn_yaml.py).  Simplifications: mapping keys are
    strings; floats are their exact rational value (no NaN or infinity); dates are not modelled.  A dict is an
    association list in insertion order. *)
Inductive val : Type :=
| VNull
| VBool (b : bool)
| VInt (z : Z)
| VFloat (q : Q)
| VStr (s : string)
| VList (l : list val)
| VDict (d : list (string * val)).

(** The elements of a path such as ['Resources', 'A', 'Properties', 'X', 0] (RuleMatch.path,
    src/cfnlint/rules/__init__.py:426-432). *)
Inductive pelem : Type := PKey (s : string) | PIdx (n : nat).
Definition path := list pelem.

(** Python exceptions as values. *)
Inductive exn : Type :=
| ETemplateAttribute   (* cfnlint.decode.node.TemplateAttributeError, node.py:13-14 *)
| EAttribute | ETypeErr | EValue | EKey | EIndex | ERecursion
| EOther (msg : string)
| EOutOfFuel.          (* not a Python exception: the model's own fuel ran out *)

Inductive res (A : Type) : Type := Ok (a : A) | Err (e : exn).
Arguments Ok {A} _.
Arguments Err {A} _.

Definition bind {A B} (x : res A) (f : A -> res B) : res B :=
  match x with Ok a => f a | Err e => Err e end.
Notation "'do' x <- e ; f" := (bind e (fun x => f)) (at level 200, x pattern, e at level 100, f at level 200).

Definition rmap {A B} (f : A -> B) (x : res A) : res B := bind x (fun a => Ok (f a)).

(** [for x in l: results.extend(f(x))], stopping at the first exception. *)
Fixpoint concat_res {A B} (f : A -> res (list B)) (l : list A) : res (list B) :=
  match l with
  | [] => Ok []
  | x :: xs => do a <- f x; do b <- concat_res f xs; Ok (a ++ b)
  end.

Fixpoint map_res {A B} (f : A -> res B) (l : list A) : res (list B) :=
  match l with
  | [] => Ok []
  | x :: xs => do a <- f x; do b <- map_res f xs; Ok (a :: b)
  end.

(** * Association lists (Python dicts) *)
Fixpoint assoc {A} (k : string) (d : list (string * A)) : option A :=
  match d with
  | [] => None
  | (k', v) :: d' => if String.eqb k k' then Some v else assoc k d'
  end.

Definition mem_assoc {A} (k : string) (d : list (string * A)) : bool :=
  match assoc k d with Some _ => true | None => false end.

(** [d[k] = v]: replaces in place, or appends. *)
Fixpoint set_assoc {A} (k : string) (v : A) (d : list (string * A)) : list (string * A) :=
  match d with
  | [] => [(k, v)]
  | (k', v') :: d' => if String.eqb k k' then (k', v) :: d' else (k', v') :: set_assoc k v d'
  end.

Definition keys {A} (d : list (string * A)) : list string := map fst d.

Definition smem (s : string) (l : list string) : bool := existsb (String.eqb s) l.

(** [enumerate(l)] starting at [i]. *)
Fixpoint enum_from {A} (i : nat) (l : list A) : list (nat * A) :=
  match l with
  | [] => []
  | x :: xs => (i, x) :: enum_from (S i) xs
  end.
Definition enum {A} (l : list A) := enum_from 0 l.

(** * Views of values *)
Definition is_dict (v : val) : bool := match v with VDict _ => true | _ => false end.
Definition is_list (v : val) : bool := match v with VList _ => true | _ => false end.
Definition is_str (v : val) : bool := match v with VStr _ => true | _ => false end.
(** [isinstance(v, six.integer_types)]: booleans are integers in Python. *)
Definition is_int (v : val) : bool := match v with VInt _ => true | VBool _ => true | _ => false end.
Definition is_bool (v : val) : bool := match v with VBool _ => true | _ => false end.
Definition is_null (v : val) : bool := match v with VNull => true | _ => false end.

(** [bool(v)]. *)
Definition truthy (v : val) : bool :=
  match v with
  | VNull => false
  | VBool b => b
  | VInt z => negb (Z.eqb z 0)
  | VFloat q => negb (Qeq_bool q 0)
  | VStr s => negb (String.eqb s "")
  | VList l => match l with [] => false | _ => true end
  | VDict d => match d with [] => false | _ => true end
  end.

(** [v == 's'] for a string literal. *)
Definition eq_str (s : string) (v : val) : bool :=
  match v with VStr s' => String.eqb s s' | _ => false end.

(** Numeric value of a Python number; [True == 1]. *)
Definition num_of (v : val) : option Q :=
  match v with
  | VBool true => Some 1%Q
  | VBool false => Some 0%Q
  | VInt z => Some (inject_Z z)
  | VFloat q => Some q
  | _ => None
  end.

(** Python's [==] on decoded values. *)
Fixpoint py_eq (a b : val) {struct a} : bool :=
  match a, b with
  | VNull, VNull => true
  | VStr s, VStr s' => String.eqb s s'
  | VList l, VList l' =>
      (fix go (l l' : list val) : bool :=
         match l, l' with
         | [], [] => true
         | x :: xs, y :: ys => py_eq x y && go xs ys
         | _, _ => false
         end) l l'
  | VDict d, VDict d' =>
      Nat.eqb (List.length d) (List.length d') &&
      (fix go (d : list (string * val)) : bool :=
         match d with
         | [] => true
         | (k, x) :: rest =>
             (match assoc k d' with Some y => py_eq x y | None => false end) && go rest
         end) d
  | _, _ =>
      match num_of a, num_of b with
      | Some x, Some y => Qeq_bool x y
      | _, _ => false
      end
  end.

(** [v in l]. *)
Definition py_in (v : val) (l : list val) : bool := existsb (py_eq v) l.

(** [obj.get(key)] on a decoded value: a [dict_node] answers [None] for a missing key, any other node class raises
    TemplateAttributeError (node.py:42-43, 182-183, 228-229), a plain scalar AttributeError. *)
Definition vget (k : string) (v : val) : res val :=
  match v with
  | VDict d => Ok (match assoc k d with Some x => x | None => VNull end)
  | VStr _ | VList _ => Err ETemplateAttribute
  | _ => Err EAttribute
  end.

(** [obj.get(key, default)]. *)
Definition vget_def (k : string) (def : val) (v : val) : res val :=
  match v with
  | VDict d => Ok (match assoc k d with Some x => x | None => def end)
  | VStr _ | VList _ => Err ETemplateAttribute
  | _ => Err EAttribute
  end.

Definition dict_of (v : val) : list (string * val) := match v with VDict d => d | _ => [] end.

(** * Strings *)
Fixpoint ends_with_aux (suf s : string) : bool :=
  if String.eqb suf s then true
  else match s with EmptyString => false | String _ s' => ends_with_aux suf s' end.
(** [s.endswith(suf)]. *)
Definition ends_with (suf s : string) : bool := ends_with_aux suf s.

(** [s.startswith(p)]. *)
Definition starts_with (p s : string) : bool := String.prefix p s.

Definition char_eqb (a b : ascii) : bool := Ascii.eqb a b.

Fixpoint split_aux (c : ascii) (s acc : string) : list string :=
  match s with
  | EmptyString => [acc]
  | String a s' =>
      if char_eqb a c then acc :: split_aux c s' ""
      else split_aux c s' (acc ++ String a EmptyString)%string
  end.
(** [s.split(c)] for a one-character separator. *)
Definition split_on (c : ascii) (s : string) : list string := split_aux c s "".

Fixpoint has_char (c : ascii) (s : string) : bool :=
  match s with EmptyString => false | String a s' => char_eqb a c || has_char c s' end.

Fixpoint str_forall (f : ascii -> bool) (s : string) : bool :=
  match s with EmptyString => true | String a s' => f a && str_forall f s' end.

Fixpoint join_str (sep : string) (l : list string) : string :=
  match l with
  | [] => ""
  | [x] => x
  | x :: xs => (x ++ sep ++ join_str sep xs)%string
  end.

Definition code (a : ascii) : nat := nat_of_ascii a.
Definition in_range (lo hi : nat) (a : ascii) : bool := Nat.leb lo (code a) && Nat.leb (code a) hi.
Definition is_upper (a : ascii) : bool := in_range 65 90 a.
Definition is_lower (a : ascii) : bool := in_range 97 122 a.
Definition is_digit (a : ascii) : bool := in_range 48 57 a.
Definition is_alnum (a : ascii) : bool := is_upper a || is_lower a || is_digit a.
Definition lower_char (a : ascii) : ascii := if is_upper a then ascii_of_nat (code a + 32) else a.
Definition upper_char (a : ascii) : ascii := if is_lower a then ascii_of_nat (code a - 32) else a.
Fixpoint map_str (f : ascii -> ascii) (s : string) : string :=
  match s with EmptyString => "" | String a s' => String (f a) (map_str f s') end.
(** [s.lower()] / [s.upper()] on ASCII letters. *)
Definition lower (s : string) : string := map_str lower_char s.
Definition upper (s : string) : string := map_str upper_char s.

(** Decimal rendering: [str(n)]. *)
Definition digit_char (d : Z) : ascii := ascii_of_nat (48 + Z.to_nat d).
Fixpoint dec_aux (fuel : nat) (n : Z) (acc : string) : string :=
  match fuel with
  | O => acc
  | S f => let acc' := String (digit_char (n mod 10)) acc in
           if Z.ltb n 10 then acc' else dec_aux f (n / 10) acc'
  end.
Definition dec_fuel (n : Z) : nat := S (Z.to_nat (Z.log2 (Z.abs n))).
Definition str_of_Z (n : Z) : string :=
  if Z.ltb n 0 then String "-" (dec_aux (dec_fuel n) (- n) "") else dec_aux (dec_fuel n) n "".

(** [str(path element)]. *)
Definition str_of_pelem (p : pelem) : string :=
  match p with PKey s => s | PIdx n => str_of_Z (Z.of_nat n) end.

(** Lexicographic order on strings, as Python compares [str]. *)
Fixpoint str_leb (a b : string) : bool :=
  match a, b with
  | EmptyString, _ => true
  | String _ _, EmptyString => false
  | String x a', String y b' =>
      if Nat.ltb (code x) (code y) then true
      else if Nat.eqb (code x) (code y) then str_leb a' b' else false
  end.

Definition pelem_eqb (a b : pelem) : bool :=
  match a, b with
  | PKey s, PKey t => String.eqb s t
  | PIdx n, PIdx m => Nat.eqb n m
  | _, _ => false
  end.
Fixpoint path_eqb (a b : path) : bool :=
  match a, b with
  | [], [] => true
  | x :: xs, y :: ys => pelem_eqb x y && path_eqb xs ys
  | _, _ => false
  end.

(** A rule's finding before it is located: RuleMatch (src/cfnlint/rules/__init__.py:423-440).  The extra keyword
    attributes are not modelled. *)
Record rulematch := mkRM { rm_path : path; rm_msg : string }.
