(** Model of [json.dumps(value, sort_keys=True)] (Python's json.encoder with the default separators and ensure_ascii), which
    rules use to compare list items (rules/resources/properties/ListDuplicates.py:42-43).  A character of the model is a
    code point below 256.  The text of a float is left to the argument [float_text]. *)
From Verif.Model Require Import Base.

(** ESCAPE_DCT and the replacement function of json.encoder.py_encode_basestring_ascii. *)
Definition hex_char (n : nat) : ascii := ascii_of_nat (if Nat.ltb n 10 then 48 + n else 87 + n).
Definition bs : ascii := ascii_of_nat 92.
Definition dq : ascii := ascii_of_nat 34.
Definition escape_char (a : ascii) : string :=
  if Nat.eqb (code a) 92 then String bs (String bs "")
  else if Nat.eqb (code a) 34 then String bs (String dq "")
  else if Nat.eqb (code a) 8 then String bs "b"
  else if Nat.eqb (code a) 12 then String bs "f"
  else if Nat.eqb (code a) 10 then String bs "n"
  else if Nat.eqb (code a) 13 then String bs "r"
  else if Nat.eqb (code a) 9 then String bs "t"
  else if in_range 32 126 a then String a ""
  else String bs ("u00" ++ String (hex_char (Nat.div (code a) 16)) (String (hex_char (Nat.modulo (code a) 16)) ""))%string.
Fixpoint escape (s : string) : string :=
  match s with EmptyString => "" | String a s' => (escape_char a ++ escape s')%string end.
Definition quote (s : string) : string := String dq (escape s ++ String dq "")%string.

(** [sorted(dct.items())]: keys are distinct, so only they are compared. *)
Fixpoint insert_member {A} (x : string * A) (l : list (string * A)) : list (string * A) :=
  match l with
  | [] => [x]
  | y :: l' => if str_leb (fst x) (fst y) then x :: l else y :: insert_member x l'
  end.
Definition sort_members {A} (l : list (string * A)) : list (string * A) := fold_right insert_member [] l.

Section Dumps.
Variable float_text : Q -> string.

(** json.encoder.JSONEncoder.encode with sort_keys. *)
Fixpoint dumps (v : val) : string :=
  match v with
  | VNull => "null"
  | VBool true => "true"
  | VBool false => "false"
  | VInt z => str_of_Z z
  | VFloat q => float_text q
  | VStr s => quote s
  | VList l => ("[" ++ join_str ", " (map dumps l) ++ "]")%string
  | VDict d =>
      ("{" ++ join_str ", " (map (fun kt => (quote (fst kt) ++ ": " ++ snd kt)%string)
                                 (sort_members (map (fun kv => (fst kv, dumps (snd kv))) d))) ++ "}")%string
  end.
End Dumps.
