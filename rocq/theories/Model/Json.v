(** Model of src/cfnlint/decode/cfn_json.py and of the parts of the standard library's json.decoder it uses (JSONArray, raw_decode and
    decode of Python 3.6-3.12).  A text is a list of code points; a position is the number of code points before it. *)
From Coq Require Import NArith.
From Verif.Model Require Import Base.
Local Open Scope N_scope.

Definition text := list N.
(** Values.  Objects and arrays carry the begin and end positions their marks are made from, keys too; a number with a fraction or
    exponent is kept as the text passed to float(), a constant (NaN, Infinity, -Infinity) as the text passed to parse_constant. *)
Record jkey := mkKey { k_text : text; k_begin : nat; k_end : nat }.
Inductive jv :=
| JNull | JBool (b : bool) | JInt (z : Z) | JFloat (t : text) | JConst (t : text) | JStr (t : text)
| JArr (b e : nat) (l : list jv) | JObj (b e : nat) (ms : list (jkey * jv)).
Inductive jmsg :=
| MUnterminated | MControl (c : N) | MEscape (c : N) | MUnicode | MName | MColon | MComma | MValue | MExtra | MBom
| MNull (k : text) | MDuplicate (k : text).
(** Exceptions: cfnlint's JSONDecodeError with the key it is given, the standard library's, TypeError, ValueError and RecursionError. *)
Inductive jerr := JE (m : jmsg) (pos : nat) (key : text) | JStd (m : jmsg) (pos : nat) | JType | JVal | JRec | JFuel.
Inductive jres (A : Type) := JOk (a : A) | JErr (e : jerr) | JStop (pos : nat).
Arguments JOk {A} a. Arguments JErr {A} e. Arguments JStop {A} pos.
Definition jbind {A B} (x : jres A) (f : A -> jres B) : jres B :=
  match x with JOk a => f a | JErr e => JErr e | JStop p => JStop p end.
Definition at_ (m : jmsg) (pos : nat) : jerr := JE m pos [32].

(** check_duplicates, cfn_json.py:30-43: the first member that is null or repeats a key; [seen] are the keys before. *)
Definition text_eqb (a b : text) : bool := if list_eq_dec N.eq_dec a b then true else false.
Fixpoint check_duplicates (seen : list text) (ms : list (jkey * jv)) : option jmsg :=
  match ms with
  | [] => None
  | (k, v) :: rest =>
      match v with
      | JNull => Some (MNull (k_text k))
      | _ => if existsb (text_eqb (k_text k)) seen then Some (MDuplicate (k_text k)) else check_duplicates (k_text k :: seen) rest
      end
  end.

(** WHITESPACE.match: the position and text after white space. *)
Definition is_ws (c : N) : bool := (c =? 32) || (c =? 9) || (c =? 10) || (c =? 13).
Fixpoint skip (p : nat) (s : text) : nat * text :=
  match s with [] => (p, []) | c :: s' => if is_ws c then skip (S p) s' else (p, s) end.

Section Scan.
(** [int(esc, 16)] of four characters (None: ValueError), and the value of decimal digits other than 0-9 (None: not a digit). *)
Variable int16 : text -> option Z.
Variable other_digit : N -> option Z.

(** BACKSLASH of json.decoder. *)
Definition backslash (c : N) : option N :=
  if c =? 34 then Some 34 else if c =? 92 then Some 92 else if c =? 47 then Some 47 else if c =? 98 then Some 8
  else if c =? 102 then Some 12 else if c =? 110 then Some 10 else if c =? 114 then Some 13 else if c =? 116 then Some 9 else None.
(** _decode_uXXXX, cfn_json.py:146-154. *)
Definition unicode_escape (a b c d : N) : option Z :=
  if (b =? 120) || (b =? 88) then None else int16 [a; b; c; d].
Definition high (u : Z) : bool := (55296 <=? u)%Z && (u <=? 56319)%Z.
Definition low (u : Z) : bool := (56320 <=? u)%Z && (u <=? 57343)%Z.
Definition joined (u v : Z) : Z := (65536 + ((u - 55296) * 1024 + (v - 56320)))%Z.
(** [chr(uni)] raises ValueError on negative numbers. *)
Definition cons_chr (u : Z) (r : jres (text * nat * text)) : jres (text * nat * text) :=
  if (u <? 0)%Z then JErr JVal else jbind r (fun q => JOk (Z.to_N u :: fst (fst q), snd (fst q), snd q)).
Definition cons_char (c : N) (r : jres (text * nat * text)) : jres (text * nat * text) :=
  jbind r (fun q => JOk (c :: fst (fst q), snd (fst q), snd q)).
(** py_scanstring, cfn_json.py:86-143: the content, and the position and text after the closing quote.  [p] is the position of [s],
    [begin] that of the opening quote. *)
Fixpoint scanstring (begin p : nat) (s : text) {struct s} : jres (text * nat * text) :=
  match s with
  | [] => JErr (at_ MUnterminated begin)
  | c :: s1 =>
      if c =? 34 then JOk ([], S p, s1)
      else if c =? 92 then
        match s1 with
        | [] => JErr (at_ MUnterminated begin)
        | e :: s2 =>
            if e =? 117 then
              match s2 with
              | h1 :: h2 :: h3 :: h4 :: s6 =>
                  match unicode_escape h1 h2 h3 h4 with
                  | None => JErr (at_ MUnicode (S p))
                  | Some u =>
                      match s6 with
                      | c' :: e' :: s8 =>
                          if high u && (c' =? 92) && (e' =? 117) then
                            match s8 with
                            | g1 :: g2 :: g3 :: g4 :: s12 =>
                                match unicode_escape g1 g2 g3 g4 with
                                | None => JErr (at_ MUnicode (7 + p))
                                | Some v =>
                                    if low v then cons_chr (joined u v) (scanstring begin (12 + p) s12)
                                    else cons_chr u (scanstring begin (6 + p) s6)
                                end
                            | _ => JErr (at_ MUnicode (7 + p))
                            end
                          else cons_chr u (scanstring begin (6 + p) s6)
                      | _ => cons_chr u (scanstring begin (6 + p) s6)
                      end
                  end
              | _ => JErr (at_ MUnicode (S p))
              end
            else
              match backslash e with
              | None => JErr (at_ (MEscape e) (S p))
              | Some ch => cons_char ch (scanstring begin (S (S p)) s2)
              end
        end
      else if c <? 32 then JErr (at_ (MControl c) (S p))
      else cons_char c (scanstring begin (S p) s1)
  end.

(** NUMBER_RE of json.scanner. *)
Definition digit (c : N) : option Z :=
  if (48 <=? c) && (c <=? 57) then Some (Z.of_N c - 48)%Z else if c <? 128 then None else other_digit c.
Fixpoint digits (s : text) : text * text :=
  match s with
  | c :: s' => match digit c with Some _ => (c :: fst (digits s'), snd (digits s')) | None => ([], s) end
  | [] => ([], [])
  end.
Fixpoint digits_value (acc : Z) (s : text) : Z :=
  match s with c :: s' => digits_value (acc * 10 + match digit c with Some d => d | None => 0 end) s' | [] => acc end.
(** The integer part: sign and digits, and the rest. *)
Definition integer_part (s : text) : option (bool * text * text) :=
  let (neg, s1) := match s with c :: s' => if c =? 45 then (true, s') else (false, s) | [] => (false, s) end in
  match s1 with
  | c :: s2 =>
      if c =? 48 then Some (neg, [c], s2)
      else if (49 <=? c) && (c <=? 57) then Some (neg, c :: fst (digits s2), snd (digits s2)) else None
  | [] => None
  end.
Definition fraction (s : text) : text * text :=
  match s with
  | c :: s' => if c =? 46 then match fst (digits s') with [] => ([], s) | ds => (c :: ds, snd (digits s')) end else ([], s)
  | [] => ([], s)
  end.
Definition exponent (s : text) : text * text :=
  match s with
  | c :: s' =>
      if (c =? 101) || (c =? 69) then
        let '(sg, s2) := match s' with d :: s'' => if (d =? 43) || (d =? 45) then ([d], s'') else ([], s') | [] => ([], s') end in
        match fst (digits s2) with [] => ([], s) | ds => (c :: sg ++ ds, snd (digits s2)) end
      else ([], s)
  | [] => ([], s)
  end.
Definition number (s : text) : option (jv * text * text) :=
  match integer_part s with
  | None => None
  | Some (neg, ds, s1) =>
      let (fr, s2) := fraction s1 in
      let (ex, s3) := exponent s2 in
      let sign := if neg then [45] else [] in
      Some (match fr ++ ex with
            | [] => JInt (if neg then - digits_value 0 ds else digits_value 0 ds)
            | fe => JFloat (sign ++ ds ++ fe)
            end, sign ++ ds ++ fr ++ ex, s3)
  end.

Definition begins (w s : text) : bool := text_eqb (firstn (List.length w) s) w.
Definition w_null : text := [110; 117; 108; 108].
Definition w_true : text := [116; 114; 117; 101].
Definition w_false : text := [102; 97; 108; 115; 101].
Definition w_nan : text := [78; 97; 78].
Definition w_inf : text := [73; 110; 102; 105; 110; 105; 116; 121].
Definition w_ninf : text := 45 :: w_inf.

(** json.decoder.JSONArray after the opening bracket; [l] is what scan_once does.  The loop reads elements, most recent first. *)
Fixpoint array_loop (fuel : nat) (l : nat -> text -> jres (jv * nat * text)) (p : nat) (s : text) : jres (list jv * nat * text) :=
  match fuel with
  | O => JErr JFuel
  | S f =>
      match l p s with
      | JStop q => JErr (JStd MValue q)
      | JErr e => JErr e
      | JOk (v, p1, s1) =>
          let (p2, s2) := skip p1 s1 in
          match s2 with
          | c :: s3 =>
              if c =? 93 then JOk ([v], S p2, s3)
              else if c =? 44 then
                let (p4, s4) := skip (S p2) s3 in
                jbind (array_loop f l p4 s4) (fun q => JOk (v :: fst (fst q), snd (fst q), snd q))
              else JErr (JStd MComma p2)
          | [] => JErr (JStd MComma p2)
          end
      end
  end.
(** CfnJSONDecoder.JSONArray, cfn_json.py:373-378. *)
Definition array (l : nat -> text -> jres (jv * nat * text)) (p : nat) (s : text) : jres (jv * nat * text) :=
  let (p1, s1) := skip p s in
  match s1 with
  | c :: s2 =>
      if c =? 93 then JOk (JArr p (S p1) [], S p1, s2)
      else jbind (array_loop (S (List.length s)) l p1 s1) (fun q => JOk (JArr p (snd (fst q)) (fst (fst q)), snd (fst q), snd q))
  | [] => jbind (array_loop (S (List.length s)) l p1 s1) (fun q => JOk (JArr p (snd (fst q)) (fst (fst q)), snd (fst q), snd q))
  end.
(** The loop of CfnJSONObject, cfn_json.py:193-241, from after the opening quote of a key: the members and the last key. *)
Fixpoint object_loop (fuel : nat) (l : nat -> text -> jres (jv * nat * text)) (p : nat) (s : text)
  : jres (list (jkey * jv) * jkey * nat * text) :=
  match fuel with
  | O => JErr JFuel
  | S f =>
      match scanstring (pred p) p s with
      | JStop q => JStop q
      | JErr e => JErr e
      | JOk (key, p1, s1) =>
          let (p2, s2) := skip p1 s1 in
          match s2 with
          | c :: s3 =>
              if c =? 58 then
                let (p4, s4) := skip (S p2) s3 in
                let k := mkKey key (pred p) (pred p + List.length key) in
                match l p4 s4 with
                | JStop _ => JErr JType
                | JErr e => JErr e
                | JOk (v, p5, s5) =>
                    let (p6, s6) := skip p5 s5 in
                    match s6 with
                    | c6 :: s7 =>
                        if c6 =? 125 then JOk ([(k, v)], k, S p6, s7)
                        else if c6 =? 44 then
                          let (p8, s8) := skip (S p6) s7 in
                          match s8 with
                          | c8 :: s9 =>
                              if c8 =? 34 then
                                jbind (object_loop f l (S p8) s9)
                                      (fun q => JOk ((k, v) :: fst (fst (fst q)), snd (fst (fst q)), snd (fst q), snd q))
                              else JErr (at_ MName p8)
                          | [] => JErr (at_ MName p8)
                          end
                        else JErr (at_ MComma p6)
                    | [] => JErr (at_ MComma p6)
                    end
                end
              else JErr (at_ MColon p2)
          | [] => JErr (at_ MColon p2)
          end
      end
  end.
(** CfnJSONObject, cfn_json.py:157-258, from after the opening brace. *)
Definition object (l : nat -> text -> jres (jv * nat * text)) (p : nat) (s : text) : jres (jv * nat * text) :=
  let (p1, s1) := skip p s in
  match s1 with
  | c :: s2 =>
      if c =? 125 then JOk (JObj p (S p1) [], S p1, s2)
      else if c =? 34 then
        match object_loop (S (List.length s)) l (S p1) s2 with
        | JStop q => JStop q
        | JErr e => JErr e
        | JOk (ms, k, p3, s3) =>
            match check_duplicates [] ms with
            | Some m => JErr (JE m (k_begin k) (k_text k))
            | None => JOk (JObj p p3 ms, p3, s3)
            end
        end
      else JErr (at_ MName p1)
  | [] => JErr (at_ MName p1)
  end.
(** _scan_once, cfn_json.py:280-317.  [depth] is how many calls may still be nested. *)
Fixpoint scan_once (depth : nat) (p : nat) (s : text) : jres (jv * nat * text) :=
  match depth with
  | O => JErr JRec
  | S d =>
      match s with
      | [] => JStop p
      | c :: s1 =>
          if c =? 34 then jbind (scanstring p (S p) s1) (fun q => JOk (JStr (fst (fst q)), snd (fst q), snd q))
          else if c =? 123 then object (scan_once d) (S p) s1
          else if c =? 91 then array (scan_once d) (S p) s1
          else if begins w_null s then JOk (JNull, (4 + p)%nat, skipn 4 s)
          else if begins w_true s then JOk (JBool true, (4 + p)%nat, skipn 4 s)
          else if begins w_false s then JOk (JBool false, (5 + p)%nat, skipn 5 s)
          else
            match number s with
            | Some (v, t, rest) => JOk (v, (List.length t + p)%nat, rest)
            | None =>
                if begins w_nan s then JOk (JConst w_nan, (3 + p)%nat, skipn 3 s)
                else if begins w_inf s then JOk (JConst w_inf, (8 + p)%nat, skipn 8 s)
                else if begins w_ninf s then JOk (JConst w_ninf, (9 + p)%nat, skipn 9 s)
                else JStop p
            end
      end
  end.
(** [s.startswith] of the byte order mark. *)
Definition bom (s : text) : bool := match s with c :: _ => c =? 65279 | [] => false end.
(** json.loads with CfnJSONDecoder: json/__init__.py (the byte order mark), JSONDecoder.decode and raw_decode. *)
Definition decode (depth : nat) (s : text) : jres jv :=
  if bom s then JErr (JStd MBom 0)
  else
    let (p, s1) := skip 0 s in
    match scan_once depth p s1 with
    | JStop q => JErr (JStd MValue q)
    | JErr e => JErr e
    | JOk (v, p2, s2) =>
        let (p3, s3) := skip p2 s2 in
        match s3 with [] => JOk v | _ => JErr (JStd MExtra p3) end
    end.
End Scan.

(** get_beg_end_mark, cfn_json.py:329-338: line and column of a position. *)
Fixpoint mark (s : text) (pos : nat) (line col : Z) : Z * Z :=
  match pos, s with
  | S n, c :: s' => if c =? 10 then mark s' n (line + 1) 1 else mark s' n line (col + 1)
  | _, _ => (line, col)
  end.
Definition position_mark (s : text) (pos : nat) : Z * Z := mark s pos 0 1.
