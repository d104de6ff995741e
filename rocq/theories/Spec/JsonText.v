(** JSON texts and the values they denote (C11, C12), after RFC 8259.  Texts are lists of code points; [p] is the position of a text in
    the document. *)
From Coq Require Import List NArith ZArith.
From Verif.Model Require Import Json.
Import ListNotations.
Local Open Scope N_scope.

Definition white (s : text) : Prop := forall c, In c s -> In c [32; 9; 10; 13].
(** Escapes of one character: quote, backslash, slash, b, f, n, r, t. *)
Definition simple_escape (e c : N) : Prop :=
  In (e, c) [(34, 34); (92, 92); (47, 47); (98, 8); (102, 12); (110, 10); (114, 13); (116, 9)].
Definition is_high (u : Z) : Prop := (55296 <= u <= 56319)%Z.
Definition is_low (u : Z) : Prop := (56320 <= u <= 57343)%Z.
Definition words : list text := [[78; 97; 78]; [73; 110; 102; 105; 110; 105; 116; 121]; [45; 73; 110; 102; 105; 110; 105; 116; 121]].

Section Grammar.
(** [hex4 a b c d u]: the characters [a b c d] after backslash u mean [u].  [digit c d]: the character [c] is a digit of value [d].
    [constants]: the words NaN, Infinity and -Infinity are values. *)
Variable hex4 : N -> N -> N -> N -> Z -> Prop.
Variable digit : N -> Z -> Prop.
Variable constants : Prop.

(** The text between the quotes of a string, and the string. *)
Inductive chars : text -> text -> Prop :=
| ch_nil : chars [] []
| ch_plain : forall c s t, c <> 34 -> c <> 92 -> 32 <= c -> chars s t -> chars (c :: s) (c :: t)
| ch_escape : forall e c s t, simple_escape e c -> chars s t -> chars (92 :: e :: s) (c :: t)
| ch_unit : forall a b c d u s t, hex4 a b c d u -> (0 <= u)%Z ->
    (is_high u -> forall a' b' c' d' v s', s = 92 :: 117 :: a' :: b' :: c' :: d' :: s' -> hex4 a' b' c' d' v -> ~ is_low v) ->
    chars s t -> chars (92 :: 117 :: a :: b :: c :: d :: s) (Z.to_N u :: t)
| ch_pair : forall a b c d u a' b' c' d' v s t, hex4 a b c d u -> is_high u -> hex4 a' b' c' d' v -> is_low v -> chars s t ->
    chars (92 :: 117 :: a :: b :: c :: d :: 92 :: 117 :: a' :: b' :: c' :: d' :: s)
          (Z.to_N (65536 + (u - 55296) * 1024 + (v - 56320)) :: t).

(** Numbers. *)
Inductive digit_seq : Z -> text -> Z -> Prop :=
| ds_nil : forall z, digit_seq z [] z
| ds_cons : forall z c d s r, digit c d -> digit_seq (z * 10 + d) s r -> digit_seq z (c :: s) r.
Definition all_digits (s : text) : Prop := exists z, digit_seq 0 s z.
Inductive natural : text -> Z -> Prop :=
| na_zero : natural [48] 0
| na_more : forall c s z, 49 <= c <= 57 -> digit_seq (Z.of_N c - 48) s z -> natural (c :: s) z.
Inductive fraction_text : text -> Prop :=
| fr_none : fraction_text []
| fr_some : forall s, s <> [] -> all_digits s -> fraction_text (46 :: s).
Inductive exponent_text : text -> Prop :=
| ex_none : exponent_text []
| ex_some : forall e sg s, e = 101 \/ e = 69 -> sg = [] \/ sg = [43] \/ sg = [45] -> s <> [] -> all_digits s -> exponent_text (e :: sg ++ s).
Inductive number_text : text -> jv -> Prop :=
| nu_int : forall s z, natural s z -> number_text s (JInt z)
| nu_negative : forall s z, natural s z -> number_text (45 :: s) (JInt (- z))
| nu_float : forall sg s z fr ex, sg = [] \/ sg = [45] -> natural s z -> fraction_text fr -> exponent_text ex -> fr ++ ex <> [] ->
    number_text (sg ++ s ++ fr ++ ex) (JFloat (sg ++ s ++ fr ++ ex)).

(** Values, the items of an array and the members of an object. *)
Inductive value : nat -> text -> jv -> Prop :=
| v_null : forall p, value p [110; 117; 108; 108] JNull
| v_true : forall p, value p [116; 114; 117; 101] (JBool true)
| v_false : forall p, value p [102; 97; 108; 115; 101] (JBool false)
| v_number : forall p s v, number_text s v -> value p s v
| v_constant : forall p s, constants -> In s words -> value p s (JConst s)
| v_string : forall p s t, chars s t -> value p (34 :: s ++ [34]) (JStr t)
| v_no_items : forall p s, white s -> value p (91 :: s ++ [93]) (JArr (S p) (2 + length s + p) [])
| v_items : forall p s l, items (S p) s l -> value p (91 :: s ++ [93]) (JArr (S p) (2 + length s + p) l)
| v_no_members : forall p s, white s -> value p (123 :: s ++ [125]) (JObj (S p) (2 + length s + p) [])
| v_members : forall p s ms, members (S p) s ms -> value p (123 :: s ++ [125]) (JObj (S p) (2 + length s + p) ms)
with items : nat -> text -> list jv -> Prop :=
| i_last : forall p w1 s w2 v, white w1 -> white w2 -> value (length w1 + p) s v -> items p (w1 ++ s ++ w2) [v]
| i_more : forall p w1 s w2 v r l, white w1 -> white w2 -> value (length w1 + p) s v -> items (S (length (w1 ++ s ++ w2) + p)) r l ->
    items p (w1 ++ s ++ w2 ++ 44 :: r) (v :: l)
with members : nat -> text -> list (jkey * jv) -> Prop :=
| m_last : forall p m k v, member p m k v -> members p m [(k, v)]
| m_more : forall p m k v r ms, member p m k v -> members (S (length m + p)) r ms -> members p (m ++ 44 :: r) ((k, v) :: ms)
with member : nat -> text -> jkey -> jv -> Prop :=
| me : forall p w1 ks kt w2 w3 s w4 v, white w1 -> chars ks kt -> white w2 -> white w3 -> white w4 ->
    value (length (w1 ++ 34 :: ks ++ 34 :: w2 ++ 58 :: w3) + p) s v ->
    member p (w1 ++ 34 :: ks ++ 34 :: w2 ++ 58 :: w3 ++ s ++ w4) (mkKey kt (length w1 + p) (length w1 + p + length kt)) v.
Definition document (s : text) (v : jv) : Prop :=
  exists w1 t w2, s = w1 ++ t ++ w2 /\ white w1 /\ white w2 /\ value (length w1) t v.
End Grammar.

(** The grammar of RFC 8259. *)
Inductive hex_digit : N -> Z -> Prop :=
| hd_digit : forall c, 48 <= c <= 57 -> hex_digit c (Z.of_N c - 48)
| hd_upper : forall c, 65 <= c <= 70 -> hex_digit c (Z.of_N c - 55)
| hd_lower : forall c, 97 <= c <= 102 -> hex_digit c (Z.of_N c - 87).
Inductive hex4 : N -> N -> N -> N -> Z -> Prop :=
| hx : forall a b c d x y z w, hex_digit a x -> hex_digit b y -> hex_digit c z -> hex_digit d w ->
    hex4 a b c d (x * 4096 + y * 256 + z * 16 + w).
Inductive digit : N -> Z -> Prop := dg : forall c, 48 <= c <= 57 -> digit c (Z.of_N c - 48).
Definition denotes : text -> jv -> Prop := document hex4 digit False.

(** What the decoder takes for JSON: escapes are whatever four characters Python's int accepts (but for x or X in second place),
    digits include those of other scripts, and the constants are values. *)
Definition lax_hex4 (int16 : text -> option Z) (a b c d : N) (u : Z) : Prop := b <> 120 /\ b <> 88 /\ int16 [a; b; c; d] = Some u.
Definition lax_digit (other : N -> option Z) (c : N) (d : Z) : Prop := digit c d \/ 128 <= c /\ other c = Some d.
Definition accepted int16 other (s : text) (v : jv) : Prop :=
  document (lax_hex4 int16) (lax_digit other) True s v /\ (forall r, s <> 65279 :: r).
(** What is known of int(_, 16): hexadecimal digits mean what they mean. *)
Definition reads_hex (int16 : text -> option Z) : Prop := forall a b c d u, hex4 a b c d u -> int16 [a; b; c; d] = Some u.

(** Values with a null or repeated member at some depth. *)
Inductive faulty_object (ms : list (jkey * jv)) : jmsg -> Prop :=
| fo_null : forall k, In (k, JNull) ms -> faulty_object ms (MNull (k_text k))
| fo_repeated : forall l1 k v l2 k' v' l3, ms = l1 ++ (k, v) :: l2 ++ (k', v') :: l3 -> k_text k = k_text k' -> faulty_object ms (MDuplicate (k_text k')).
Inductive faulty : jv -> jmsg -> Prop :=
| fa_object : forall b e ms m, faulty_object ms m -> faulty (JObj b e ms) m
| fa_item : forall b e l v m, In v l -> faulty v m -> faulty (JArr b e l) m
| fa_member : forall b e ms k v m, In (k, v) ms -> faulty v m -> faulty (JObj b e ms) m.
(** How deep values are nested. *)
Fixpoint nesting (v : jv) : nat :=
  match v with
  | JArr _ _ l => S (fold_right (fun x n => Nat.max (nesting x) n) 0%nat l)
  | JObj _ _ ms => S (fold_right (fun x n => Nat.max (nesting (snd x)) n) 0%nat ms)
  | _ => 1%nat
  end.
(** Line (from 0) and column (from 1) of the position after [s]. *)
Inductive line_column : text -> Z -> Z -> Prop :=
| lc_first : forall s, ~ In 10 s -> line_column s 0 (1 + Z.of_nat (length s))
| lc_later : forall s r l c, ~ In 10 r -> line_column s l c -> line_column (s ++ 10 :: r) (l + 1) (1 + Z.of_nat (length r)).

(** Values without positions, and those that can be written: numbers with a fraction or exponent are kept as texts, which must be texts
    of such numbers; the words NaN and Infinity are no JSON. *)
Inductive plain :=
| PlNull | PlBool (b : bool) | PlInt (z : Z) | PlFloat (t : text) | PlConst (t : text) | PlStr (t : text)
| PlArr (l : list plain) | PlObj (ms : list (text * plain)).
Fixpoint without_positions (v : jv) : plain :=
  match v with
  | JNull => PlNull | JBool b => PlBool b | JInt z => PlInt z | JFloat t => PlFloat t | JConst t => PlConst t | JStr t => PlStr t
  | JArr _ _ l => PlArr (map without_positions l)
  | JObj _ _ ms => PlObj (map (fun m => (k_text (fst m), without_positions (snd m))) ms)
  end.
Inductive writable : plain -> Prop :=
| wr_null : writable PlNull
| wr_bool : forall b, writable (PlBool b)
| wr_int : forall z, writable (PlInt z)
| wr_float : forall t, number_text digit t (JFloat t) -> writable (PlFloat t)
| wr_str : forall t, writable (PlStr t)
| wr_arr : forall l, (forall x, In x l -> writable x) -> writable (PlArr l)
| wr_obj : forall ms, (forall k x, In (k, x) ms -> writable x) -> writable (PlObj ms).
