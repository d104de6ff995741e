(** The size of JSON documents in properties (C86). *)
From Coq Require Import List String Ascii ZArith QArith.
From Verif.Model Require Import Base Helpers PropertyRules.
Import ListNotations.
Local Open Scope string_scope.
Local Open Scope nat_scope.

(** * The size of a document *)
(** Characters that JSON writes as a backslash and a letter, as they are, and as a backslash, the letter u and four digits. *)
Definition char_size (a : ascii) : nat :=
  let n := nat_of_ascii a in
  if existsb (Nat.eqb n) [8; 9; 10; 12; 13; 34; 92] then 2 else if Nat.leb 32 n && Nat.leb n 126 then 1 else 6.
Fixpoint chars_size (s : string) : nat := match s with EmptyString => 0 | String a r => char_size a + chars_size r end.
Definition text_size (s : string) : nat := 2 + chars_size s.
(** The sum of sizes, with one character between each two. *)
Definition series (l : list nat) : nat := list_sum l + (List.length l - 1).
(** The number of characters of the document without white space; [float_size] is that of a number with a fraction. *)
Fixpoint json_size (float_size : Q -> nat) (v : val) : nat :=
  match v with
  | VNull => 4
  | VBool true => 4
  | VBool false => 5
  | VInt z => String.length (str_of_Z z)
  | VFloat q => float_size q
  | VStr s => text_size s
  | VList l => 2 + series (map (json_size float_size) l)
  | VDict d => 2 + series (map (fun kv => text_size (fst kv) + 1 + json_size float_size (snd kv)) d)
  end.

(** * What is counted *)
(** Placeholders of Fn::Sub are left out: from each first dollar and opening brace to the last closing brace of the line. *)
Definition in_line (s : string) : Prop := ~ In (ascii_of_nat 10) (list_ascii_of_string s).
Inductive unfilled : string -> string -> Prop :=
| uf_end : unfilled "" ""
| uf_cut : forall m s s', in_line m -> (forall a b, in_line a -> s <> a ++ "}" ++ b) -> unfilled s s' -> unfilled ("${" ++ m ++ "}" ++ s) s'
| uf_keep : forall a s s', (forall m b, in_line m -> String a s <> "${" ++ m ++ "}" ++ b) -> unfilled s s' -> unfilled (String a s) (String a s').
Definition function_call (d : list (string * val)) : Prop := exists k x, d = [(k, x)] /\ In k FUNCTIONS.
(** [counted v w]: what is counted of [v] is [w].  Functions other than Fn::Sub are counted as they are written. *)
Inductive counted : val -> val -> Prop :=
| co_null : counted VNull VNull
| co_bool : forall b, counted (VBool b) (VBool b)
| co_int : forall z, counted (VInt z) (VInt z)
| co_float : forall q, counted (VFloat q) (VFloat q)
| co_str : forall s, counted (VStr s) (VStr s)
| co_sub : forall s s', unfilled s s' -> counted (VDict [("Fn::Sub", VStr s)]) (VStr s')
| co_sub_list : forall s l s', unfilled s s' -> counted (VDict [("Fn::Sub", VList (VStr s :: l))]) (VStr s')
| co_function : forall k x, In k FUNCTIONS -> k <> "Fn::Sub" -> counted (VDict [(k, x)]) (VDict [(k, x)])
| co_list : forall l l', Forall2 counted l l' -> counted (VList l) (VList l')
| co_object : forall d d', ~ function_call d -> Forall2 (fun kv kw => fst kv = fst kw /\ counted (snd kv) (snd kw)) d d' -> counted (VDict d) (VDict d').
(** Every Fn::Sub has a text, or a list that starts with one. *)
Inductive subs_written : val -> Prop :=
| sw_leaf : forall v, is_dict v || is_list v = false -> subs_written v
| sw_function : forall k x, In k FUNCTIONS -> (k = "Fn::Sub" -> exists s, x = VStr s \/ exists l, x = VList (VStr s :: l)) -> subs_written (VDict [(k, x)])
| sw_list : forall l, (forall x, In x l -> subs_written x) -> subs_written (VList l)
| sw_object : forall d, ~ function_call d -> (forall k x, In (k, x) d -> subs_written x) -> subs_written (VDict d).

(** * The limit *)
(** A property that holds JSON of a value type with a limit. *)
Definition json_limit (json_max : string -> option Z) (ps : pspec) (limit : Z) : Prop :=
  ps_primitive ps = Some "Json" /\ exists t, assoc "ValueType" (ps_value ps) = Some t /\ json_max t = Some limit.
(** Value types of properties that hold JSON have a limit. *)
Definition limits_known (json_max : string -> option Z) (specs : pspecs) : Prop :=
  forall prop ps, assoc prop specs = Some ps -> ps_primitive ps = Some "Json" -> ps_value ps <> [] -> exists limit, json_limit json_max ps limit.
(** The document [v] is longer than [limit]. *)
Definition too_long (float_size : Q -> nat) (limit : Z) (v : val) : Prop := exists w, counted v w /\ (limit < Z.of_nat (json_size float_size w))%Z.
Definition json_words (limit : Z) : string := "Role trust policy JSON text cannot be longer than " ++ str_of_Z limit ++ " characters".
(** What is left of a member of an object: null where there is nothing left. *)
Definition member_left (r : option val) : val := match r with Some v => v | None => VNull end.
