(** Well formed arguments of the intrinsic functions (C32). *)
From Coq Require Import List String ZArith QArith.
From Verif.Model Require Import Base Rules.
From Verif.Spec Require Import Paths ConditionUse.
Import ListNotations.
Local Open Scope string_scope.

(** [judged f template globals fault ms]: the findings are those of the uses of [f], one use after the other, and a use at [p] with
    the argument [v] is reported at the place [r] below it exactly when [fault p v r]. *)
Definition judged (f : string) (template globals : val) (fault : path -> val -> path -> Prop) (ms : list rulematch) : Prop :=
  exists out : list (path * val * list path),
    map rm_path ms = List.concat (map (fun x => map (fun r => fst (fst x) ++ PKey f :: r)%list (snd x)) out) /\
    (forall p v, occurs f template globals p v <-> exists rs, In (p, v, rs) out) /\
    forall p v rs, In (p, v, rs) out -> forall r, In r rs <-> fault p v r.
(** The whole argument is at fault when it is not [ok]. *)
Definition unless (ok : val -> Prop) (p : path) (v : val) (r : path) : Prop := r = [] /\ ~ ok v.

Definition text (v : val) : Prop := exists s, v = VStr s.
Definition object (v : val) : Prop := exists d, v = VDict d.
Definition whole_number (v : val) : Prop := (exists z, v = VInt z) \/ exists b, v = VBool b.
(** A call of one of the functions, and an object that is no call at all. *)
Definition calls (fs : list string) (v : val) : Prop := exists k x, v = VDict [(k, x)] /\ In k fs.
Definition no_call (v : val) : Prop := exists d, v = VDict d /\ List.length d <> 1%nat.

Definition base64_ok (v : val) : Prop := text v \/ exists k x, v = VDict [(k, x)] /\ k <> "Fn::Split".
Definition list_ok (v : val) : Prop := exists l, v = VList l.
Definition getaz_ok (regions : list string) (v : val) : Prop :=
  v = VStr "" \/ (exists s, v = VStr s /\ In s regions) \/ v = VDict [("Ref", VStr "AWS::Region")].
Definition import_ok (v : val) : Prop :=
  text v \/ calls ["Fn::Base64"; "Fn::FindInMap"; "Fn::If"; "Fn::Join"; "Fn::Select"; "Fn::Split"; "Fn::Sub"; "Ref"] v.
(** Fn::ImportValue is also wrong anywhere in the Conditions. *)
Definition import_fault (p : path) (v : val) (r : path) : Prop :=
  r = [] /\ (~ import_ok v \/ exists rest, p = PKey "Conditions" :: rest).

(** Fn::Select: an index and a list.  An object that is no call is not looked at as an index. *)
Definition index_ok (py_int : string -> bool) (v : val) : Prop :=
  whole_number v \/ (exists q, v = VFloat q) \/ (exists s, v = VStr s /\ py_int s = true) \/ calls ["Ref"; "Fn::FindInMap"] v \/ no_call v.
Definition select_ok (py_int : string -> bool) (v : val) : Prop :=
  exists i l, v = VList [i; l] /\ index_ok py_int i /\
    (list_ok l \/ calls ["Fn::FindInMap"; "Fn::GetAtt"; "Fn::GetAZs"; "Fn::If"; "Fn::Split"; "Fn::Cidr"; "Ref"] l).

(** Fn::Split: a delimiter and a text. *)
Definition split_source (k : string) : Prop :=
  In k ["Fn::Base64"; "Fn::FindInMap"; "Fn::GetAZs"; "Fn::GetAtt"; "Fn::If"; "Fn::ImportValue"; "Fn::Join"; "Fn::Select"; "Fn::Sub"; "Ref"].
Inductive split_fault (p : path) : val -> path -> Prop :=
| sf_shape : forall v, (forall d s, v <> VList [d; s]) -> split_fault p v []
| sf_delimiter : forall d s, ~ text d -> split_fault p (VList [d; s]) [PIdx 0]
| sf_function : forall d k x, ~ split_source k -> split_fault p (VList [d; VDict [(k, x)]]) [PKey k]
| sf_source : forall d s, ~ text s -> (forall k x, s <> VDict [(k, x)]) -> split_fault p (VList [d; s]) [].

(** Fn::FindInMap: the name of a map and two keys. *)
Definition map_named (template : val) (s : string) : Prop :=
  exists d ms x, template = VDict d /\ assoc "Mappings" d = Some (VDict ms) /\ assoc s ms = Some x.
(** [argument_fault ok v r]: what is wrong with an argument that may be a call of Fn::FindInMap or of Ref. *)
Inductive argument_fault (ok : val -> Prop) : val -> path -> Prop :=
| af_function : forall k x, ~ In k ["Fn::FindInMap"; "Ref"] -> argument_fault ok (VDict [(k, x)]) [PKey k]
| af_other : forall v, ~ ok v -> (forall k x, v <> VDict [(k, x)]) -> argument_fault ok v [].
Definition map_key_ok (v : val) : Prop := text v \/ whole_number v.
Definition map_name_ok (template : val) (v : val) : Prop := exists s, v = VStr s /\ map_named template s.
Inductive map_fault (template : val) (p : path) : val -> path -> Prop :=
| mf_shape : forall v, (forall l, v <> VList l) -> map_fault template p v []
| mf_length : forall l, List.length l <> 3%nat -> map_fault template p (VList l) [PIdx 1]
| mf_name : forall n k1 k2 r, argument_fault (map_name_ok template) n r -> map_fault template p (VList [n; k1; k2]) (PIdx 0 :: r)
| mf_first : forall n k1 k2 r, argument_fault map_key_ok k1 r -> map_fault template p (VList [n; k1; k2]) (PIdx 1 :: r)
| mf_second : forall n k1 k2 r, argument_fault map_key_ok k2 r -> map_fault template p (VList [n; k1; k2]) (PIdx 2 :: r).
(** The Mappings section, if there is one, is an object. *)
Definition plain_mappings (template : val) : Prop :=
  exists d, template = VDict d /\ forall x, assoc "Mappings" d = Some x -> object x.

(** Fn::Cidr: a block of addresses, a count and the size of the subnets.  Objects that are no calls are not looked at. *)
Definition cidr_range (s : string) : Prop :=
  exists a b c d n : Z, (0 <= a <= 255 /\ 0 <= b <= 255 /\ 0 <= c <= 255 /\ 0 <= d <= 255 /\ 0 <= n <= 32)%Z /\
    s = str_of_Z a ++ "." ++ str_of_Z b ++ "." ++ str_of_Z c ++ "." ++ str_of_Z d ++ "/" ++ str_of_Z n.
Definition cidr_calls : val -> Prop := calls ["Fn::FindInMap"; "Fn::Select"; "Ref"; "Fn::GetAtt"; "Fn::Sub"; "Fn::ImportValue"].
(** A line feed behind the block is overlooked. *)
Definition block_ok (v : val) : Prop :=
  (exists s, v = VStr s /\ (cidr_range s \/ exists t, s = t ++ String "010" "" /\ cidr_range t)) \/ cidr_calls v \/ no_call v.
Definition count_ok (v : val) : Prop := whole_number v \/ cidr_calls v \/ no_call v.
(** The size is required, although CloudFormation has a default for it. *)
Inductive cidr_fault (p : path) : val -> path -> Prop :=
| cf_shape : forall v, (forall b c, v <> VList [b; c]) -> (forall b c m, v <> VList [b; c; m]) -> cidr_fault p v []
| cf_block : forall b c rest, (List.length rest <= 1)%nat -> ~ block_ok b -> cidr_fault p (VList (b :: c :: rest)) [PIdx 0]
| cf_count : forall b c rest, (List.length rest <= 1)%nat -> ~ count_ok c -> cidr_fault p (VList (b :: c :: rest)) [PIdx 1]
| cf_size : forall b c m, ~ count_ok m -> cidr_fault p (VList [b; c; m]) [PIdx 2]
| cf_no_size : forall b c, cidr_fault p (VList [b; c]) [PIdx 2].
(** A parameter that is used as argument number [i]. *)
Definition cidr_uses (template globals : val) (i : nat) (n : string) : Prop :=
  exists p l, occurs "Fn::Cidr" template globals p (VList l) /\ (List.length l = 2 \/ List.length l = 3)%nat /\
    nth_error l i = Some (VDict [("Ref", VStr n)]).
Definition number_is (v : val) (q : QArith_base.Q) : Prop := v = VFloat q \/ (exists z, v = VInt z /\ q = inject_Z z) \/ exists b, v = VBool b /\ q = (if b : bool then 1 # 1 else 0 # 1).
Definition bound_ok (o : list (string * val)) (key : string) : Prop :=
  exists v q, assoc key o = Some v /\ number_is v q /\ Qle (1 # 1) q /\ Qle q (256 # 1).
(** The parameter has to be a Number whose bounds lie between 1 and 256. *)
Inductive cidr_parameter_fault (template : val) (n : string) : path -> Prop :=
| cp_type : forall d ps o, template = VDict d -> assoc "Parameters" d = Some (VDict ps) -> assoc n ps = Some (VDict o) -> o <> [] ->
    assoc "Type" o <> Some (VStr "Number") -> cidr_parameter_fault template n [PKey "Parameters"; PKey n]
| cp_bound : forall d ps o key, template = VDict d -> assoc "Parameters" d = Some (VDict ps) -> assoc n ps = Some (VDict o) ->
    assoc "Type" o = Some (VStr "Number") -> In key ["MinValue"; "MaxValue"] -> ~ bound_ok o key ->
    cidr_parameter_fault template n [PKey "Parameters"; PKey n; PKey key].
(** The Parameters section, if there is one, is an object of objects. *)
Definition plain_parameters (template : val) : Prop :=
  exists d, template = VDict d /\ forall x, assoc "Parameters" d = Some x -> exists ps, x = VDict ps /\ forall n y, In (n, y) ps -> object y.

(** The keys of Fn::FindInMap (W1011).  A text of three characters counts as a list of its characters. *)
Inductive map_arguments : val -> val -> val -> val -> Prop :=
| ma_list : forall n k1 k2, map_arguments (VList [n; k1; k2]) n k1 k2
| ma_text : forall a b c, map_arguments (VStr (String a (String b (String c "")))) (VStr (String a "")) (VStr (String b "")) (VStr (String c "")).
(** A map that has members, and what is under a key.  A key that is a number is never there. *)
Definition map_called (template n : val) (m : list (string * val)) : Prop :=
  exists s d ms, n = VStr s /\ template = VDict d /\ assoc "Mappings" d = Some (VDict ms) /\ assoc s ms = Some (VDict m) /\ m <> [].
Definition under (m : list (string * val)) (k x : val) : Prop := exists s, k = VStr s /\ assoc s m = Some x /\ x <> VNull.
Inductive map_keys_fault (template : val) (p : path) : val -> path -> Prop :=
| mk_first : forall v n k1 k2 m, map_arguments v n k1 k2 -> map_called template n m -> map_key_ok k1 -> map_key_ok k2 ->
    (forall x, ~ under m k1 x) -> map_keys_fault template p v [PIdx 1]
| mk_second : forall v n k1 k2 m o, map_arguments v n k1 k2 -> map_called template n m -> map_key_ok k2 ->
    under m k1 (VDict o) -> o <> [] -> (forall y, ~ under o k2 y) -> map_keys_fault template p v [PIdx 2]
| mk_any : forall v n k1 k2 m k o, map_arguments v n k1 k2 -> map_called template n m -> ~ map_key_ok k1 -> map_key_ok k2 ->
    In (k, VDict o) m -> (forall y, ~ under o k2 y) -> map_keys_fault template p v [PIdx 2].
(** The Mappings section is an object, if there is one, and so is each map and what its keys lead to. *)
Definition plain_maps (template : val) : Prop :=
  exists d, template = VDict d /\ forall x, assoc "Mappings" d = Some x -> exists ms, x = VDict ms /\
    forall n y, In (n, y) ms -> exists m, y = VDict m /\ forall k z, In (k, z) m -> object z.
