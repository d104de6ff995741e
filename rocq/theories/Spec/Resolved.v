(** What is left of a value when conditions are decided (C18) and which places exist in a deployment (C33). *)
From Coq Require Import List String.
From Verif.Model Require Import Base.
Import ListNotations.
Local Open Scope string_scope.

Definition if_ (c : string) (t e : val) : val := VDict [("Fn::If", VList [VStr c; t; e])].
Definition no_value : val := VDict [("Ref", VStr "AWS::NoValue")].

(** [resolved decide v r]: deciding the Fn::If at the top of [v], or at the top of an item when [v] is a list, leaves [r];
    [None] means that nothing is left.  [decide c = None]: the condition is not decided and its Fn::If stays. *)
Inductive resolved (decide : string -> option bool) : val -> option val -> Prop :=
| r_then : forall c t e r, decide c = Some true -> resolved decide t r -> resolved decide (if_ c t e) r
| r_else : forall c t e r, decide c = Some false -> resolved decide e r -> resolved decide (if_ c t e) r
| r_undecided : forall c t e, decide c = None -> resolved decide (if_ c t e) (Some (if_ c t e))
| r_no_value : resolved decide no_value None
| r_null : resolved decide VNull None
| r_bool : forall b, resolved decide (VBool b) (Some (VBool b))
| r_int : forall z, resolved decide (VInt z) (Some (VInt z))
| r_float : forall q, resolved decide (VFloat q) (Some (VFloat q))
| r_str : forall s, resolved decide (VStr s) (Some (VStr s))
| r_object : forall d, (forall x, d <> [("Fn::If", x)]) -> VDict d <> no_value ->
    resolved decide (VDict d) (Some (VDict d))
| r_list : forall l l', resolved_items decide l l' -> resolved decide (VList l) (Some (VList l'))
with resolved_items (decide : string -> option bool) : list val -> list val -> Prop :=
| ri_nil : resolved_items decide [] []
| ri_keep : forall x y l l', resolved decide x (Some y) -> resolved_items decide l l' ->
    resolved_items decide (x :: l) (y :: l')
| ri_drop : forall x l l', resolved decide x None -> resolved_items decide l l' -> resolved_items decide (x :: l) l'.

(** The members of an object that are left. *)
Inductive resolved_members (decide : string -> option bool) : list (string * val) -> list (string * val) -> Prop :=
| rm_nil : resolved_members decide [] []
| rm_keep : forall k x y d d', resolved decide x (Some y) -> resolved_members decide d d' ->
    resolved_members decide ((k, x) :: d) ((k, y) :: d')
| rm_drop : forall k x d d', resolved decide x None -> resolved_members decide d d' ->
    resolved_members decide ((k, x) :: d) d'.

(** Every Fn::If at the top has a name and two branches. *)
Inductive plain_ifs : val -> Prop :=
| pi_if : forall c t e, plain_ifs t -> plain_ifs e -> plain_ifs (if_ c t e)
| pi_null : plain_ifs VNull
| pi_bool : forall b, plain_ifs (VBool b)
| pi_int : forall z, plain_ifs (VInt z)
| pi_float : forall q, plain_ifs (VFloat q)
| pi_str : forall s, plain_ifs (VStr s)
| pi_object : forall d, (forall x, d <> [("Fn::If", x)]) -> plain_ifs (VDict d)
| pi_list : forall l, (forall x, In x l -> plain_ifs x) -> plain_ifs (VList l).

(** The conditions of the Fn::Ifs that [resolved] meets. *)
Inductive looks_at : val -> string -> Prop :=
| la_here : forall c t e, looks_at (if_ c t e) c
| la_then : forall c t e n, looks_at t n -> looks_at (if_ c t e) n
| la_else : forall c t e n, looks_at e n -> looks_at (if_ c t e) n
| la_item : forall l x n, In x l -> looks_at x n -> looks_at (VList l) n.
Definition members_look_at (d : list (string * val)) (n : string) : Prop := exists k x, In (k, x) d /\ looks_at x n.

(** * Places *)

(** [place v p]: the path [p] leads somewhere in [v]; where it passes an Fn::If it goes on into one of its three
    arguments, and the first of these is a condition name. *)
Inductive place : val -> path -> Prop :=
| pl_here : forall v, place v []
| pl_if : forall d c t e i x p, assoc "Fn::If" d = Some (VList [VStr c; t; e]) ->
    nth_error [VStr c; t; e] i = Some x -> place x p -> place (VDict d) (PKey "Fn::If" :: PIdx i :: p)
| pl_key : forall d k x p, k <> "Fn::If" -> assoc k d = Some x -> place x p -> place (VDict d) (PKey k :: p)
| pl_item : forall l i x p, nth_error l i = Some x -> place x p -> place (VList l) (PIdx i :: p).

(** [passes v p c b]: the path goes through the branch for [c = b] of an Fn::If. *)
Inductive passes : val -> path -> string -> bool -> Prop :=
| ps_then : forall d c t e p, assoc "Fn::If" d = Some (VList [VStr c; t; e]) ->
    passes (VDict d) (PKey "Fn::If" :: PIdx 1 :: p) c true
| ps_else : forall d c t e p, assoc "Fn::If" d = Some (VList [VStr c; t; e]) ->
    passes (VDict d) (PKey "Fn::If" :: PIdx 2 :: p) c false
| ps_key : forall d k x p c b, assoc k d = Some x -> passes x p c b -> passes (VDict d) (PKey k :: p) c b
| ps_item : forall l i x p c b, nth_error l i = Some x -> passes x p c b -> passes (VList l) (PIdx i :: p) c b.

(** The Condition of the resource or output called [name]. *)
Definition condition_of (section name : string) (template : val) (c : string) : Prop :=
  exists d s o, template = VDict d /\ assoc section d = Some (VDict s) /\ assoc name s = Some (VDict o) /\
    assoc "Condition" o = Some (VStr c) /\ c <> "".

(** A place needs the conditions of the branches it is in, and the condition of its resource or output. *)
Definition needs (template : val) (p : path) (c : string) (b : bool) : Prop :=
  passes template p c b \/
  (b = true /\ exists section name rest, p = PKey section :: PKey name :: rest /\ In section ["Resources"; "Outputs"] /\
     condition_of section name template c).

(** The place exists when the conditions have the values [b]. *)
Definition place_exists (b : string -> bool) (template : val) (p : path) : Prop :=
  forall c x, needs template p c x -> b c = x.

(** Resources and outputs are objects, and their Condition is a name. *)
Definition plain_conditions (template : val) : Prop :=
  exists d, template = VDict d /\ forall section s, In section ["Resources"; "Outputs"] -> assoc section d = Some s ->
    exists m, s = VDict m /\ forall n x, assoc n m = Some x -> exists o, x = VDict o /\
      (assoc "Condition" o = None \/ exists c, assoc "Condition" o = Some (VStr c)).
