(** The values an object wrapped in Fn::If can become (C19, C06, C27). *)
From Coq Require Import List String.
From Verif.Model Require Import Base.
Import ListNotations.

(** The reference that stands for "no value". *)
Definition NoValue : val := VDict [("Ref"%string, VStr "AWS::NoValue")].
(** An object that is a single Fn::If. *)
Definition If_of (x : val) : val := VDict [("Fn::If"%string, x)].
Definition is_if (v : val) : Prop := exists x, v = If_of x.

(** [w] is [v] without its members that are "no value" (only objects change). *)
Inductive pruned : list (string * val) -> list (string * val) -> Prop :=
| pr_nil : pruned [] []
| pr_drop : forall k d d', pruned d d' -> pruned ((k, NoValue) :: d) d'
| pr_keep : forall k x d d', x <> NoValue -> pruned d d' -> pruned ((k, x) :: d) ((k, x) :: d').
Inductive settled : val -> val -> Prop :=
| st_dict : forall d d', pruned d d' -> settled (VDict d) (VDict d')
| st_other : forall v, is_dict v = false -> settled v v.

(** [branch v p w q]: choosing branches of the Fn::If's around [v] at path [p] leads to [w] at path [q]. *)
Inductive branch : val -> path -> val -> path -> Prop :=
| br_then : forall c a b p w q,
    branch a (p ++ [PKey "Fn::If"; PIdx 1]) w q -> branch (If_of (VList [c; a; b])) p w q
| br_else : forall c a b p w q,
    branch b (p ++ [PKey "Fn::If"; PIdx 2]) w q -> branch (If_of (VList [c; a; b])) p w q
| br_leaf : forall v w p, ~ is_if v -> v <> NoValue -> settled v w -> branch v p w p.

(** The same without dropping members: [alternative v p w q]: choosing branches leads from [v] at [p] to [w] at [q]. *)
Inductive alternative : val -> path -> val -> path -> Prop :=
| alt_then : forall c a b p w q,
    alternative a (p ++ [PKey "Fn::If"; PIdx 1]) w q -> alternative (If_of (VList [c; a; b])) p w q
| alt_else : forall c a b p w q,
    alternative b (p ++ [PKey "Fn::If"; PIdx 2]) w q -> alternative (If_of (VList [c; a; b])) p w q
| alt_leaf : forall v p, ~ is_if v -> v <> NoValue -> alternative v p v p.

(** The single values of a property: an alternative that is a list contributes the alternatives of its items. *)
Inductive single : val -> path -> val -> path -> Prop :=
| sg_value : forall v p w q, alternative v p w q -> is_list w = false -> single v p w q
| sg_item : forall v p l q i x w r, alternative v p (VList l) q -> nth_error l i = Some x ->
    alternative x (q ++ [PIdx i]) w r -> single v p w r.
