(** What template nodes mean, and what is wrong with them (C12). *)
From Coq Require Import List.
From Verif.Model Require Import Base Yaml.
Import ListNotations.
Local Open Scope string_scope.

Section Nodes.
Variable scalar : string -> string -> val + exn.
(** The text of !GetAtt is a resource and an attribute, parted by the first dot. *)
Inductive getatt_parts : string -> list string -> Prop :=
| gp_whole : forall s, has_char "." s = false -> getatt_parts s [s]
| gp_parts : forall a b, has_char "." a = false -> getatt_parts (a ++ String "." b) [a; b].
(** The function a tag stands for. *)
Inductive tag_function : string -> string -> Prop :=
| tf_ref : tag_function "Ref" "Ref"
| tf_condition : tag_function "Condition" "Condition"
| tf_other : forall s, s <> "Ref" -> s <> "Condition" -> tag_function s ("Fn::" ++ s).
(** Nodes and the values they mean: mappings with texts as keys, and the short forms of functions. *)
Inductive means : ynode -> yv -> Prop :=
| mn_text : forall m s, means (NStr m s) (YText s)
| mn_scalar : forall m t s v, scalar t s = inl v -> means (NScalar m t s) (YScalar v)
| mn_seq : forall m l vs, means_items l vs -> means (NSeq m l) (YList vs)
| mn_map : forall m ms d, means_members ms d -> means (NMap m ms) (YDict d)
| mn_short_text : forall m t f s, tag_function t f -> t <> "GetAtt" -> means (NTagS m t s) (YDict [(YText f, YText s)])
| mn_short_getatt : forall m s l, getatt_parts s l -> means (NTagS m "GetAtt" s) (YDict [(YText "Fn::GetAtt", YList (map YText l))])
| mn_short_list : forall m t f l vs, tag_function t f -> t <> "GetAtt" -> means_items l vs -> means (NTagL m t l) (YDict [(YText f, YList vs)])
with means_items : list ynode -> list yv -> Prop :=
| mi_nil : means_items [] []
| mi_cons : forall n v l vs, means n v -> means_items l vs -> means_items (n :: l) (v :: vs)
with means_members : list (ynode * ynode) -> list (yv * yv) -> Prop :=
| mm_nil : means_members [] []
| mm_cons : forall m k n v ms d, means n v -> means_members ms d -> means_members ((NStr m k, n) :: ms) ((YText k, v) :: d).

(** Nulls and repeated keys, at any depth, with the error that names them. *)
Inductive wrong : ynode -> yerr -> Prop :=
| wr_null : forall m s, wrong (NNull m s) (YNull m)
| wr_repeated : forall m l1 m1 k n1 l2 m2 n2 l3, wrong (NMap m (l1 ++ (NStr m1 k, n1) :: l2 ++ (NStr m2 k, n2) :: l3)) (YDuplicate k m2)
| wr_item : forall m l n e, In n l -> wrong n e -> wrong (NSeq m l) e
| wr_member : forall m ms k n e, In (k, n) ms -> wrong n e -> wrong (NMap m ms) e
| wr_short : forall m t l n e, In n l -> wrong n e -> wrong (NTagL m t l) e.

(** The nodes of templates covered: keys are texts, other scalars are readable, and no short form is given a mapping or, for !GetAtt, a
    list. *)
Inductive ordinary : ynode -> Prop :=
| or_text : forall m s, ordinary (NStr m s)
| or_null : forall m s, ordinary (NNull m s)
| or_scalar : forall m t s v, scalar t s = inl v -> ordinary (NScalar m t s)
| or_seq : forall m l, (forall n, In n l -> ordinary n) -> ordinary (NSeq m l)
| or_map : forall m ms, (forall k n, In (k, n) ms -> (exists mk s, k = NStr mk s) /\ ordinary n) -> ordinary (NMap m ms)
| or_short_text : forall m t s, ordinary (NTagS m t s)
| or_short_list : forall m t l, t <> "GetAtt" -> (forall n, In n l -> ordinary n) -> ordinary (NTagL m t l).
End Nodes.
