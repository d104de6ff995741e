(** Which nested property objects of a resource are to be checked (C06, C42): a relation that follows the resource
    specification from an object into its members. *)
From Coq Require Import List String.
From Verif.Model Require Import Base Rules.
From Verif.Spec Require Import Branches.
Import ListNotations.

Section Walk.
Variable sp : spec.
Variable rt : string.                    (* the resource type *)

(** The name under which a nested type is listed: Tag is shared, others are qualified by the resource type. *)
Inductive type_name : option string -> string -> Prop :=
| tn_tag : type_name (Some "Tag"%string) "Tag"%string
| tn_other : forall t, t <> "Tag"%string -> type_name (Some t) (rt ++ "." ++ t)%string
| tn_none : type_name None (rt ++ "." ++ "None")%string.

Definition listed (name : string) (ts : typespec) : Prop :=
  exists l1 l2, sp_property_types sp = l1 ++ (name, ts) :: l2 /\ ~ In name (map fst l1).
Definition has_prop (props : list (string * propdef)) (key : string) (pd : propdef) : Prop :=
  exists l1 l2, props = l1 ++ (key, pd) :: l2 /\ ~ In key (map fst l1).
Definition list_prop (props : list (string * propdef)) (pd : propdef) : Prop :=
  pd_type pd = Some "List"%string /\ ~ In "PrimitiveItemType"%string (map fst props).

(** [nested pt v p name w q]: checking object [v] at path [p] as an object of type [pt] leads to checking [w] at [q] as
    an object of the listed type [name]. *)
Inductive nested : option string -> val -> path -> string -> val -> path -> Prop :=
| n_here : forall pt name ts v p, type_name pt name -> listed name ts -> nested pt v p name v p
| n_list : forall pt name ts l i x p n w q,
    type_name pt name -> listed name ts -> ts_props ts = None \/ ts_props ts = Some [] -> ts_type ts = Some "List"%string ->
    nth_error l i = Some x -> nested (ts_item ts) x (p ++ [PIdx i]) n w q ->
    nested pt (VList l) p n w q
| n_prop_list : forall pt name ts props d key pd l i x p n w q,
    type_name pt name -> listed name ts -> ts_props ts = Some props ->
    In (key, VList l) d -> has_prop props key pd -> list_prop props pd ->
    nth_error l i = Some x -> nested (pd_item pd) x (p ++ [PKey key; PIdx i]) n w q ->
    nested pt (VDict d) p n w q
| n_prop_obj : forall pt name ts props d key pd t d' p n w q,
    type_name pt name -> listed name ts -> ts_props ts = Some props ->
    In (key, VDict d') d -> has_prop props key pd -> ~ list_prop props pd -> pd_type pd = Some t -> t <> ""%string ->
    nested (Some t) (VDict d') (p ++ [PKey key]) n w q ->
    nested pt (VDict d) p n w q
| n_if : forall pt name ts props d c b1 b2 b i p n w q,
    type_name pt name -> listed name ts -> ts_props ts = Some props -> props <> [] ->
    In ("Fn::If"%string, VList [c; b1; b2]) d -> ~ In "Fn::If"%string (map fst props) ->
    (i = 1 /\ b = b1 \/ i = 2 /\ b = b2) -> is_list b = false ->
    nested pt b (p ++ [PKey "Fn::If"; PIdx i]) n w q ->
    nested pt (VDict d) p n w q
| n_if_list : forall pt name ts props d c b1 b2 l i j x p n w q,
    type_name pt name -> listed name ts -> ts_props ts = Some props -> props <> [] ->
    In ("Fn::If"%string, VList [c; b1; b2]) d -> ~ In "Fn::If"%string (map fst props) ->
    (i = 1 /\ VList l = b1 \/ i = 2 /\ VList l = b2) -> nth_error l j = Some x ->
    nested pt x (p ++ [PKey "Fn::If"; PIdx i; PIdx j]) n w q ->
    nested pt (VDict d) p n w q.

(** The nested objects of a resource with properties [props] at path [p]: first choose branches of the Fn::If's around
    the properties, then follow the resource type's properties. *)
Definition resource_listed (ts : typespec) : Prop :=
  exists l1 l2, sp_resource_types sp = l1 ++ (rt, ts) :: l2 /\ ~ In rt (map fst l1).
Inductive resource_nested (props : val) (p : path) : string -> val -> path -> Prop :=
| rn_list : forall d vp ts sps key pd l i x n w q,
    branch props p (VDict d) vp -> resource_listed ts -> ts_props ts = Some sps ->
    In (key, VList l) d -> has_prop sps key pd -> list_prop sps pd ->
    nth_error l i = Some x -> nested (pd_item pd) x (vp ++ [PKey key; PIdx i]) n w q ->
    resource_nested props p n w q
| rn_obj : forall d vp ts sps key pd t d' n w q,
    branch props p (VDict d) vp -> resource_listed ts -> ts_props ts = Some sps ->
    In (key, VDict d') d -> has_prop sps key pd -> ~ list_prop sps pd -> pd_type pd = Some t -> t <> ""%string ->
    nested (Some t) (VDict d') (vp ++ [PKey key]) n w q ->
    resource_nested props p n w q.
End Walk.

(** A resource of the template: a member of Resources that is an object with a (non-null) Type. *)
Definition resource_of (t : val) (name rt : string) (attrs : list (string * val)) : Prop :=
  exists top rs, t = VDict top /\ assoc "Resources" top = Some (VDict rs) /\ In (name, VDict attrs) rs /\
                 assoc "Type" attrs = Some (VStr rt).
