(** Templates that the serverless translator made (C98). *)
From Coq Require Import List ZArith.
From Verif.Model Require Import Base Locate Rules Runner Config Core Serverless Translated.
From Verif.Spec Require Import Paths.
Import ListNotations.
Local Open Scope string_scope.

(** The mark an object, a list or a text has of its own, because it stood in the file. *)
Definition own_mark (t : pval) : option mark :=
  match t with PScalar _ => None | PStr m _ | PList m _ | PDict m _ => m end.
(** [origin t p near r]: following [p] in [t], where [near] is the mark of the last key of the file so far, one gets to [r]: the mark of
    the last item of the path, if it stood in the file, or else of the last key on the path that did. *)
Inductive origin : pval -> path -> option mark -> option mark -> Prop :=
| o_here : forall t near, origin t [] near near
| o_key : forall m d k km x rest near r, In ((k, km), x) d ->
    origin x rest (match km with Some _ => km | None => near end) r -> origin (PDict m d) (PKey k :: rest) near r
| o_item : forall m l i x e rest near r, nth_error l i = Some x -> origin x (e :: rest) near r -> origin (PList m l) (PIdx i :: e :: rest) near r
| o_last : forall m l i x near, nth_error l i = Some x -> origin (PList m l) [PIdx i] near (match own_mark x with Some _ => own_mark x | None => near end).
(** The marks that stand in the template are those of a file: lines are counted from zero. *)
Inductive of_file : pval -> Prop :=
| of_scalar : forall v, of_file (PScalar v)
| of_text : forall m s, (forall x, m = Some x -> (0 <= sl x)%Z) -> of_file (PStr m s)
| of_list : forall m l, (forall x, m = Some x -> (0 <= sl x)%Z) -> (forall x, In x l -> of_file x) -> of_file (PList m l)
| of_object : forall m d, (forall x, m = Some x -> (0 <= sl x)%Z) ->
    (forall k km x, In ((k, km), x) d -> (forall y, km = Some y -> (0 <= sl y)%Z) /\ of_file x) -> of_file (PDict m d).

(** The linter asks the translator for the template [c] and gets the template [c']. *)
Definition translates (translate : mval -> val -> list val -> sam) (c c' : cfn) : Prop :=
  wants_transform (template c) = true /\
  exists t names p, replace_local_codeuri (template c) = Ok (t, names) /\ translate (c_tmpl c) t names = Done p /\
    c_file c' = c_file c /\ c_region c' = c_region c /\ c_tmpl c' = convert tuple_mark p.
(** It does not get one: the texts of what went wrong. *)
Definition translation_fails (translate : mval -> val -> list val -> sam) (exn_text : exn -> string) (c : cfn) (texts : list string) : Prop :=
  wants_transform (template c) = true /\
  ((exists e, replace_local_codeuri (template c) = Err e /\ texts = [exn_text e]) \/
   exists t names, replace_local_codeuri (template c) = Ok (t, names) /\
     ((exists m others, translate (c_tmpl c) t names = Causes m others /\ texts = m :: others) \/
      exists text, translate (c_tmpl c) t names = Failed text /\ texts = [text])).
