(** Properties that are needed or unwanted because of the value of another property (C66). *)
From Coq Require Import List String.
From Verif.Model Require Import Base BasedOn.
From Verif.Spec Require Import Resolved.
Import ListNotations.
Local Open Scope string_scope.

(** The resource called [n] has the type [t]. *)
Definition typed (template : val) (n t : string) : Prop :=
  exists d rs r, template = VDict d /\ assoc "Resources" d = Some (VDict rs) /\ assoc n rs = Some (VDict r) /\ assoc "Type" r = Some (VStr t).

(** The value is one the entry is about: a text that matches its pattern, a Ref to a resource of a listed type, or a GetAtt of the
    attribute listed for the type of the resource. *)
Inductive fits (matches : string -> string -> bool) (template : val) (s : bspec) : val -> Prop :=
| fits_text : forall t, bs_regex s <> "" -> matches (bs_regex s) t = true -> fits matches template s (VStr t)
| fits_ref : forall n t, typed template n t -> In t (bs_ref s) -> fits matches template s (VDict [("Ref", VStr n)])
| fits_getatt : forall n a t rest, typed template n t -> assoc t (bs_getatt s) = Some a ->
    fits matches template s (VDict [("Fn::GetAtt", VList (VStr n :: VStr a :: rest))]).

(** The value can be judged: Refs are to nothing or to resources that are objects, GetAtts name a resource with a type and an attribute. *)
Definition judged_ref (template : val) (n : string) : Prop :=
  exists d rs, template = VDict d /\ assoc "Resources" d = Some (VDict rs) /\ forall r, assoc n rs = Some r -> exists m, r = VDict m.
Definition judged (template v : val) : Prop :=
  (forall n, v = VDict [("Ref", VStr n)] -> judged_ref template n) /\
  (forall l, v = VDict [("Fn::GetAtt", VList l)] -> exists n a rest t, l = VStr n :: a :: rest /\ typed template n t).

(** [d] gives [k] a value the entry is about, and [prop] is one of [props]. *)
Definition asks (matches : string -> string -> bool) (template : val) (s : bspec) (props : list string) (k prop : string) (d : list (string * val)) : Prop :=
  exists x, assoc k d = Some x /\ fits matches template s x /\ In prop props.
Definition entry (specs : btable) (k : string) (s : bspec) : Prop := exists l, In (k, l) specs /\ In s l.
