(** Missing members (C27), and the branches of properties (C28-C30). *)
From Coq Require Import List String.
From Verif.Model Require Import Base PropertyRules.
From Verif.Spec Require Import Branches.
Import ListNotations.

(** [v] has no member called [name]: for objects, their keys; a list or text in the place of an object is asked whether it
    has that item or contains that text. *)
Inductive lacks : val -> string -> Prop :=
| lk_object : forall d name, ~ In name (keys d) -> lacks (VDict d) name
| lk_list : forall l name, ~ In (VStr name) l -> lacks (VList l) name
| lk_text : forall s name, (forall before after, s <> (before ++ name ++ after)%string) -> lacks (VStr s) name.
(** Values that can be asked. *)
Definition has_members (v : val) : Prop := (exists d, v = VDict d) \/ (exists l, v = VList l) \/ (exists s, v = VStr s).

(** Every choice of Fn::If branches leads to such a value, or to an object. *)
Definition all_members (v : val) (p : path) : Prop := forall w q, branch v p w q -> has_members w.
Definition all_objects (v : val) (p : path) : Prop := forall w q, branch v p w q -> exists d, w = VDict d.

(** The specification of type [t] says that the property [name] is required. *)
Definition requires (types : list (string * pspecs)) (t name : string) : Prop :=
  exists specs ps, assoc t types = Some specs /\ In (name, ps) specs /\ ps_required ps = true.

(** A custom resource: its type begins with Custom:: and is not in the specification. *)
Definition custom_type (rs : rspec) (rt : string) : Prop := (exists rest, rt = "Custom::" ++ rest)%string /\ ~ In rt (keys (rs_resource_types rs)).
