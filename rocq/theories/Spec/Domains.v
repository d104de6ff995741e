(** Names below domains: what E3041 and E3503 say (C78). *)
From Coq Require Import List String.
From Verif.Model Require Import Base.
From Verif.Spec Require Import Resolved.
Import ListNotations.
Local Open Scope string_scope.

(** [u] is [s] without a dot at its end. *)
Definition undotted (s u : string) : Prop := s = u ++ "." \/ (s = u /\ forall t, s <> t ++ ".").
(** The name [n] is the domain [z] or below it. *)
Definition below_domain (z n : string) : Prop := n = z \/ exists t, n = t ++ "." ++ z.
(** What is wrong with the name and the zone of a record set, and at which of the two. *)
Inductive zone_fault (d : list (string * val)) : string -> string -> Prop :=
| zf_dot : forall n z, assoc "Name" d = Some (VStr n) -> assoc "HostedZoneName" d = Some (VStr z) -> (forall t, z <> t ++ ".") ->
    zone_fault d "HostedZoneName" "HostedZoneName must end in a dot at "
(** The name need only end in the zone, but is never in the root zone. *)
| zf_name : forall n z n' z', assoc "Name" d = Some (VStr n) -> assoc "HostedZoneName" d = Some (VStr z) -> undotted n n' -> undotted z z' ->
    (forall t, n' <> t ++ z') \/ (z' = "" /\ n' <> "") -> zone_fault d "Name" "Name must be a superdomain of HostedZoneName at ".
Definition zone_shaped (d : list (string * val)) : Prop :=
  forall n z, assoc "Name" d = Some (VStr n) -> assoc "HostedZoneName" d = Some (VStr z) -> n <> "" /\ z <> "".
(** The domain that validates a name is not one above it. *)
Inductive option_fault (d : list (string * val)) : string -> string -> Prop :=
| of_domain : forall n v, assoc "DomainName" d = Some (VStr n) -> assoc "ValidationDomain" d = Some (VStr v) -> ~ below_domain v n ->
    option_fault d "DomainName" "ValidationDomain must be a superdomain of DomainName at ".
