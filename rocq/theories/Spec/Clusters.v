(** Replication groups whose parameter group enables clusters (C83). *)
From Coq Require Import List QArith ZArith.
From Verif.Model Require Import Base.
From Verif.Spec Require Import Paths Branches Resolved Protect.
Import ListNotations.
Local Open Scope string_scope.

Definition is_reference (v : val) (g : string) : Prop := g <> "AWS::NoValue" /\ v = VDict [("Ref", VStr g)].
(** A choice of branches of the Fn::Ifs around the parameter group leads to a reference to [g], at [q]. *)
Definition may_use (d : list (string * val)) (p : path) (g : string) (q : path) : Prop :=
  exists x w, assoc "CacheParameterGroupName" d = Some x /\ alternative x (p ++ [PKey "CacheParameterGroupName"])%list w q /\ is_reference w g.
Definition uses_group (d : list (string * val)) (g : string) : Prop := exists w, assoc "CacheParameterGroupName" d = Some w /\ is_reference w g.
(** The settings of the parameter group [g], which is a resource of the template; by default there are none. *)
Definition settings_of (template : val) (g : string) (s : list (string * val)) : Prop :=
  exists o, resource template g o /\
    (assoc "Properties" o = None /\ s = [] \/
     exists ps, assoc "Properties" o = Some (VDict ps) /\
       (assoc "Properties" ps = None /\ s = [] \/ assoc "Properties" ps = Some (VDict s))).
Definition no_resource (template : val) (g : string) : Prop := forall o, ~ resource template g o.

Definition clustered (s : list (string * val)) : Prop := assoc "cluster-enabled" s = Some (VStr "yes").
Definition says_no (v : val) : Prop := v = VBool false \/ exists s, v = VStr s /\ lower s <> "true".
Definition counts (v : val) : Prop := match v with VBool _ | VInt _ | VFloat _ => True | _ => False end.
Definition one_or_less (v : val) : Prop := match v with VBool _ => True | VInt z => (z <= 1)%Z | VFloat q => (q <= 1)%Q | _ => False end.
(** No NumNodeGroups, or one that is zero or empty. *)
Definition no_node_groups (d : list (string * val)) : Prop := forall x, assoc "NumNodeGroups" d = Some x -> truthy x = false.
(** [cluster_fault d s key]: the property [key] of the replication group [d] does not go with a parameter group with the settings [s]. *)
Inductive cluster_fault (d s : list (string * val)) : string -> Prop :=
| cf_failover : forall x, clustered s -> assoc "AutomaticFailoverEnabled" d = Some x -> says_no x -> cluster_fault d s "AutomaticFailoverEnabled"
| cf_no_nodes : clustered s -> no_node_groups d -> assoc "NumCacheClusters" d = None -> cluster_fault d s "NumCacheClusters"
| cf_nodes : forall x, clustered s -> no_node_groups d -> assoc "NumCacheClusters" d = Some x -> one_or_less x -> cluster_fault d s "NumCacheClusters".
(** Where the number of clusters matters it is a number. *)
Definition cluster_shaped (d s : list (string * val)) : Prop :=
  clustered s -> no_node_groups d -> forall x, assoc "NumCacheClusters" d = Some x -> counts x.
(** The parameter group may be chosen by Fn::If; a choice that has a Ref is a reference. *)
Definition group_shaped (d : list (string * val)) : Prop :=
  forall x p e q, assoc "CacheParameterGroupName" d = Some x -> alternative x p (VDict e) q -> In "Ref" (keys e) -> exists g, e = [("Ref", VStr g)].
