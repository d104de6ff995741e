(** Subnets with more than one route table (E3022) and sources of ingress rules (E2506) (C79). *)
From Coq Require Import List String.
From Verif.Model Require Import Base.
From Verif.Spec Require Import Walk Resolved.
Import ListNotations.
Local Open Scope string_scope.

Definition association_type : string := "AWS::EC2::SubnetRouteTableAssociation".
(** The subnets that a SubnetId can stand for, as texts, each with the condition of the innermost Fn::If around it ([pc] when there is none). *)
Inductive subnet : val -> option string -> option string -> string -> Prop :=
| sn_text : forall pc s, subnet (VStr s) pc pc s
| sn_ref : forall pc s, subnet (VDict [("Ref", VStr s)]) pc pc s
| sn_getatt : forall pc n a ts, subnet (VDict [("Fn::GetAtt", VList (map VStr (n :: a :: ts)))]) pc pc (join_str "." (n :: a :: ts))
| sn_then : forall pc c a b tag s, subnet a (Some c) tag s -> subnet (if_ c a b) pc tag s
| sn_else : forall pc c a b tag s, subnet b (Some c) tag s -> subnet (if_ c a b) pc tag s.
Inductive subnet_shaped : val -> Prop :=
| sh_text : forall s, subnet_shaped (VStr s)
| sh_ref : forall s, subnet_shaped (VDict [("Ref", VStr s)])
| sh_getatt : forall n a ts, subnet_shaped (VDict [("Fn::GetAtt", VList (map VStr (n :: a :: ts)))])
| sh_if : forall c a b, subnet_shaped a -> subnet_shaped b -> subnet_shaped (if_ c a b)
| sh_call : forall k x, ~ In k ["Fn::If"; "Ref"; "Fn::GetAtt"] -> subnet_shaped (VDict [(k, x)]).
(** The resource [name] associates a route table with [sid], if its condition [rc] holds. *)
Definition association (t : val) (name : string) (rc : option string) (sid : val) : Prop :=
  exists attrs pd, resource_of t name association_type attrs /\ assoc "Properties" attrs = Some (VDict pd) /\ assoc "SubnetId" pd = Some sid /\
    assoc "Condition" attrs = option_map VStr rc.
Definition associations_shaped (t : val) : Prop :=
  forall name attrs, resource_of t name association_type attrs ->
    (assoc "Properties" attrs = None \/ exists pd sid, assoc "Properties" attrs = Some (VDict pd) /\ assoc "SubnetId" pd = Some sid /\ subnet_shaped sid) /\
    (assoc "Condition" attrs = None \/ exists c, assoc "Condition" attrs = Some (VStr c)).
(** The resource [name] uses the subnet [s] under the conditions [rc] and [pc]. *)
Definition uses (t : val) (name : string) (rc pc : option string) (s : string) : Prop :=
  exists sid, association t name rc sid /\ subnet sid None pc s.
(** Another resource that uses the subnet under the same conditions, or under none. *)
Definition also_uses (t : val) (name : string) (rc pc : option string) (s other : string) : Prop :=
  other <> name /\ (uses t other rc pc s \/ uses t other None None s).

(** The source that does not fit, inside a VPC and outside. *)
Inductive source : bool -> string -> string -> Prop :=
| so_vpc : source true "SourceSecurityGroupName" "SourceSecurityGroupName shouldn't be specified for Vpc Security Group at "
| so_classic : source false "SourceSecurityGroupId" "SourceSecurityGroupId shouldn't be specified for Non-Vpc Security Group at ".
(** A source that does not fit an ingress rule. *)
Inductive ingress_fault (t : val) : path -> string -> Prop :=
| if_group : forall name attrs pd l i d key words vpc x, resource_of t name "AWS::EC2::SecurityGroup" attrs -> assoc "Properties" attrs = Some (VDict pd) ->
    assoc "SecurityGroupIngress" pd = Some (VList l) -> nth_error l i = Some (VDict d) ->
    (exists v, assoc "VpcId" pd = Some v /\ truthy v = true) <-> vpc = true ->
    source vpc key words -> assoc key d = Some x -> truthy x = true ->
    ingress_fault t [PKey "Resources"; PKey name; PKey "Properties"; PKey "SecurityGroupIngress"; PIdx i; PKey key] words
| if_single : forall name attrs pd key words vpc x, resource_of t name "AWS::EC2::SecurityGroupIngress" attrs -> assoc "Properties" attrs = Some (VDict pd) ->
    (exists v, assoc "GroupId" pd = Some v /\ truthy v = true) <-> vpc = true ->
    source vpc key words -> assoc key pd = Some x -> truthy x = true ->
    ingress_fault t [PKey "Resources"; PKey name; PKey "Properties"; PKey key] words.
Definition ingress_shaped (t : val) : Prop :=
  (forall name attrs, resource_of t name "AWS::EC2::SecurityGroup" attrs -> assoc "Properties" attrs = None \/ exists pd, assoc "Properties" attrs = Some (VDict pd) /\
     forall l x, assoc "SecurityGroupIngress" pd = Some (VList l) -> In x l -> exists d, x = VDict d) /\
  (forall name attrs, resource_of t name "AWS::EC2::SecurityGroupIngress" attrs -> assoc "Properties" attrs = None \/ exists pd, assoc "Properties" attrs = Some (VDict pd)).
