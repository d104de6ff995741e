(** What is left of a value when the conditions at every depth are decided, and what E2503 says (C76). *)
From Coq Require Import List String Ascii.
From Verif.Model Require Import Base Helpers.
From Verif.Spec Require Import Paths Branches References Walk Values Resolved.
Import ListNotations.
Local Open Scope string_scope.

(** Every Fn::If, at any depth, stands alone and has a name and two branches. *)
Inductive tidy : val -> Prop :=
| ti_null : tidy VNull
| ti_bool : forall b, tidy (VBool b)
| ti_int : forall z, tidy (VInt z)
| ti_float : forall q, tidy (VFloat q)
| ti_str : forall s, tidy (VStr s)
| ti_list : forall l, (forall x, In x l -> tidy x) -> tidy (VList l)
| ti_if : forall c t e, tidy t -> tidy e -> tidy (if_ c t e)
| ti_object : forall d, ~ In "Fn::If" (keys d) -> (forall k x, In (k, x) d -> tidy x) -> tidy (VDict d).
(** The conditions of the Fn::Ifs that are in no other function. *)
Inductive rests_on : val -> string -> Prop :=
| ro_here : forall c t e, rests_on (if_ c t e) c
| ro_then : forall c t e n, rests_on t n -> rests_on (if_ c t e) n
| ro_else : forall c t e n, rests_on e n -> rests_on (if_ c t e) n
| ro_item : forall l x n, In x l -> rests_on x n -> rests_on (VList l) n
| ro_member : forall d k x n, In (k, x) d -> ~ In k FUNCTIONS -> rests_on x n -> rests_on (VDict d) n.

(** [deep decide v r]: deciding the Fn::Ifs of [v] at every depth leaves [r]; [None] means that nothing is left, which is null for a
    member of an object and leaves an item out of a list.  The Fn::If of an undecided condition stays. *)
Inductive deep (decide : string -> option bool) : val -> option val -> Prop :=
| de_then : forall c t e r, decide c = Some true -> deep decide t r -> deep decide (if_ c t e) r
| de_else : forall c t e r, decide c = Some false -> deep decide e r -> deep decide (if_ c t e) r
| de_undecided : forall c t e l, decide c = None -> deep_items decide [VStr c; t; e] l -> deep decide (if_ c t e) (Some (VDict [("Fn::If", VList l)]))
| de_no_value : deep decide no_value None
| de_null : deep decide VNull None
| de_bool : forall b, deep decide (VBool b) (Some (VBool b))
| de_int : forall z, deep decide (VInt z) (Some (VInt z))
| de_float : forall q, deep decide (VFloat q) (Some (VFloat q))
| de_str : forall s, deep decide (VStr s) (Some (VStr s))
| de_object : forall d d', ~ In "Fn::If" (keys d) -> VDict d <> no_value -> deep_members decide d d' -> deep decide (VDict d) (Some (VDict d'))
| de_list : forall l l', deep_items decide l l' -> deep decide (VList l) (Some (VList l'))
with deep_items (decide : string -> option bool) : list val -> list val -> Prop :=
| di_nil : deep_items decide [] []
| di_keep : forall x y l l', deep decide x (Some y) -> deep_items decide l l' -> deep_items decide (x :: l) (y :: l')
| di_drop : forall x l l', deep decide x None -> deep_items decide l l' -> deep_items decide (x :: l) l'
with deep_members (decide : string -> option bool) : list (string * val) -> list (string * val) -> Prop :=
| dm_nil : deep_members decide [] []
| dm_keep : forall k x y d d', deep decide x (Some y) -> deep_members decide d d' -> deep_members decide ((k, x) :: d) ((k, y) :: d')
| dm_null : forall k x d d', deep decide x None -> deep_members decide d d' -> deep_members decide ((k, x) :: d) ((k, VNull) :: d').
(** A path through no function. *)
Definition plain_path (p : path) : Prop := forall k, In (PKey k) p -> ~ In k FUNCTIONS.

(** * Listeners *)
(** [s] is [u] in some mixture of small and capital letters; [u] is in capitals. *)
Inductive spelled : string -> string -> Prop :=
| sp_end : spelled "" ""
| sp_same : forall a s u, (forall n, 97 <= n <= 122 -> a <> ascii_of_nat n) -> spelled s u -> spelled (String a s) (String a u)
| sp_small : forall n s u, 97 <= n <= 122 -> spelled s u -> spelled (String (ascii_of_nat n) s) (String (ascii_of_nat (n - 32)) u).
Inductive protocol_fault (known secure : list string) (certified : bool) (s : string) : string -> Prop :=
| pf_unknown : (forall u, In u known -> ~ spelled s u) -> protocol_fault known secure certified s ("Protocol must be " ++ String.concat ", " known ++ " is invalid at ")
| pf_bare : forall u, In u known -> In u secure -> spelled s u -> certified = false ->
    protocol_fault known secure certified s "Certificates should be specified when using HTTPS for ".
(** The listeners of a template, with what may be their protocols and where their certificates are. *)
Inductive listener (t : val) : list (string * val) -> path -> list string -> list string -> string -> Prop :=
| li_resource : forall name attrs d, resource_of t name "AWS::ElasticLoadBalancingV2::Listener" attrs -> assoc "Properties" attrs = Some (VDict d) ->
    listener t d [PKey "Resources"; PKey name; PKey "Properties"] ["GENEVE"; "HTTP"; "HTTPS"; "TCP"; "TCP_UDP"; "TLS"; "UDP"] ["HTTPS"; "TLS"] "Certificates"
| li_classic : forall name attrs pd l i d, resource_of t name "AWS::ElasticLoadBalancing::LoadBalancer" attrs -> assoc "Properties" attrs = Some (VDict pd) ->
    assoc "Listeners" pd = Some (VList l) -> nth_error l i = Some (VDict d) ->
    listener t d [PKey "Resources"; PKey name; PKey "Properties"; PKey "Listeners"; PIdx i] ["HTTP"; "HTTPS"; "TCP"; "SSL"] ["HTTPS"; "SSL"] "SSLCertificateId".
(** Listeners are objects whose protocol is null in no branch. *)
Definition listeners_shaped (t : val) : Prop :=
  (forall name attrs, resource_of t name "AWS::ElasticLoadBalancingV2::Listener" attrs -> assoc "Properties" attrs = None \/ exists d, assoc "Properties" attrs = Some (VDict d)) /\
  (forall name attrs, resource_of t name "AWS::ElasticLoadBalancing::LoadBalancer" attrs -> assoc "Properties" attrs = None \/ exists d, assoc "Properties" attrs = Some (VDict d) /\
     forall l x, assoc "Listeners" d = Some (VList l) -> In x l -> exists y, x = VDict y) /\
  (forall d p known secure cert x q, listener t d p known secure cert -> assoc "Protocol" d = Some x -> ~ alternative x (p ++ [PKey "Protocol"])%list VNull q).

(** * Load balancers *)
(** The type of a load balancer: every text but application stands for network. *)
Inductive balancer (d : list (string * val)) : string -> Prop :=
| ba_default : assoc "Type" d = None -> balancer d "application"
| ba_application : assoc "Type" d = Some (VStr "application") -> balancer d "application"
| ba_network : forall s, assoc "Type" d = Some (VStr s) -> s <> "application" -> balancer d "network".
Definition common_attributes : list string := ["access_logs.s3.enabled"; "access_logs.s3.bucket"; "access_logs.s3.prefix"; "deletion_protection.enabled"].
Definition application_attributes : list string :=
  ["idle_timeout.timeout_seconds"; "routing.http.desync_mitigation_mode"; "routing.http.drop_invalid_header_fields.enabled"; "routing.http2.enabled"; "waf.fail_open.enabled"].
Definition network_attributes : list string := ["load_balancing.cross_zone.enabled"].
Definition attribute_of (ty k : string) : Prop :=
  In k common_attributes \/ ty = "application" /\ In k application_attributes \/ ty = "network" /\ In k network_attributes.
Definition grouped (d : list (string * val)) : Prop := balancer d "network" /\ exists x, assoc "SecurityGroups" d = Some x /\ truthy x = true.
(** What is wrong with a load balancer: a path below it and the words. *)
Inductive balancer_fault (d : list (string * val)) : path -> string -> Prop :=
| bf_groups : grouped d -> balancer_fault d [PKey "SecurityGroups"] "Security groups are not supported for load balancers with type ""network"""
| bf_few : forall key l, balancer d "application" -> In key ["Subnets"; "SubnetMappings"] -> assoc key d = Some (VList l) -> List.length l < 2 ->
    balancer_fault d [PKey key] ("You must specify at least two " ++ key ++ " for load balancers with type ""application""")
| bf_attribute : forall l a k v ty, assoc "LoadBalancerAttributes" d = Some (VList l) -> In (VDict a) l -> assoc "Key" a = Some (VStr k) -> assoc "Value" a = Some v ->
    (exists s, v = VStr s) \/ (exists b, v = VBool b) \/ (exists z, v = VInt z) -> balancer d ty -> ~ attribute_of ty k -> ~ grouped d ->
    balancer_fault d [] ("Attribute """ ++ k ++ """ not allowed for load balancers with type """ ++ ty ++ """")
(** The attributes of a network load balancer with security groups are reported where the security groups are. *)
| bf_misplaced : forall l a k v, assoc "LoadBalancerAttributes" d = Some (VList l) -> In (VDict a) l -> assoc "Key" a = Some (VStr k) -> assoc "Value" a = Some v ->
    (exists s, v = VStr s) \/ (exists b, v = VBool b) \/ (exists z, v = VInt z) -> ~ attribute_of "network" k -> grouped d ->
    balancer_fault d [PKey "SecurityGroups"] ("Attribute """ ++ k ++ """ not allowed for load balancers with type ""network""").
(** The attributes are objects. *)
Definition balancer_shaped (d : list (string * val)) : Prop := forall l x, assoc "LoadBalancerAttributes" d = Some (VList l) -> In x l -> exists a, x = VDict a.
