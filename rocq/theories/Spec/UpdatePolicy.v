(** What E3016 says about the update policies of resources (C70). *)
From Coq Require Import List String ZArith.
From Verif.Model Require Import Base Rules.
From Verif.Spec Require Import Branches Required References Values.
Import ListNotations.
Local Open Scope string_scope.

(** The kinds of values of the attributes of update policies. *)
Inductive kind := Text | Whole | Switch | Each (names : list string).
Inductive of_kind : kind -> val -> Prop :=
| ok_text : forall s, of_kind Text (VStr s)
| ok_whole : forall z, of_kind Whole (VInt z)
| ok_whole_switch : forall b, of_kind Whole (VBool b)
| ok_switch : forall b, of_kind Switch (VBool b)
| ok_each : forall names s, In s names -> of_kind (Each names) (VStr s).
Definition kind_words (a : string) (k : kind) : string :=
  match k with
  | Text => "Value for " ++ a ++ " must be of type String"
  | Whole => "Value for " ++ a ++ " must be of type Integer"
  | Switch => "Value for " ++ a ++ " must be of type Boolean"
  | Each names => "Allowed values for " ++ a ++ " are (" ++ String.concat ", " names ++ ")"
  end.
(** The update policies: the resource type that can have them, and their attributes; two have none, but are a switch themselves. *)
Definition scaling_processes : list string :=
  ["Launch"; "Terminate"; "HealthCheck"; "ReplaceUnhealthy"; "AZRebalance"; "AlarmNotification"; "ScheduledActions"; "AddToLoadBalancer"].
Inductive policy : string -> string -> list (string * kind) -> Prop :=
| po_replacing : policy "AutoScalingReplacingUpdate" "AWS::AutoScaling::AutoScalingGroup" [("WillReplace", Switch)]
| po_rolling : policy "AutoScalingRollingUpdate" "AWS::AutoScaling::AutoScalingGroup"
    [("MaxBatchSize", Whole); ("MinInstancesInService", Whole); ("MinSuccessfulInstancesPercent", Whole);
     ("PauseTime", Text); ("SuspendProcesses", Each scaling_processes); ("WaitOnResourceSignals", Switch)]
| po_scheduled : policy "AutoScalingScheduledAction" "AWS::AutoScaling::AutoScalingGroup" [("IgnoreUnmodifiedGroupSizeProperties", Switch)]
| po_alias : policy "CodeDeployLambdaAliasUpdate" "AWS::Lambda::Alias"
    [("AfterAllowTrafficHook", Text); ("ApplicationName", Text); ("BeforeAllowTrafficHook", Text); ("DeploymentGroupName", Text)].
Inductive switch_policy : string -> string -> Prop :=
| sp_upgrade : switch_policy "EnableVersionUpgrade" "AWS::Elasticsearch::Domain"
| sp_reshard : switch_policy "UseOnlineResharding" "AWS::ElastiCache::ReplicationGroup".
Inductive host_of (k host : string) : Prop :=
| ho_policy : forall attrs, policy k host attrs -> host_of k host
| ho_switch : switch_policy k host -> host_of k host.

(** [policy_fault t u p place shown words]: what is wrong with the update policy [u] at [p] of a resource of type [t]: [place] is
    where the fault is, [shown] where it is reported. *)
Inductive policy_fault (t u : val) (p : path) : path -> path -> string -> Prop :=
| uf_object : u <> VNull -> is_dict u = false -> policy_fault t u p p p "UpdatePolicy should be an object"
| uf_unknown : forall d q k x, branch u p (VDict d) q -> In (k, x) d -> (forall host, ~ host_of k host) ->
    policy_fault t u p (q ++ [PKey k])%list (q ++ [PKey k])%list ("UpdatePolicy doesn't support type " ++ k)
| uf_host : forall d q k x host, branch u p (VDict d) q -> In (k, x) d -> host_of k host -> t <> VStr host ->
    policy_fault t u p (q ++ [PKey k])%list (q ++ [PKey k])%list ("UpdatePolicy only supports this type for resources of type (" ++ host ++ ")")
| uf_attributes : forall d q k x host attrs, branch u p (VDict d) q -> In (k, x) d -> policy k host attrs -> is_dict x = false ->
    policy_fault t u p (q ++ [PKey k])%list (q ++ [PKey k])%list (k ++ " should be an object")
| uf_attribute : forall d q k x host attrs e r a y, branch u p (VDict d) q -> In (k, x) d -> policy k host attrs -> is_dict x = true ->
    branch x (q ++ [PKey k])%list (VDict e) r -> In (a, y) e -> ~ In a (keys attrs) ->
    policy_fault t u p (r ++ [PKey a])%list (q ++ [PKey k; PKey a])%list ("UpdatePolicy doesn't support type " ++ a)
| uf_value : forall d q k x host attrs e r a y ki w s, branch u p (VDict d) q -> In (k, x) d -> policy k host attrs -> is_dict x = true ->
    branch x (q ++ [PKey k])%list (VDict e) r -> In (a, y) e -> In (a, ki) attrs ->
    single y (r ++ [PKey a])%list w s -> ~ is_call w -> ~ of_kind ki w -> policy_fault t u p s s (kind_words a ki)
| uf_switch : forall d q k x host w s rest, branch u p (VDict d) q -> In (k, x) d -> switch_policy k host ->
    single x (q ++ [PKey k])%list w s -> ~ is_call w -> ~ of_kind Switch w -> s = (q ++ PKey k :: rest)%list ->
    policy_fault t u p s (q ++ PKey k :: PKey k :: rest)%list (kind_words k Switch).

(** The objects the check takes apart: every choice of the policy is an object, every choice of attributes is one, and no value is null. *)
Definition policy_shaped (u : val) (p : path) : Prop :=
  is_dict u = true -> all_objects u p /\
  forall d q k x, branch u p (VDict d) q -> In (k, x) d ->
    (forall host, switch_policy k host -> forall r, ~ alternative x (q ++ [PKey k])%list VNull r) /\
    (forall host attrs, policy k host attrs -> is_dict x = true -> all_objects x (q ++ [PKey k])%list /\
       forall e r a y, branch x (q ++ [PKey k])%list (VDict e) r -> In (a, y) e -> In a (keys attrs) ->
       forall s, ~ alternative y (r ++ [PKey a])%list VNull s).
Definition policy_place (name : string) : path := [PKey "Resources"; PKey name; PKey "UpdatePolicy"].
(** [has_policy template name t u]: the resource [name] of type [t] has the update policy [u]. *)
Definition has_policy (template : val) (name : string) (t u : val) : Prop :=
  exists o, defined_in "Resources" template name o /\ assoc "Type" o = Some t /\ t <> VNull /\ assoc "UpdatePolicy" o = Some u.
