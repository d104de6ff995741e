(** Model of rules/resources/updatepolicy/Configuration.py (E3016). *)
From Verif.Model Require Import Base Helpers Node Search Rules Refs ConditionRules PropertyRules.
Import Verif.Model.Rules.
Local Open Scope string_scope.

(** The 'PrimitiveType' and 'ValidValues' of an attribute, Configuration.py:18-68 and 107-112. *)
Inductive primitive := PString | PInteger | PBoolean | PList (valid : list string).
Definition processes : list string :=
  ["Launch"; "Terminate"; "HealthCheck"; "ReplaceUnhealthy"; "AZRebalance"; "AlarmNotification"; "ScheduledActions"; "AddToLoadBalancer"].
(** valid_attributes['sub'], Configuration.py:18-68.  No attribute there has a 'Type', so the recursive call of check_attributes is never made. *)
Definition replacing_update : list (string * primitive) := [("WillReplace", PBoolean)].
Definition rolling_update : list (string * primitive) :=
  [("MaxBatchSize", PInteger); ("MinInstancesInService", PInteger); ("MinSuccessfulInstancesPercent", PInteger);
   ("PauseTime", PString); ("SuspendProcesses", PList processes); ("WaitOnResourceSignals", PBoolean)].
Definition scheduled_action : list (string * primitive) := [("IgnoreUnmodifiedGroupSizeProperties", PBoolean)].
Definition alias_update : list (string * primitive) :=
  [("AfterAllowTrafficHook", PString); ("ApplicationName", PString); ("BeforeAllowTrafficHook", PString); ("DeploymentGroupName", PString)].
(** valid_attributes['main'], Configuration.py:69-106: a 'Type' is given by the attributes it stands for. *)
Inductive policy_type := PType (attrs : list (string * primitive)) | PPrimitive (k : primitive).
Definition main_types : list (string * (policy_type * list string)) :=
  [("AutoScalingReplacingUpdate", (PType replacing_update, ["AWS::AutoScaling::AutoScalingGroup"]));
   ("AutoScalingRollingUpdate", (PType rolling_update, ["AWS::AutoScaling::AutoScalingGroup"]));
   ("AutoScalingScheduledAction", (PType scheduled_action, ["AWS::AutoScaling::AutoScalingGroup"]));
   ("CodeDeployLambdaAliasUpdate", (PType alias_update, ["AWS::Lambda::Alias"]));
   ("EnableVersionUpgrade", (PPrimitive PBoolean, ["AWS::Elasticsearch::Domain"]));
   ("UseOnlineResharding", (PPrimitive PBoolean, ["AWS::ElastiCache::ReplicationGroup"]))].

Definition primitive_name (k : primitive) : string :=
  match k with PString => "String" | PInteger => "Integer" | PBoolean => "Boolean" | PList _ => "List" end.
(** [isinstance(value, primitive_types.get(prim_type))]: bool is a subclass of int. *)
Definition is_primitive (k : primitive) (v : val) : bool :=
  match k, v with
  | PString, VStr _ => true
  | PInteger, VInt _ => true
  | PInteger, VBool _ => true
  | PBoolean, VBool _ => true
  | PList _, VList _ => true
  | _, _ => false
  end.
(** [value not in valid_values], a list of texts. *)
Definition not_among (valid : list string) (v : val) : bool := match v with VStr s => negb (smem s valid) | _ => true end.
Definition of_type_message (key : string) (k : primitive) : string := "Value for " ++ key ++ " must be of type " ++ primitive_name k.
Definition allowed_message (key : string) (valid : list string) : string := "Allowed values for " ++ key ++ " are (" ++ String.concat ", " valid ++ ")".
(** Configuration.check_value, Configuration.py:115-133. *)
Definition policy_value (key : string) (k : primitive) (v : val) (p : path) : res (list rulematch) :=
  Ok (match k with
      | PList valid =>
          match valid with
          | [] => []
          | _ => if not_among valid v then [mkRM p (allowed_message key valid)] else []
          end
      | _ => if is_primitive k v then [] else [mkRM p (of_type_message key k)]
      end).

Definition unsupported (key : string) : string := "UpdatePolicy doesn't support type " ++ key.
(** One member of the loop of check_attributes, Configuration.py:143-163: [p] is the argument, [q] the path of items_safe. *)
Definition check_attribute (spec : list (string * primitive)) (p q : path) (kv : string * val) : res (list rulematch) :=
  match assoc (fst kv) spec with
  | Some k => check_value (VDict [kv]) (fst kv) q (policy_value (fst kv) k) []
  | None => Ok [mkRM (p ++ [PKey (fst kv)])%list (unsupported (fst kv))]
  end.
(** Configuration.check_attributes, Configuration.py:135-169; [key] is the last element of the path. *)
Definition check_attributes (key : string) (spec : list (string * primitive)) (v : val) (p : path) : res (list rulematch) :=
  match v with
  | VDict _ => concat_res (fun wq => do ms <- items_of (fst wq); concat_res (check_attribute spec p (snd wq)) ms) (items_safe v p)
  | _ => Ok [mkRM p (key ++ " should be an object")]
  end.
Definition not_host (hosts : list string) (resource_type : val) : bool := match resource_type with VStr s => negb (smem s hosts) | _ => true end.
Definition only_supports (hosts : list string) : string := "UpdatePolicy only supports this type for resources of type (" ++ String.concat ", " hosts ++ ")".
(** One member of the loop of check_update_policy, Configuration.py:174-200. *)
Definition check_member (resource_type : val) (p : path) (kv : string * val) : res (list rulematch) :=
  let up_path := (p ++ [PKey (fst kv)])%list in
  match assoc (fst kv) main_types with
  | Some (t, hosts) =>
      do ms <- match t with
               | PType spec => check_attributes (fst kv) spec (snd kv) up_path
               | PPrimitive k => check_value (VDict [kv]) (fst kv) up_path (policy_value (fst kv) k) []
               end;
      Ok ((if not_host hosts resource_type then [mkRM up_path (only_supports hosts)] else []) ++ ms)%list
  | None => Ok [mkRM up_path (unsupported (fst kv))]
  end.
(** Configuration.check_update_policy, Configuration.py:171-202. *)
Definition check_update_policy (resource_type v : val) (p : path) : res (list rulematch) :=
  do ms <- items_of v; concat_res (check_member resource_type p) ms.
(** Configuration.match, Configuration.py:204-222. *)
Definition resource_policy (nr : string * val) : res (list rulematch) :=
  do u <- vget "UpdatePolicy" (snd nr);
  do t <- vget "Type" (snd nr);
  let p := [PKey "Resources"; PKey (fst nr); PKey "UpdatePolicy"] in
  match u with
  | VNull => Ok []
  | VDict _ => concat_res (fun wq => check_update_policy t (fst wq) (snd wq)) (items_safe u p)
  | _ => Ok [mkRM p "UpdatePolicy should be an object"]
  end.
Definition update_policy_match (template : val) : res (list rulematch) := concat_res resource_policy (get_resources template).

Definition update_policy_rule : rule :=
  mkRule "E3016" false [] [] [] [] (fun _ => ([], [])) (Some (fun _ c => update_policy_match (template c))) None None.
