(** Policies, dependencies and references of resources and outputs (C37, C38, C45 to C49). *)
From Coq Require Import List String ZArith.
From Verif.Model Require Import Base Rules.
From Verif.Spec Require Import Paths References ConditionUse ParameterUse Faults Booleans.
Import ListNotations.
Local Open Scope string_scope.

(** A resource of the template: an object with a type. *)
Definition resource (template : val) (n : string) (o : list (string * val)) : Prop :=
  defined_in "Resources" template n o /\ exists t, assoc "Type" o = Some t /\ t <> VNull.
Definition of_type (o : list (string * val)) (ts : list string) : Prop := exists t, assoc "Type" o = Some (VStr t) /\ In t ts.

(** Faults of the DeletionPolicy or UpdateReplacePolicy of a resource. *)
Definition snapshot_types : list string :=
  ["AWS::EC2::Volume"; "AWS::ElastiCache::CacheCluster"; "AWS::ElastiCache::ReplicationGroup"; "AWS::Neptune::DBCluster";
   "AWS::RDS::DBCluster"; "AWS::RDS::DBInstance"; "AWS::Redshift::Cluster"].
Inductive policy_fault (show : val -> string) (attr n : string) (o : list (string * val)) : path -> string -> Prop :=
| po_list : forall l p, assoc attr o = Some (VList l) -> p = [PKey "Resources"; PKey n; PKey attr] ->
    policy_fault show attr n o p ("Only one " ++ attr ++ " allowed per resource at " ++ shown p)
| po_text : forall v p, assoc attr o = Some v -> (forall s, v <> VStr s) -> (forall l, v <> VList l) -> p = [PKey "Resources"; PKey n; PKey attr] ->
    policy_fault show attr n o p (attr ++ " values should be of string at " ++ shown p)
| po_value : forall s p, assoc attr o = Some (VStr s) -> ~ In s ["Delete"; "Retain"; "Snapshot"] -> p = [PKey "Resources"; PKey n; PKey attr] ->
    policy_fault show attr n o p (attr ++ " should be only one of Delete, Retain, Snapshot at " ++ shown p)
| po_snapshot : forall t p, assoc attr o = Some (VStr "Snapshot") -> assoc "Type" o = Some t -> ~ of_type o snapshot_types ->
    p = [PKey "Resources"; PKey n; PKey attr] ->
    policy_fault show attr n o p (attr ++ " cannot be Snapshot for resources of type " ++ show t ++ " at " ++ shown p).

(** [given o attr]: the attribute is there and not empty. *)
Definition given (o : list (string * val)) (attr : string) : Prop := exists v, assoc attr o = Some v /\ ~ empty v.
(** [keeps o attr]: the policy is given and is not Delete. *)
Definition keeps (o : list (string * val)) (attr : string) : Prop := given o attr /\ assoc attr o <> Some (VStr "Delete").
Definition stateful_types : list string :=
  ["AWS::CloudFormation::Stack"; "AWS::Backup::BackupVault"; "AWS::Cognito::UserPool"; "AWS::DocDB::DBCluster"; "AWS::DocDB::DBInstance";
   "AWS::DynamoDB::Table"; "AWS::EC2::Volume"; "AWS::EFS::FileSystem"; "AWS::EMR::Cluster"; "AWS::ElastiCache::CacheCluster";
   "AWS::ElastiCache::ReplicationGroup"; "AWS::Elasticsearch::Domain"; "AWS::FSx::FileSystem"; "AWS::Logs::LogGroup";
   "AWS::Neptune::DBCluster"; "AWS::Neptune::DBInstance"; "AWS::QLDB::Ledger"; "AWS::RDS::DBCluster"; "AWS::RDS::DBInstance";
   "AWS::Redshift::Cluster"; "AWS::SDB::Domain"; "AWS::SQS::Queue"].

(** [depends_entry template n p v]: the resource [n] has at the place [p] the DependsOn entry [v]. *)
Inductive depends_entry (template : val) (n : string) : path -> val -> Prop :=
| de_one : forall o v, resource template n o -> assoc "DependsOn" o = Some v -> (forall l, v <> VList l) ->
    depends_entry template n [PKey "Resources"; PKey n; PKey "DependsOn"] v
| de_item : forall o l i v, resource template n o -> assoc "DependsOn" o = Some (VList l) -> nth_error l i = Some v ->
    depends_entry template n [PKey "Resources"; PKey n; PKey "DependsOn"; PIdx i] v.
(** No DependsOn is an empty value. *)
Definition depends_given (template : val) : Prop := forall n o v, resource template n o -> assoc "DependsOn" o = Some v -> ~ empty v.
(** [refers template globals n s why q]: below the resource [n], at [q], the function [why] refers to [s]. *)
Definition below (n : string) (q : path) : Prop := exists r, q = PKey "Resources" :: PKey n :: r.
Inductive refers (template globals : val) (n s : string) : string -> path -> Prop :=
| rt_ref : forall p, occurs "Ref" template globals p (VStr s) -> below n (p ++ [PKey "Ref"])%list ->
    refers template globals n s "Ref" (p ++ [PKey "Ref"])%list
| rt_getatt : forall p rest, occurs "Fn::GetAtt" template globals p (VList (VStr s :: rest)) -> below n (p ++ [PKey "Fn::GetAtt"])%list ->
    refers template globals n s "Fn:GetAtt" (p ++ [PKey "Fn::GetAtt"])%list.
(** Entries of DependsOn that are no names of resources. *)
Inductive depends_fault (template : val) (p : path) : val -> string -> Prop :=
| df_text : forall v, (forall s, v <> VStr s) -> depends_fault template p v ("DependsOn values should be of string at " ++ shown p)
| df_name : forall s, (forall o, ~ resource template s o) -> depends_fault template p (VStr s) ("DependsOn should reference other resources at " ++ shown p).

(** A parameter whose value must not be shown. *)
Definition hidden (template : val) (n : string) : Prop :=
  exists o, defined_in "Parameters" template n o /\
    (assoc "NoEcho" o = Some (VBool true) \/ exists s, assoc "NoEcho" o = Some (VStr s) /\ spells_true s).

Definition in_resource_metadata (q : path) : Prop := exists x r, q = PKey "Resources" :: x :: PKey "Metadata" :: r.

(** Modules, and what they must not contain. *)
Definition module (template : val) (n : string) (o : list (string * val)) : Prop :=
  resource template n o /\ exists t, assoc "Type" o = Some (VStr (t ++ "::MODULE")).
Inductive module_fault (template globals : val) : path -> string -> Prop :=
| mo_tags : forall n o ps, module template n o -> assoc "Properties" o = Some (VDict ps) -> given ps "Tags" ->
    module_fault template globals [PKey "Resources"; PKey n; PKey "Properties"; PKey "Tags"] "Tags is not permitted within Modules"
| mo_policy : forall n o k, module template n o -> In k ["CreationPolicy"; "UpdatePolicy"] -> given o k ->
    module_fault template globals [PKey "Resources"; PKey n; PKey k] (k ++ " is not permitted within Modules")
| mo_key : forall n o p v r, module template n o -> occurs "AWS::CloudFormation::Module" template globals p v ->
    (p ++ [PKey "AWS::CloudFormation::Module"])%list = PKey "Resources" :: PKey n :: PKey "Metadata" :: r ->
    module_fault template globals (p ++ [PKey "AWS::CloudFormation::Module"])%list "The Metadata key AWS::CloudFormation::Module is reserved".

(** The serverless transform. *)
Definition serverless (template : val) : Prop :=
  exists d, template = VDict d /\
    (assoc "Transform" d = Some (VStr "AWS::Serverless-2016-10-31") \/
     exists l, assoc "Transform" d = Some (VList l) /\ In (VStr "AWS::Serverless-2016-10-31") l).
Definition serverless_resource (template : val) (n t : string) : Prop :=
  exists o rest, defined_in "Resources" template n o /\ assoc "Type" o = Some (VStr t) /\ t = "AWS::Serverless::" ++ rest.

(** The place of a list in the value of an output, other than in the second operand of a function or in a Fn::Join. *)
Definition in_output_value (p : path) (n : string) : Prop := exists q, p = PKey "Outputs" :: PKey n :: PKey "Value" :: q.
Definition consumed (p : path) : Prop := (exists q x, p = (q ++ [PKey "Fn::Join"; x])%list) \/ exists q, p = (q ++ [PIdx 1])%list.
Definition list_parameter (template : val) (n : string) : Prop :=
  exists o rest, defined_in "Parameters" template n o /\ assoc "Type" o = Some (VStr ("List<" ++ rest)).
Definition list_attribute (attribute_type : string -> string -> option string) (template : val) (n a : string) : Prop :=
  exists o t, defined_in "Resources" template n o /\ assoc "Type" o = Some (VStr t) /\ attribute_type t a = Some "List".
(** [typed_section template sec]: the section, if there is one, is an object of objects that have a type. *)
Definition typed_section (template : val) (sec : string) : Prop :=
  exists d s, template = VDict d /\ (assoc sec d = Some (VDict s) \/ assoc sec d = None /\ s = []) /\
    forall n x, In (n, x) s -> exists o t, x = VDict o /\ assoc "Type" o = Some (VStr t) /\ t <> "".
