(** Passwords, image ids and availability zones (C62-C64). *)
From Coq Require Import List String.
From Verif.Model Require Import Base Helpers Relationship.
From Verif.Spec Require Import Paths References ConditionUse Values.
Import ListNotations.
Local Open Scope string_scope.

(** The properties of resources that the package command replaces. *)
Definition packaged : list (string * string) :=
  [("AWS::ApiGateway::RestApi", "BodyS3Location"); ("AWS::Lambda::Function", "Code"); ("AWS::Lambda::LayerVersion", "Content");
   ("AWS::ElasticBeanstalk::ApplicationVersion", "SourceBundle"); ("AWS::StepFunctions::StateMachine", "DefinitionS3Location")].

(** The properties that hold passwords. *)
Definition password_names : list string :=
  ["AccountPassword"; "AdminPassword"; "ADDomainJoinPassword"; "CrossRealmTrustPrincipalPassword"; "KdcAdminPassword"; "Password";
   "DbPassword"; "MasterUserPassword"; "PasswordParam"].
(** [p] leads into the properties of a resource. *)
Definition into_properties (p : path) : Prop := exists r rest, p = PKey "Resources" :: r :: PKey "Properties" :: rest.
(** The parameter [n] is shown in plain text. *)
Definition echoed (template : val) (n : string) : Prop :=
  exists o, defined_in "Parameters" template n o /\ forall x, assoc "NoEcho" o = Some x -> truthy x = false.
(** What is wrong with the value [v] of the property [prop] at [q]: where it is reported, and how. *)
Inductive password_fault (template : val) (prop : string) (q : path) : val -> path -> string -> Prop :=
| pf_plain : forall s, ~ dynamic_reference s -> password_fault template prop q (VStr s) q ("Password shouldn't be hardcoded for " ++ path_text q)
| pf_insecure : forall s, dynamic_reference s -> versioned_reference "ssm" s ->
    password_fault template prop q (VStr s) q ("Password should use a secure dynamic reference for " ++ path_text q)
| pf_map : forall d, List.length d <> 1 -> password_fault template prop q (VDict d) q ("Inappropriate map found for password on " ++ path_text q)
| pf_echo : forall n, echoed template n ->
    password_fault template prop q (VDict [("Ref", VStr n)]) [PKey "Parameters"; PKey n] ("Parameter " ++ n ++ " used as " ++ prop ++ ", therefore NoEcho should be True").
(** No resource is the text "Properties". *)
Definition no_stray (template globals : val) : Prop :=
  forall prop, ~ occurs prop template globals [PKey "Resources"] (VStr "Properties").

(** Image ids. *)
Definition image_kinds : list string := ["AWS::EC2::Image::Id"; "AWS::SSM::Parameter::Value<AWS::EC2::Image::Id>"].
(** [n] is a parameter whose type is that of an image. *)
Definition image_typed (template : val) (n : string) : Prop :=
  exists o t, defined_in "Parameters" template n o /\ assoc "Type" o = Some (VStr t) /\ In t image_kinds.
(** No resource has a type that is only for parameters. *)
Definition image_parameters_only (template : val) : Prop :=
  forall n o t, defined_in "Resources" template n o -> assoc "Type" o = Some (VStr t) -> ~ In t image_kinds.
Inductive image_fault (template : val) (q : path) : val -> path -> string -> Prop :=
| imf_map : forall d, List.length d <> 1 -> image_fault template q (VDict d) q ("Inappropriate map found for ImageId on " ++ path_text q)
| imf_type : forall n, names template n -> ~ image_typed template n ->
    image_fault template q (VDict [("Ref", VStr n)]) [PKey "Parameters"; PKey n] ("Parameter " ++ n ++ " should be of type [" ++ join_str ", " image_kinds ++ "]").
Definition into_resources (p : path) : Prop := exists rest, p = PKey "Resources" :: rest.
(** [n] does not even begin with a name. *)
Definition unknown (template : val) (n : string) : Prop := forall m rest, n = m ++ rest -> ~ names template m /\ ~ module template m.
