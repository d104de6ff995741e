(** What W3037 says about the actions of policies, and E3050 about references to roles (C72). *)
From Coq Require Import List String Ascii.
From Verif.Model Require Import Base Rules.
From Verif.Spec Require Import Branches References Values Iam.
Import ListNotations.
Local Open Scope string_scope.

(** * Actions *)
(** Texts without the character [c]. *)
Definition without (c : ascii) (s : string) : Prop := ~ In c (list_ascii_of_string s).
(** [two_parts a service permission]: the action [a] names a permission of a service, before and after the first colon. *)
Definition two_parts (a service permission : string) : Prop := a = service ++ ":" ++ permission /\ without ":" service.
Definition occurs (t s : string) : Prop := exists before after, s = before ++ t ++ after.
(** A service of the list of services, by its prefix, which is in no particular case. *)
Definition has_service (services : list (string * list string)) (service : string) : Prop := exists s l, In (s, l) services /\ lower s = lower service.
Definition has_action (services : list (string * list string)) (service action : string) : Prop :=
  exists s l a, In (s, l) services /\ lower s = lower service /\ In a l /\ lower a = action.
(** [accepted services service permission]: the star stands for everything; a permission that ends with a star is accepted if what is before its
    first star occurs in an action, one that begins with a star if what follows up to the next does; any other must be an action. *)
Inductive accepted (services : list (string * list string)) (service : string) : string -> Prop :=
| ac_all : accepted services service "*"
| ac_prefix : forall t rest a, (exists before, t ++ "*" ++ rest = before ++ "*") -> without "*" t -> has_action services service a -> occurs t a -> accepted services service (t ++ "*" ++ rest)
| ac_suffix : forall t rest a, ~ (exists before, "*" ++ t ++ rest = before ++ "*") -> without "*" t -> (rest = "" \/ exists more, rest = "*" ++ more) ->
    has_action services service a -> occurs t a -> accepted services service ("*" ++ t ++ rest)
| ac_action : forall s, ~ (exists before, s = before ++ "*") -> ~ (exists after, s = "*" ++ after) -> has_action services service s -> accepted services service s.
Inductive action_fault (services : list (string * list string)) (a : string) : string -> Prop :=
| af_service : forall service permission, a <> "*" -> two_parts a service permission -> ~ has_service services service ->
    action_fault services a ("Invalid service """ ++ service ++ """ found in permissions")
| af_permission : forall service permission, a <> "*" -> two_parts a service permission -> has_service services service -> ~ accepted services service (lower permission) ->
    action_fault services a ("Invalid permission """ ++ permission ++ """ for """ ++ service ++ """ found in permissions").

(** * Statements *)
(** The actions of a statement that are looked at: a list of actions that are excepted only beside a list of actions. *)
Inductive names_action (s : list (string * val)) : val -> Prop :=
| nm_text : forall t, assoc "Action" s = Some (VStr t) -> names_action s (VStr t)
| nm_item : forall l x, assoc "Action" s = Some (VList l) -> In x l -> names_action s x
| nm_not_text : forall t, assoc "NotAction" s = Some (VStr t) -> names_action s (VStr t)
| nm_not_item : forall l x, assoc "NotAction" s = Some (VList l) -> (exists l', assoc "Action" s = Some (VList l')) -> In x l -> names_action s x.
(** [statement_no x i s]: the statement [s] is the [i]th of [x], or in a list that is the [i]th. *)
Inductive statement_no (x : val) : nat -> list (string * val) -> Prop :=
| sn_item : forall l i s, x = VList l -> nth_error l i = Some (VDict s) -> statement_no x i s
| sn_inner : forall l i inner s, x = VList l -> nth_error l i = Some (VList inner) -> In (VDict s) inner -> statement_no x i s
| sn_only : forall s, x = VDict s -> statement_no x 0 s.
(** [permission_fault json services w r shown words]: a fault of the actions of the document [w] at [r]. *)
Inductive permission_fault (json : string -> option val) (services : list (string * list string)) (w : val) (r : path) : path -> string -> Prop :=
| pf_text : forall s, w = VStr s -> json s = None -> permission_fault json services w r r "IAM Policy Documents need to be JSON"
| pf_action : forall v d q x i s a words, document json w v -> is_dict v = true -> branch v r (VDict d) q -> assoc "Statement" d = Some x -> statement_no x i s -> names_action s (VStr a) ->
    action_fault services a words -> permission_fault json services w r (q ++ [PKey "Statement"; PIdx i])%list words.
(** Documents in which lists among the statements hold objects, and whose actions are texts with a colon; excepted actions are a text or a list. *)
Definition actions_shaped (s : list (string * val)) : Prop :=
  (forall x, names_action s x -> x = VStr "*" \/ exists a service permission, x = VStr a /\ two_parts a service permission) /\
  (forall x, assoc "NotAction" s = Some x -> (exists t, x = VStr t) \/ is_list x = true).
Definition document_actions_shaped (json : string -> option val) (w : val) (r : path) : Prop :=
  forall v d q x, document json w v -> is_dict v = true -> branch v r (VDict d) q -> assoc "Statement" d = Some x ->
    (forall i s, statement_no x i s -> actions_shaped s) /\ (forall l i inner y, x = VList l -> nth_error l i = Some (VList inner) -> In y inner -> is_dict y = true).
Definition permission_document_names : list string := ["AccessPolicies"; "KeyPolicy"; "PolicyDocument"; "RepositoryPolicyText"].
Definition permissions_shaped (json : string -> option val) (props : list (string * val)) (p : path) : Prop :=
  forall x q, document_at permission_document_names props p x q -> (forall r, ~ alternative x q VNull r) /\
    forall w r, single x q w r -> ~ is_call w -> document_actions_shaped json w r.

(** The types of resources whose policies are looked at. *)
Definition permission_rule_types : list string :=
  ["AWS::Elasticsearch::Domain"; "AWS::IAM::Group"; "AWS::IAM::ManagedPolicy"; "AWS::IAM::Policy"; "AWS::IAM::Role"; "AWS::IAM::User"; "AWS::KMS::Key";
   "AWS::S3::BucketPolicy"; "AWS::SNS::TopicPolicy"; "AWS::SQS::QueuePolicy"].

(** * References to roles *)
(** [pathed t n x]: the resource [n] of the template gives a path [x] other than the root. *)
Definition pathed (t : val) (n : string) (x : val) : Prop :=
  exists o ty d, defined_in "Resources" t n o /\ assoc "Type" o = Some ty /\ ty <> VNull /\ assoc "Properties" o = Some (VDict d) /\ assoc "Path" d = Some x /\ truthy x = true /\ x <> VStr "/".
Definition path_words (str_other : val -> string) (x : val) : string :=
  "When using a Ref to IAM resource the Path must be '/'.  Switch to GetAtt if the Path has to be '" ++ py_str str_other x ++ "'.".
(** The roles that properties refer to are names, and the properties of these are objects. *)
Definition role_refs_shaped (t : val) (props : list (string * val)) (p : path) : Prop :=
  forall x, assoc "ServiceRole" props = Some x -> (forall r, ~ alternative x (p ++ [PKey "ServiceRole"])%list VNull r) /\
    forall v r, single x (p ++ [PKey "ServiceRole"])%list (VDict [("Ref", v)]) r -> is_list v = false /\ is_dict v = false /\
      forall n o y, v = VStr n -> defined_in "Resources" t n o -> assoc "Properties" o = Some y -> is_dict y = true.
