(** What E2507, W2511, W3037 and E3050 say about policy documents (C71, C72). *)
From Coq Require Import List String.
From Verif.Model Require Import Base Rules.
From Verif.Spec Require Import Branches Required References Values.
Import ListNotations.
Local Open Scope string_scope.

(** * Statements *)
Definition gives (s : list (string * val)) (k : string) : Prop := In k (keys s).
Definition statement_keys : list string :=
  ["Sid"; "Effect"; "Principal"; "NotPrincipal"; "Action"; "NotAction"; "Resource"; "NotResource"; "Condition"].
(** [statement_fault identity exempt s b]: the faults of the statement [s] at [b]; a policy of an [identity] names no principals, one
    of a repository ([exempt]) no resources.  The missing principal is reported at the place where it would be. *)
Inductive statement_fault (identity exempt : bool) (s : list (string * val)) (b : path) : path -> string -> Prop :=
| sf_key : forall k x, In (k, x) s -> ~ In k statement_keys -> statement_fault identity exempt s b (b ++ [PKey k])%list ("IAM Policy statement key " ++ k ++ " isn't valid")
| sf_no_effect : ~ gives s "Effect" -> statement_fault identity exempt s b b "IAM Policy statement missing Effect"
| sf_effect : forall e t q, assoc "Effect" s = Some e -> branch e (b ++ [PKey "Effect"])%list (VStr t) q -> t <> "Allow" -> t <> "Deny" ->
    statement_fault identity exempt s b q "IAM Policy Effect should be Allow or Deny"
| sf_action : ~ gives s "Action" -> ~ gives s "NotAction" -> statement_fault identity exempt s b b "IAM Policy statement missing Action or NotAction"
| sf_principal : identity = true -> gives s "Principal" \/ gives s "NotPrincipal" ->
    statement_fault identity exempt s b b "IAM Resource Policy statement shouldn't have Principal or NotPrincipal"
| sf_no_principal : identity = false -> ~ gives s "Principal" -> ~ gives s "NotPrincipal" ->
    statement_fault identity exempt s b (b ++ [PKey "Principal"])%list "IAM Resource Policy statement should have Principal or NotPrincipal"
| sf_resource : exempt = false -> ~ gives s "Resource" -> ~ gives s "NotResource" -> statement_fault identity exempt s b b "IAM Policy statement missing Resource or NotResource".
(** [statement_in x p s b]: the statement [s] at [b] is one of the statements [x] at [p]: the only one, or one of a list. *)
Inductive statement_in (x : val) (p : path) (s : list (string * val)) (b : path) : Prop :=
| si_item : forall l i y, x = VList l -> nth_error l i = Some y -> branch y (p ++ [PIdx i])%list (VDict s) b -> statement_in x p s b
| si_only : is_dict x = true -> branch x p (VDict s) b -> statement_in x p s b.

(** * Documents *)
(** A document is an object, or a text that holds one in JSON. *)
Inductive document (json : string -> option val) : val -> val -> Prop :=
| doc_text : forall s v, json s = Some v -> document json (VStr s) v
| doc_value : forall v, (forall s, v <> VStr s) -> document json v v.
Definition document_keys : list string := ["Version"; "Id"; "Statement"].
(** [document_fault json identity exempt w r place shown words]: a fault of the document [w] at [r]; [place] is where the fault is, [shown]
    where it is reported. *)
Inductive document_fault (json : string -> option val) (identity exempt : bool) (w : val) (r : path) : path -> path -> string -> Prop :=
| df_text : forall s, w = VStr s -> json s = None -> document_fault json identity exempt w r r r "IAM Policy Documents need to be JSON"
| df_object : forall v, document json w v -> is_dict v = false -> document_fault json identity exempt w r r r "IAM Policy Documents needs to be JSON"
| df_key : forall v d q k x, document json w v -> is_dict v = true -> branch v r (VDict d) q -> In (k, x) d -> ~ In k document_keys ->
    document_fault json identity exempt w r (q ++ [PKey k])%list (r ++ q ++ [PKey k])%list ("IAM Policy key " ++ k ++ " doesn't exist.")
| df_version : forall v d q x, document json w v -> is_dict v = true -> branch v r (VDict d) q -> In ("Version", x) d -> x <> VStr "2012-10-17" -> x <> VStr "2008-10-17" ->
    document_fault json identity exempt w r (q ++ [PKey "Version"])%list (q ++ [PKey "Version"])%list "IAM Policy Version needs to be one of (2012-10-17, 2008-10-17)."
| df_list : forall v d q x, document json w v -> is_dict v = true -> branch v r (VDict d) q -> In ("Statement", x) d -> is_dict x = false -> is_list x = false ->
    document_fault json identity exempt w r (q ++ [PKey "Statement"])%list (q ++ [PKey "Statement"])%list "IAM Policy statement should be of list."
| df_statement : forall v d q x s b pl words, document json w v -> is_dict v = true -> branch v r (VDict d) q -> In ("Statement", x) d ->
    statement_in x (q ++ [PKey "Statement"])%list s b -> statement_fault identity exempt s b pl words -> document_fault json identity exempt w r pl pl words.
(** A statement that is not in a list is an object in every branch. *)
Definition statements_shaped (json : string -> option val) (w : val) (r : path) : Prop :=
  forall v d q x, document json w v -> is_dict v = true -> branch v r (VDict d) q -> In ("Statement", x) d -> is_dict x = true -> all_objects x (q ++ [PKey "Statement"])%list.

(** * Where documents are *)
(** [document_at names props p x q]: the value [x] at [q] is given for a document, by one of the properties [names] or in the list of policies. *)
Inductive document_at (names : list string) (props : list (string * val)) (p : path) : val -> path -> Prop :=
| da_property : forall k x, In k names -> assoc k props = Some x -> document_at names props p x (p ++ [PKey k])%list
| da_policy : forall l i o x, assoc "Policies" props = Some (VList l) -> nth_error l i = Some (VDict o) -> assoc "PolicyDocument" o = Some x ->
    document_at names props p x (p ++ [PKey "Policies"; PIdx i; PKey "PolicyDocument"])%list.
Definition all_document_names : list string := ["AccessPolicies"; "InlinePolicy"; "KeyPolicy"; "PolicyDocument"; "RepositoryPolicyText"].
(** Types whose policies are about the resource itself. *)
Definition resource_policy_types : list string :=
  ["AWS::ECR::Repository"; "AWS::Elasticsearch::Domain"; "AWS::KMS::Key"; "AWS::S3::BucketPolicy"; "AWS::SNS::TopicPolicy"; "AWS::SQS::QueuePolicy"].
Definition identity_types : list string :=
  ["AWS::IAM::Group"; "AWS::IAM::ManagedPolicy"; "AWS::IAM::Policy"; "AWS::IAM::Role"; "AWS::IAM::User"; "AWS::SSO::PermissionSet"].
(** Documents no branch of which is null, and whose statements are in order. *)
Definition documents_shaped (json : string -> option val) (names : list string) (props : list (string * val)) (p : path) : Prop :=
  forall x q, document_at names props p x q -> (forall r, ~ alternative x q VNull r) /\
    forall w r, single x q w r -> ~ is_call w -> statements_shaped json w r.
(** Policies of other types are about what an identity may do; those of repositories name no resources. *)
Definition of_identity (rt : string) : bool := if in_dec string_dec rt resource_policy_types then false else true.
Definition of_repository (rt : string) : bool := String.eqb rt "AWS::ECR::Repository".

(** * Versions *)
(** [versioned rt props p x q]: the value [x] at [q] is given for a document of a resource of type [rt] whose version is looked at. *)
Definition versioned_properties : list (string * string) :=
  [("AWS::ECR::Repository", "RepositoryPolicyText"); ("AWS::Elasticsearch::Domain", "AccessPolicies"); ("AWS::IAM::ManagedPolicy", "PolicyDocument"); ("AWS::IAM::Policy", "PolicyDocument");
   ("AWS::KMS::Key", "KeyPolicy"); ("AWS::S3::BucketPolicy", "PolicyDocument"); ("AWS::SNS::TopicPolicy", "PolicyDocument"); ("AWS::SQS::QueuePolicy", "PolicyDocument")].
Definition with_policies : list string := ["AWS::IAM::Group"; "AWS::IAM::Role"; "AWS::IAM::User"].
Definition version_type (rt : string) : Prop := In rt with_policies \/ exists k, In (rt, k) versioned_properties.
Inductive versioned (rt : string) (props : list (string * val)) (p : path) : val -> path -> Prop :=
| ve_property : forall k x, In (rt, k) versioned_properties -> assoc k props = Some x -> versioned rt props p x (p ++ [PKey k])%list
| ve_policy : forall l i o x, In rt with_policies -> assoc "Policies" props = Some (VList l) -> nth_error l i = Some (VDict o) -> assoc "PolicyDocument" o = Some x ->
    versioned rt props p x (p ++ [PKey "Policies"; PIdx i; PKey "PolicyDocument"])%list.
(** Documents that are not null, and do not become a condition when members without a value are left out; the policies can be gone through. *)
Definition versions_shaped (rt : string) (props : list (string * val)) (p : path) : Prop :=
  (forall x q, versioned rt props p x q -> (forall r, ~ alternative x q VNull r) /\
    forall d r d' r', single x q (VDict d) r -> branch (VDict d) r (VDict d') r' -> ~ is_if (VDict d')) /\
  (In rt with_policies -> forall v, assoc "Policies" props = Some v -> is_list v = true \/ is_dict v = true).
