(** Code locations of serverless resources (C40). *)
From Coq Require Import List String.
From Verif.Model Require Import Base.
From Verif.Spec Require Import Faults Protect.
Import ListNotations.
Local Open Scope string_scope.

(** [location t ps k]: in a resource of type [t] with the properties [ps] the property [k] says where the code is. *)
Inductive location (ps : list (string * val)) : string -> string -> Prop :=
| lo_function : location ps "AWS::Serverless::Function" "CodeUri"
| lo_layer : given ps "ContentUri" -> location ps "AWS::Serverless::LayerVersion" "ContentUri"
| lo_machine : given ps "DefinitionUri" -> location ps "AWS::Serverless::StateMachine" "DefinitionUri"
| lo_api : assoc "DefinitionBody" ps = None -> assoc "Auth" ps = None -> assoc "Cors" ps = None -> location ps "AWS::Serverless::Api" "DefinitionUri".
(** A location that is an S3 location, or an object other than a Ref. *)
Definition remote (v : val) : Prop :=
  (exists rest, v = VStr ("s3://" ++ rest)) \/ (exists d, v = VDict d /\ forall r, d <> [("Ref", r)]).
(** [property_after t ps k v]: the value of property [k] after the replacement. *)
Inductive property_after (ps : list (string * val)) (t k : string) : option val -> Prop :=
| pa_remote : forall v, location ps t k -> assoc k ps = Some v -> remote v -> property_after ps t k (Some v)
| pa_local : location ps t k -> (forall v, assoc k ps = Some v -> ~ remote v) -> property_after ps t k (Some (VStr "s3://bucket/value"))
| pa_application : t = "AWS::Serverless::Application" -> k = "Location" -> given ps k -> property_after ps t k (Some (VStr "s3://bucket/value"))
| pa_body : t = "AWS::Serverless::Api" -> k = "DefinitionBody" ->
    (assoc "DefinitionBody" ps <> None \/ assoc "Auth" ps <> None \/ assoc "Cors" ps <> None) -> property_after ps t k (Some (VStr ""))
| pa_same : ~ location ps t k -> (t = "AWS::Serverless::Application" -> k = "Location" -> ~ given ps k) ->
    (t = "AWS::Serverless::Api" -> k = "DefinitionBody" -> assoc "DefinitionBody" ps = None /\ assoc "Auth" ps = None /\ assoc "Cors" ps = None) ->
    property_after ps t k (assoc k ps).
Definition serverless_types : list string :=
  ["AWS::Serverless::Function"; "AWS::Serverless::LayerVersion"; "AWS::Serverless::StateMachine"; "AWS::Serverless::Api"; "AWS::Serverless::Application"].
(** A resource before and after. *)
Definition resource_after (o o' : list (string * val)) : Prop :=
  map fst o' = map fst o /\ (forall k, k <> "Properties" -> assoc k o' = assoc k o) /\
  forall v, assoc "Properties" o = Some v -> exists v', assoc "Properties" o' = Some v' /\
    ((forall t, In t serverless_types -> assoc "Type" o <> Some (VStr t)) /\ v' = v \/
     exists t ps ps', assoc "Type" o = Some (VStr t) /\ In t serverless_types /\ v = VDict ps /\ v' = VDict ps' /\ forall k, property_after ps t k (assoc k ps')).
(** A template before and after. *)
Definition template_after (d d' : list (string * val)) : Prop :=
  map fst d' = map fst d /\ (forall s, s <> "Resources" -> assoc s d' = assoc s d) /\
  forall v, assoc "Resources" d = Some v -> exists rs rs', v = VDict rs /\ assoc "Resources" d' = Some (VDict rs') /\ map fst rs' = map fst rs /\
    forall n x, assoc n rs = Some x -> exists o o', x = VDict o /\ assoc n rs' = Some (VDict o') /\ resource_after o o'.
(** Templates on which the replacement does not fail. *)
Definition alias_fine (d ps : list (string * val)) : Prop :=
  forall v, assoc "AutoPublishAlias" ps = Some (VDict [("Ref", v)]) -> exists s pd, v = VStr s /\ assoc "Parameters" d = Some (VDict pd).
Definition documented (d : list (string * val)) : Prop :=
  (forall v, assoc "Resources" d = Some v -> exists rs, v = VDict rs /\ forall n x, In (n, x) rs -> exists o, x = VDict o /\
     forall t, In t serverless_types -> assoc "Type" o = Some (VStr t) -> exists ps, assoc "Properties" o = Some (VDict ps) /\ alias_fine d ps) /\
  (forall g, assoc "Globals" d = Some g -> exists gd, g = VDict gd /\ forall f, assoc "Function" gd = Some f -> exists fd, f = VDict fd /\ alias_fine d fd).
