(** What the names of a template refer to (C21). *)
From Coq Require Import List String.
From Verif.Model Require Import Base Helpers.
Import ListNotations.
Local Open Scope string_scope.

(** A member of a section, with its definition. *)
Definition defined_in (section : string) (template : val) (name : string) (o : list (string * val)) : Prop :=
  exists d s, template = VDict d /\ assoc section d = Some (VDict s) /\ assoc name s = Some (VDict o).

(** [names template n]: [n] is a parameter, a resource or a pseudo parameter. *)
Inductive names (template : val) : string -> Prop :=
| nm_parameter : forall n o t, defined_in "Parameters" template n o -> assoc "Type" o = Some t -> names template n
| nm_resource : forall n o t, defined_in "Resources" template n o -> assoc "Type" o = Some (VStr t) -> t <> "" ->
    ends_with "::MODULE" t = false -> names template n
| nm_pseudo : forall n, In n
    ["AWS::AccountId"; "AWS::NotificationARNs"; "AWS::NoValue"; "AWS::Partition"; "AWS::Region"; "AWS::StackId";
     "AWS::StackName"; "AWS::URLSuffix"] -> names template n.
(** A module: its resources are referred to by names that begin with the module's. *)
Definition module (template : val) (n : string) : Prop :=
  exists o t, defined_in "Resources" template n o /\ assoc "Type" o = Some (VStr t) /\ ends_with "::MODULE" t = true.
Definition module_output (template : val) (n : string) : Prop := exists m rest, module template m /\ n = m ++ rest.

(** Both sections are objects whose members are objects, and resource types are texts. *)
Definition plain_sections (template : val) : Prop :=
  exists d, template = VDict d /\ forall section s, In section ["Parameters"; "Resources"] -> assoc section d = Some s ->
    exists m, s = VDict m /\ forall n x, In (n, x) m -> exists o, x = VDict o /\
      (section = "Resources" -> forall t, assoc "Type" o = Some t -> exists u, t = VStr u) /\
      ends_with ".*" n = false.
