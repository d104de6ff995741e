(** What E4001 and W4001 say about the section AWS::CloudFormation::Interface of the metadata (C68). *)
From Coq Require Import List String.
From Verif.Model Require Import Base Rules.
From Verif.Spec Require Import Paths.
Import ListNotations.
Local Open Scope string_scope.

Definition interface_place : path := [PKey "Metadata"; PKey "AWS::CloudFormation::Interface"].
Definition groups_place : path := (interface_place ++ [PKey "ParameterGroups"])%list.
Definition labels_place : path := (interface_place ++ [PKey "ParameterLabels"])%list.
(** The interface is an object, its groups, if any, a list of objects, and the parameters of a group, if any, a list. *)
Definition interface_shaped (t : val) (i : list (string * val)) : Prop :=
  at_path interface_place t = Some (VDict i) /\
  (forall g, assoc "ParameterGroups" i = Some g -> exists l, g = VList l /\ forall x, In x l -> exists o, x = VDict o /\
     forall ps, assoc "Parameters" o = Some ps -> exists pl, ps = VList pl).
(** Keys that do not belong where they are. *)
Inductive stray_key (t : val) : path -> string -> Prop :=
| sk_interface : forall i x k, at_path interface_place t = Some (VDict i) -> assoc k i = Some x ->
    k <> "ParameterGroups" -> k <> "ParameterLabels" -> stray_key t (interface_place ++ [PKey k])%list k
| sk_group : forall j g x k, at_path (groups_place ++ [PIdx j])%list t = Some (VDict g) -> assoc k g = Some x ->
    k <> "Label" -> k <> "Parameters" -> stray_key t (groups_place ++ [PIdx j; PKey k])%list k.
Definition stray_match (p : path) (k : string) : rulematch := mkRM p ("Metadata Interface has invalid property " ++ k).
(** The parameters of the template. *)
Definition parameter_of (t : val) (n : string) : Prop := exists ps x, at_path [PKey "Parameters"] t = Some (VDict ps) /\ assoc n ps = Some x.
(** Values in groups and keys of labels that name no parameter. *)
Inductive stray_name (t : val) : path -> val -> Prop :=
| sn_group : forall j i v, at_path (groups_place ++ [PIdx j; PKey "Parameters"; PIdx i])%list t = Some v ->
    (forall n, v = VStr n -> ~ parameter_of t n) -> stray_name t (groups_place ++ [PIdx j; PKey "Parameters"; PIdx i])%list v
| sn_label : forall k x, at_path (labels_place ++ [PKey k])%list t = Some x -> ~ parameter_of t k ->
    stray_name t (labels_place ++ [PKey k])%list (VStr k).
