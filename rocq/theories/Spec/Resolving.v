(** What the references in a template whose report is empty are like (C107). *)
From Coq Require Import List String Relations.
From Verif.Model Require Import Base Locate Helpers.
From Verif.Spec Require Import Paths References ConditionUse Faults Dependencies Protect Silence Clean.
Import ListNotations.
Local Open Scope string_scope.

(** The rules about the sections, and those about what the template refers to. *)
Definition reference_rules : list string :=
  (section_rules ++ ["E2003"; "E3006"; "E1012"; "E1020"; "E1028"; "E8002"; "E8004"; "E8005"; "E8006"; "E3004"; "E3005"])%list.

(** A section is given as a text or a list. *)
Definition spoilt (template : val) (name : string) : Prop := exists d v, template = VDict d /\ assoc name d = Some v /\ no_object v.

(** A reference names a parameter, a resource, a module or a pseudo parameter, or begins with such a name. *)
Definition begins_with_name (template : val) (s : string) : Prop :=
  exists n rest, (References.names template n \/ References.module template n) /\ s = n ++ rest.
Definition refs_resolve (template : val) : Prop :=
  forall p v, at_path (p ++ [PKey "Ref"])%list template = Some v ->
    exists s, v = VStr s /\ (spoilt template "Parameters" \/ begins_with_name template s).
Definition conditions_resolve (template : val) : Prop :=
  spoilt template "Outputs" \/ spoilt template "Conditions" \/
  forall n, uses_condition template (VDict []) n -> condition_defined template n.
Definition conditions_formed (template : val) : Prop :=
  (forall f r v, In f ["Fn::And"; "Fn::Or"; "Fn::Not"] -> at_path (PKey "Conditions" :: r ++ [PKey f])%list template = Some v -> valid_condition_list f v) /\
  (forall p v, at_path (p ++ [PKey "Fn::If"])%list template = Some v -> valid_if v).
(** A DependsOn that is empty is not looked at. *)
Definition dependencies_resolve (template : val) : Prop :=
  forall n p v, depends_entry template n p v ->
    (exists s o, v = VStr s /\ Protect.resource template s o) \/ p = [PKey "Resources"; PKey n; PKey "DependsOn"] /\ empty v.
Definition no_cycles (template : val) : Prop := forall a, ~ clos_trans _ (depends template) a a.
