(** What a template whose report is empty is like (C106). *)
From Coq Require Import List String.
From Verif.Model Require Import Base Locate Helpers Rules.
From Verif.Spec Require Import Limited ConditionUse Faults Silence.
Import ListNotations.
Local Open Scope string_scope.

(** The rules about the sections of a template. *)
Definition section_rules : list string := ["E1001"; "E1004"; "E2001"; "E3001"; "E6001"; "E6002"; "E7001"; "E8001"].

(** A section is given as something else than an object. *)
Definition in_name_only (v : val) : Prop := empty v \/ no_object v.
(** All members of a section are objects with a property, or one of them is a text or a list. *)
Definition objects_that (good : string -> list (string * val) -> Prop) (members : list (string * val)) : Prop :=
  (exists n x, In (n, x) members /\ no_object x) \/ forall n x, In (n, x) members -> exists def, x = VDict def /\ good n def.

Definition proper_parameter (n : string) (def : list (string * val)) : Prop := forall p message, ~ parameter_fault n def p message.
Definition proper_output (n : string) (def : list (string * val)) : Prop :=
  (forall k, In k (map fst def) -> In k ["Value"; "Export"; "Description"; "Condition"]) /\ In "Value" (map fst def) /\
  forall v, assoc "Value" def = Some v -> ~ empty v -> forall text p message, ~ value_fault text p v message.

(** [specs], [registry], [regions]: the specifications, the registered types and the regions of the run. *)
Definition well_made (specs : list (string * region_spec)) (registry regions : list string) (template : val) : Prop :=
  exists d, template = VDict d /\
    (forall k, In k (map fst d) -> In k ["AWSTemplateFormatVersion"; "Description"; "Metadata"; "Parameters"; "Mappings"; "Conditions"; "Transform"; "Hooks";
                                         "Resources"; "Outputs"; "Rules"]) /\
    (forall v, assoc "Description" d = Some v -> empty v \/ exists s, v = VStr s) /\
    (exists rs, assoc "Resources" d = Some (VDict rs) /\
       forall n v, In (n, v) rs -> forall p message, ~ resource_fault specs registry regions n v p message) /\
    (forall v, assoc "Parameters" d = Some v -> in_name_only v \/ exists ps, v = VDict ps /\ objects_that proper_parameter ps) /\
    (forall v, assoc "Outputs" d = Some v -> empty v \/ exists os, v = VDict os /\ objects_that proper_output os) /\
    (forall v, assoc "Mappings" d = Some v -> in_name_only v \/
       exists ms, v = VDict ms /\ forall n x, In (n, x) ms -> forall show p message, ~ mapping_fault show n x p message) /\
    (forall v, assoc "Conditions" d = Some v -> in_name_only v \/
       exists cs, v = VDict cs /\ forall n x, In (n, x) cs -> condition_object x).
