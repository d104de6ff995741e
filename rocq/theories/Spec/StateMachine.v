(** What a definition of a state machine has to be. *)
From Coq Require Import List.
From Verif.Model Require Import Base Helpers.
From Verif.Spec Require Import Paths Branches Values.
Import ListNotations.
Local Open Scope string_scope.

(** [state_kind t own required]: states of the type [t] may have the keys [own] besides those of all states, and need [required]. *)
Inductive state_kind : string -> list string -> list string -> Prop :=
| k_pass : state_kind "Pass" ["Result"; "ResultPath"; "Parameters"] []
| k_task : state_kind "Task" ["Resource"; "ResultPath"; "Retry"; "Catch"; "TimeoutSeconds"; "Parameters"; "HeartbeatSeconds"] ["Resource"]
| k_map : state_kind "Map" ["MaxConcurrency"; "Iterator"; "ItemsPath"; "ResultPath"; "Retry"; "Catch"; "Parameters"] []
| k_choice : state_kind "Choice" ["Choices"; "Default"] ["Choices"]
| k_wait : state_kind "Wait" ["Seconds"; "Timestamp"; "SecondsPath"; "TimestampPath"] []
| k_succeed : state_kind "Succeed" [] []
| k_fail : state_kind "Fail" ["Cause"; "Error"] []
| k_parallel : state_kind "Parallel" ["Branches"; "ResultPath"; "Retry"; "Catch"] ["Branches"].
Definition all_states_have : list string := ["Next"; "End"; "Type"; "Comment"; "InputPath"; "OutputPath"].

Section Definitions.
Variable loads : val -> string + val.
Variable show : val -> string.
(** [prints v s]: the text of [v] is [s]. *)
Inductive prints : val -> string -> Prop :=
| pr_text s : prints (VStr s) s
| pr_other v : (forall s, v <> VStr s) -> prints v (show v).
(** [state_fault name d words]: the state [d] called [name] deserves the words. *)
Inductive state_fault (name : string) (d : list (string * val)) : string -> Prop :=
| st_untyped : assoc "Type" d = None -> state_fault name d ("State Machine Definition required key (Type) for State (" ++ name ++ ") is missing")
| st_type ty s : assoc "Type" d = Some ty -> (forall t own req, state_kind t own req -> ty <> VStr t) -> prints ty s ->
    state_fault name d ("State Machine Definition Type (" ++ s ++ ") is not valid")
| st_key t own req k : assoc "Type" d = Some (VStr t) -> state_kind t own req -> In k (keys d) -> ~ In k all_states_have -> ~ In k own ->
    state_fault name d ("State Machine Definition key (" ++ k ++ ") for State (" ++ name ++ ") of Type (" ++ t ++ ") is not valid")
| st_missing t own req k : assoc "Type" d = Some (VStr t) -> state_kind t own req -> In k req -> assoc k d = None ->
    state_fault name d ("State Machine Definition required key (" ++ k ++ ") for State (" ++ name ++ ") of Type (" ++ t ++ ") is missing").
Inductive definition_fault (d : list (string * val)) : string -> Prop :=
| df_key k : In k (keys d) -> ~ In k ["Comment"; "StartAt"; "TimeoutSeconds"; "Version"; "States"] ->
    definition_fault d ("State Machine Definition key (" ++ k ++ ") is not valid")
| df_missing k : k = "StartAt" \/ k = "States" -> assoc k d = None -> definition_fault d ("State Machine Definition required key (" ++ k ++ ") is missing")
| df_state states name st words : assoc "States" d = Some (VDict states) -> In (name, VDict st) states -> state_fault name st words -> definition_fault d words.
(** The text that an Fn::Sub is about. *)
Inductive sub_text : val -> val -> Prop :=
| su_text s : sub_text (VStr s) (VStr s)
| su_list x l : sub_text (VList (x :: l)) x.
(** [machine_fault w r q words]: the single value [w] at [r] is reported at [q]. *)
Inductive machine_fault (w : val) (r : path) : path -> string -> Prop :=
| mf_json err : ~ is_call w -> loads w = inl err -> machine_fault w r r ("State Machine Definition needs to be formatted as JSON. Error " ++ err)
| mf_value d words : ~ is_call w -> loads w = inr (VDict d) -> definition_fault d words -> machine_fault w r r words
| mf_sub y x d words : w = VDict [("Fn::Sub", y)] -> sub_text y x -> loads x = inr (VDict d) -> definition_fault d words ->
    machine_fault w r (r ++ [PKey "Fn::Sub"])%list words.
(** JSON of the usual shape: an object, whose States are an object of objects, and whose types are not lists or objects. *)
Definition definition_shaped (v : val) : Prop :=
  exists d, v = VDict d /\ forall s, assoc "States" d = Some s -> exists states, s = VDict states /\
    forall name st, In (name, st) states -> exists sd, st = VDict sd /\ forall ty, assoc "Type" sd = Some ty -> (forall l, ty <> VList l) /\ (forall o, ty <> VDict o).
Definition machine_shaped (pd : list (string * val)) (p : path) : Prop :=
  forall x, assoc "DefinitionString" pd = Some x ->
    (forall q, ~ alternative x (p ++ [PKey "DefinitionString"])%list VNull q) /\
    forall w r, single x (p ++ [PKey "DefinitionString"])%list w r ->
      (~ is_call w -> forall v, loads w = inr v -> definition_shaped v) /\
      (forall y, w = VDict [("Fn::Sub", y)] -> y <> VList [] /\ forall x v, sub_text y x -> loads x = inr v -> definition_shaped v).
End Definitions.
