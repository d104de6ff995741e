(** Dependencies between the resources of a template (C20). *)
From Coq Require Import List String Relations.
From Verif.Model Require Import Base.
From Verif.Spec Require Import Paths.
Import ListNotations.
Local Open Scope string_scope.

(** A resource: a member of the Resources section that is a non-empty object. *)
Definition resource (template : val) (name : string) : Prop :=
  exists d rs o, template = VDict d /\ assoc "Resources" d = Some (VDict rs) /\ assoc name rs = Some (VDict o) /\ o <> [].

(** The text contains the placeholder [${name}], the name being made of letters, digits and dots. *)
Definition has_placeholder (text name : string) : Prop :=
  (exists before after, text = before ++ "${" ++ name ++ "}" ++ after) /\
  str_forall (fun a => is_alnum a || Ascii.eqb a ".") name = true.

(** The part of a text before its first dot. *)
Definition first_part (s name : string) : Prop :=
  has_char "." name = false /\ (s = name \/ exists rest, s = name ++ "." ++ rest).

(** [refers_to value key name]: the argument [value] of the function [key] refers to [name]. *)
Inductive refers_to : val -> string -> string -> Prop :=
| rf_ref : forall n, refers_to (VStr n) "Ref" n
| rf_getatt_list : forall n a, refers_to (VList [VStr n; a]) "Fn::GetAtt" n
| rf_getatt_text : forall s n, has_char "." s = true -> first_part s n -> refers_to (VStr s) "Fn::GetAtt" n
| rf_sub : forall s x n, has_placeholder s x -> first_part x n -> refers_to (VStr s) "Fn::Sub" n
| rf_sub_list : forall s x n, has_placeholder s x -> first_part x n -> refers_to (VList [VStr s]) "Fn::Sub" n
| rf_sub_map : forall s m x n, has_placeholder s x -> assoc x m = None -> first_part x n ->
    refers_to (VList [VStr s; VDict m]) "Fn::Sub" n.

(** [depends template a b]: resource [a] names [b] in its DependsOn, or refers to it somewhere. *)
Inductive depends (template : val) (a b : string) : Prop :=
| dp_text : resource template b -> at_path [PKey "Resources"; PKey a; PKey "DependsOn"] template = Some (VStr b) ->
    depends template a b
| dp_list : forall l, resource template b -> at_path [PKey "Resources"; PKey a; PKey "DependsOn"] template = Some (VList l) ->
    In (VStr b) l -> depends template a b
| dp_function : forall r f v, resource template b ->
    at_path (PKey "Resources" :: PKey a :: r ++ [PKey f])%list template = Some v -> refers_to v f b -> depends template a b.

(** The functions are used in the forms above and resources are objects. *)
Definition plain_functions (template : val) : Prop :=
  (exists d rs, template = VDict d /\ (assoc "Resources" d = Some (VDict rs) \/ assoc "Resources" d = None /\ rs = []) /\
     forall n x, In (n, x) rs -> exists o, x = VDict o) /\
  (forall p v, at_path (p ++ [PKey "Fn::GetAtt"])%list template = Some v -> (exists s, v = VStr s) \/ exists n a, v = VList [VStr n; a]) /\
  (forall p v, at_path (p ++ [PKey "Fn::Sub"])%list template = Some v ->
     (exists s, v = VStr s) \/ (exists s, v = VList [VStr s]) \/ exists s m, v = VList [VStr s; VDict m]).

(** Walks along edges (source, target, key). *)
Inductive walk (es : list (string * string * nat)) : string -> list (string * string * nat) -> string -> Prop :=
| wk_nil : forall u, walk es u [] u
| wk_cons : forall u v k l w, In (u, v, k) es -> walk es v l w -> walk es u ((u, v, k) :: l) w.

(** What networkx.find_cycle promises: a cycle, if one can be reached from the start, and None (NetworkXNoCycle) only if
    none can. *)
Definition finds_cycles (find_cycle : list (string * string * nat) -> string -> option (list (string * string * nat))) : Prop :=
  (forall es s c, find_cycle es s = Some c -> c <> [] /\ exists u l, walk es s l u /\ walk es u c u) /\
  (forall es s l u c, find_cycle es s = None -> walk es s l u -> walk es u c u -> c = []).
