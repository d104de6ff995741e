(** What the theorems on runs of rules that check properties assume of the objects (C95). *)
From Verif.Model Require Import Base Node Resolve BasedOn.
From Verif.Spec Require Import Branches Required Resolved Groups Based.
Local Open Scope string_scope.

(** No choice of branches makes a member null. *)
Definition no_null_member (d : list (string * val)) (p : path) : Prop :=
  forall prop x q, assoc prop d = Some x -> ~ alternative x (p ++ [PKey prop])%list VNull q.
(** The groups are ones of distinct names, and in every branch of the object no member of a group depends on conditions. *)
Definition groups_fit (d : list (string * val)) (p : path) (groups : list (list string)) : Prop :=
  all_objects (VDict d) p /\ (forall group, In group groups -> proper_group group) /\
  forall e q, branch (VDict d) p (VDict e) q -> plain_object e /\ VDict e <> no_value /\ forall group n, In group groups -> ~ group_looks_at e group n.
(** The members that an entry of the table is about do not depend on conditions, and those that are judged can be. *)
Definition based_fit (t : val) (which : bspec -> list string) (d : list (string * val)) (table : btable) : Prop :=
  plain_object d /\ VDict d <> no_value /\
  forall k s, entry table k s -> ~ In "Fn::If" (k :: which s) /\ (forall n, ~ group_looks_at d (k :: which s) n) /\ forall x, assoc k d = Some x -> judged t x.
(** The types of resources are texts. *)
Definition types_are_texts (t : val) : Prop :=
  forall top rs name attrs ty, t = VDict top -> assoc "Resources" top = Some (VDict rs) -> In (name, VDict attrs) rs -> assoc "Type" attrs = Some ty ->
    ty = VNull \/ exists s, ty = VStr s.

(** A value that does not depend on conditions: nothing in it is null, a member called Fn::If or the name AWS::NoValue. *)
Fixpoint steady (v : val) : bool :=
  match v with
  | VNull => false
  | VStr s => negb (String.eqb s "AWS::NoValue")
  | VList l => forallb steady l
  | VDict d => forallb (fun kv => negb (String.eqb (fst kv) "Fn::If") && steady (snd kv)) d
  | _ => true
  end%bool.
