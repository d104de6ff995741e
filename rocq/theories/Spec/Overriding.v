(** Documents that override specifications, and what they say (C103). *)
From Coq Require Import ZArith.
From Verif.Model Require Import Base Node Locate Helpers Rules Config Core Startup Overriding.
From Verif.Spec Require Import Options Patterns.
Import Verif.Model.Rules.
Local Open Scope string_scope.

(** The patterns a document lists under a key. *)
Definition listed_patterns (doc : list (string * val)) (k : string) (l : list string) : Prop :=
  assoc k doc = None /\ l = [] \/ assoc k doc = Some (VList (map VStr l)).
(** The rest of a document. *)
Definition without_lists (doc : list (string * val)) : list (string * val) :=
  filter (fun kv => negb (String.eqb "IncludeResourceTypes" (fst kv))) (filter (fun kv => negb (String.eqb "ExcludeResourceTypes" (fst kv))) doc).
(** Where the document has an object, the specification has an object or nothing. *)
Fixpoint agrees (doc spec : val) {struct doc} : Prop :=
  match doc, spec with
  | VDict d, VDict s =>
      (fix go (d : list (string * val)) : Prop :=
         match d with
         | [] => True
         | (k, x) :: rest => match assoc k s with Some y => agrees x y | None => True end /\ go rest
         end) d
  | VDict d, _ => False
  | _, _ => True
  end.
(** Under chains of keys that lead into a resource type, the type must pass the patterns. *)
Definition passes (includes excludes : list string) (ks : list string) : Prop :=
  forall t rest, ks = "ResourceTypes" :: t :: rest -> available includes excludes t.
(** The overridden specification [out]: what the document says, and what the specification says where the document is silent, of the types that pass. *)
Definition overrides (includes excludes : list string) (doc spec out : val) : Prop :=
  (forall ks v, is_leaf v -> (at_keys ks out = Some v <->
     passes includes excludes ks /\ (at_keys ks doc = Some v \/ at_keys ks doc = None /\ ~ cut_off ks doc /\ at_keys ks spec = Some v))) /\
  (forall t, at_keys ["ResourceTypes"; t] out <> None <->
     available includes excludes t /\ (at_keys ["ResourceTypes"; t] doc <> None \/ at_keys ["ResourceTypes"; t] spec <> None)).
(** A document that can override the specifications. *)
Definition fitting (doc : list (string * val)) (includes excludes : list string) (s : specs) : Prop :=
  listed_patterns doc "IncludeResourceTypes" includes /\ listed_patterns doc "ExcludeResourceTypes" excludes /\
  (forall x, assoc "ResourceTypes" doc = Some x -> exists d, x = VDict d) /\
  forall region v, In (region, v) s -> agrees (VDict (without_lists doc)) v /\ exists types, at_keys ["ResourceTypes"] v = Some (VDict types).
(** A template that is checked: it can be read, and it is not empty. *)
Section Checked.
Variable str_other : val -> string.
Variable all_rules : list rule.
Variables cli_args file_args : args.
Definition checked (st : state) (d : decoded) : Prop :=
  exists st' t k, get_template_rules str_other all_rules cli_args file_args st d = (st', Ok (Ready t k)) /\ nonempty (erase t).
End Checked.
