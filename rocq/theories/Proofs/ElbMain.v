(** The statements of C76. *)
From Coq Require Import List Permutation.
From Verif.Model Require Import Base Helpers Conditions Search Resolve Rules Relationship PropertyRules Elb.
From Verif.Spec Require Import Paths Branches Truth Resolved Groups Nested.
From Verif.Proofs Require Import ResolveProofs DeepProofs ElbProofs.
Import Verif.Model.Rules.
Import ListNotations.
Local Open Scope string_scope.

Lemma c76_total decide v : tidy v -> exists r, deep decide v r.
Proof. apply deep_total. Qed.
Lemma c76_nested_plain template globals p v order c :
  wf template -> wf globals -> at_path p template = Some v -> plain_path p -> at_path p globals = None -> tidy v -> is_dict v || is_list v = true -> v <> no_value ->
  (forall n, ~ rests_on v n) -> get_object_without_nested_conditions order c template globals v p = Ok [(None, v)].
Proof. intros. now apply nested_plain. Qed.
Lemma c76_nested template globals p v hash order defs parameters names w0 b0 :
  wf template -> wf globals -> at_path p template = Some v -> plain_path p -> at_path p globals = None -> tidy v -> is_dict v || is_list v = true -> v <> no_value ->
  (forall v, digest (hash v)) -> (forall l, Permutation (order l) l) ->
  section_of "Conditions" template defs -> section_of "Parameters" template parameters ->
  NoDup (keys defs) -> (forall n v, In (n, v) defs -> well_formed defs v) ->
  NoDup (keys parameters) -> (forall n p, In (n, p) parameters -> plain_parameter p) -> told_apart hash parameters ->
  NoDup names -> names <> [] -> (forall n, In n names <-> rests_on v n) -> (forall n, In n names -> In n (keys defs)) ->
  (List.length names <= 4 \/ some_related defs names) -> deployment hash parameters w0 -> gives defs w0 names b0 ->
  exists limit, forall fuel, limit <= fuel ->
  exists out, get_object_without_nested_conditions order (load hash fuel template) template globals v p = Ok out /\
    (forall s o, In (s, o) out -> exists sc b r, s = Some sc /\ Permutation sc (scenario_of names b) /\ deep (known names b) v r /\ o = match r with Some x => x | None => VNull end /\
      ((some_related defs names \/ forall n, In n names -> exists w, deployment hash parameters w /\ gives defs w [n] b) ->
       exists w, deployment hash parameters w /\ gives defs w names b)) /\
    (forall w b r, deployment hash parameters w -> gives defs w names b -> deep (known names b) v r ->
       exists sc, In (Some sc, match r with Some x => x | None => VNull end) out /\ Permutation sc (scenario_of names b)).
Proof. intros. eapply nested_both; eassumption. Qed.
Lemma c76_balancers_plain template globals p d order c :
  wf template -> wf globals -> at_path p template = Some (VDict d) -> plain_path p -> at_path p globals = None -> tidy (VDict d) -> ~ In "Fn::If" (keys d) -> VDict d <> no_value ->
  (forall n, ~ rests_on (VDict d) n) -> balancer_shaped d ->
  exists ms, balancer_check order c template globals (VDict d) p = Ok ms /\ forall m, In m ms <-> exists q words, balancer_fault d q words /\ m = mkRM (p ++ q)%list words.
Proof. intros. now apply balancer_plain. Qed.
Lemma c76_balancers template globals p d hash order defs parameters names w0 b0 :
  wf template -> wf globals -> at_path p template = Some (VDict d) -> plain_path p -> at_path p globals = None -> tidy (VDict d) -> ~ In "Fn::If" (keys d) -> VDict d <> no_value ->
  (forall v, digest (hash v)) -> (forall l, Permutation (order l) l) ->
  section_of "Conditions" template defs -> section_of "Parameters" template parameters ->
  NoDup (keys defs) -> (forall n v, In (n, v) defs -> well_formed defs v) ->
  NoDup (keys parameters) -> (forall n p, In (n, p) parameters -> plain_parameter p) -> told_apart hash parameters ->
  NoDup names -> names <> [] -> (forall n, In n names <-> rests_on (VDict d) n) -> (forall n, In n names -> In n (keys defs)) ->
  (List.length names <= 4 \/ some_related defs names) -> deployment hash parameters w0 -> gives defs w0 names b0 ->
  (forall b d', deep (known names b) (VDict d) (Some (VDict d')) -> balancer_shaped d') ->
  exists limit, forall fuel, limit <= fuel ->
  exists ms, balancer_check order (load hash fuel template) template globals (VDict d) p = Ok ms /\
    (forall m, In m ms -> exists b sc d' q words, Permutation sc (scenario_of names b) /\ deep (known names b) (VDict d) (Some (VDict d')) /\ balancer_fault d' q words /\
      m = mkRM p (words ++ " " ++ scenario_text sc) /\
      ((some_related defs names \/ forall n, In n names -> exists w, deployment hash parameters w /\ gives defs w [n] b) ->
       exists w, deployment hash parameters w /\ gives defs w names b)) /\
    (forall w b d' q words, deployment hash parameters w -> gives defs w names b -> deep (known names b) (VDict d) (Some (VDict d')) -> balancer_fault d' q words ->
      exists sc, Permutation sc (scenario_of names b) /\ In (mkRM p (words ++ " " ++ scenario_text sc)) ms).
Proof. intros. eapply balancer_both; eassumption. Qed.
