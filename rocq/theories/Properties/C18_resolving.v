(** C18 Resolving conditions in an object. *)
From Coq Require Import Permutation.
From Verif.Model Require Import Base Helpers Conditions Resolve.
From Verif.Spec Require Import Truth Resolved.
From Verif.Proofs Require Import ConditionWitness ScenarioMain ResolveProofs RelationRule.

(** Resolving an object for a scenario: each member is resolved, members of which nothing is left are dropped, the others
    keep their name and order.  (The scenario gives no value to a condition it does not mention.) *)
Theorem object_resolved : forall sc d d',
  NoDup (keys d) -> (forall x, d <> [("Fn::If", x)]) ->
  resolved_members (fun n => match assoc n sc with Some b => b | None => None end) d d' ->
  get_value_from_scenario (VDict d) sc = Ok (VDict d').
Proof. exact c18_members. Qed.

(** An object that is a single Fn::If resolves to what is left of it, or to the empty object. *)
Theorem conditional_object_resolved : forall sc c t e r,
  resolved (fun n => match assoc n sc with Some b => b | None => None end) (if_ c t e) r ->
  get_value_from_scenario (if_ c t e) sc = Ok (match r with Some x => x | None => VDict [] end).
Proof. exact c18_if. Qed.

(** Every object whose Fn::Ifs have a name and two branches resolves, in one way only. *)
Theorem resolution_exists : forall decide d, (forall k x, In (k, x) d -> plain_ifs x) -> exists d', resolved_members decide d d'.
Proof. exact resolved_members_total. Qed.
Theorem resolution_is_unique : forall decide v r r', resolved decide v r -> resolved decide v r' -> r = r'.
Proof. exact (fun decide v r r' H => proj1 (resolved_det decide) v r H r'). Qed.

(** Together with C16: the object that a deployment makes of [d], all its conditions decided as in the deployment, is
    among the objects the rules look at (unless it is empty).  The bound on the conditions is that of C16. *)
Theorem deployed_object_is_checked : forall hash order template defs parameters fuel w b d names d',
  (forall v, digest (hash v)) -> (forall l, Permutation (order l) l) ->
  section_of "Conditions" template defs -> section_of "Parameters" template parameters ->
  NoDup (keys d) -> (forall x, d <> [("Fn::If", x)]) -> (forall k x, In (k, x) d -> plain_ifs x) ->
  NoDup names -> names <> [] -> (forall n, In n names <-> members_look_at d n) ->
  (forall n, In n names -> mem_assoc n (cs_conditions (load hash fuel template)) = true) ->
  (List.length names <= 4 \/ some_related defs names) ->
  deployment hash parameters w -> gives defs w names b ->
  resolved_members (fun n => Some (b n)) d d' ->
  exists out, get_object_without_conditions order (load hash fuel template) (VDict d) [] = Ok out /\
    (d' <> [] -> exists sc, In (Some sc, VDict d') out /\ Permutation sc (scenario_of names b)).
Proof. exact c18_deployment. Qed.

(** And the rules look at nothing but the object itself and what scenarios make of it. *)
Theorem checked_objects_are_resolved : forall order c d names out s o,
  NoDup (keys d) -> (forall x, d <> [("Fn::If", x)]) -> (forall k x, In (k, x) d -> plain_ifs x) ->
  get_object_without_conditions order c (VDict d) names = Ok out -> In (s, o) out ->
  (s = None /\ o = VDict d) \/
  exists sc d', s = Some sc /\ resolved_members (fun n => match assoc n sc with Some b => b | None => None end) d d' /\ o = VDict d'.
Proof. exact c18_only. Qed.

Example resolve_example :
  let d := [("P", if_ "IsProd" (VStr "x") (if_ "IsDev" (VInt 1) no_value)); ("L", VList [if_ "IsDev" (VStr "y") no_value; VStr "z"])] in
  (forall k x, In (k, x) d -> plain_ifs x) /\
  (forall n, In n ["IsProd"; "IsDev"] <-> members_look_at d n) /\
  get_object_without_conditions (fun l => l) (load toy_hash 9 env) (VDict d) [] = Ok
    [(Some [("IsProd", Some true); ("IsDev", Some false)], VDict [("P", VStr "x"); ("L", VList [VStr "z"])]);
     (Some [("IsProd", Some false); ("IsDev", Some true)], VDict [("P", VInt 1); ("L", VList [VStr "y"; VStr "z"])])].
Proof.
  cbv zeta. assert (Hn : plain_ifs no_value) by (apply pi_object; intros x [=]). split; [|split].
  - intros k x [[= <- <-]|[[= <- <-]|[]]].
    + apply pi_if; [constructor|]. apply pi_if; [constructor | exact Hn].
    + apply pi_list. intros y [<-|[<-|[]]]; [apply pi_if; [constructor | exact Hn] | constructor].
  - intros n. cbn [In]. split.
    + intros [<-|[<-|[]]]; [exists "P"; eexists; split; [left; reflexivity|]; constructor|].
      exists "P". eexists. split; [left; reflexivity|]. apply la_else, la_here.
    + intros [k [x [[[= <- <-]|[[= <- <-]|[]]] Hl]]];
        repeat match goal with
               | H : looks_at (VList _) _ |- _ => inversion H; subst; clear H
               | H : looks_at (if_ _ _ _) _ |- _ => inversion H; subst; clear H
               | H : looks_at (VStr _) _ |- _ => inversion H
               | H : looks_at (VInt _) _ |- _ => inversion H
               | H : looks_at no_value _ |- _ => inversion H
               | H : In _ [_; _] |- _ => destruct H as [<-|[<-|[]]]
               end; auto.
  - vm_compute. reflexivity.
Qed.

Print Assumptions object_resolved.
Print Assumptions conditional_object_resolved.
Print Assumptions resolution_exists.
Print Assumptions resolution_is_unique.
Print Assumptions deployed_object_is_checked.
Print Assumptions checked_objects_are_resolved.
