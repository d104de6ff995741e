(** Rules that judge each object that get_object_without_conditions yields. *)
From Coq Require Import Permutation Lia.
From Verif.Model Require Import Base Helpers Conditions Search Resolve Rules Refs Relationship.
From Verif.Spec Require Import Truth Resolved Groups.
From Verif.Proofs Require Import BaseFacts SearchProofs ConditionProofs ResolveProofs ScenarioMain SetProofs GroupProofs GroupMain Says.
Import ListNotations.
Import Verif.Model.Rules.
Local Open Scope string_scope.

Section ScenarioRule.
Context {A : Type}.
Variable pn : list string.
Hypothesis no_if : ~ In "Fn::If" pn.
Variable check : option scenario * val -> res (list rulematch).
Variable F : list (string * val) -> A -> Prop.
Variable Shape : list (string * val) -> Prop.
Variable said_for : option scenario -> A -> rulematch.
Hypothesis F_ext : forall d e, (forall k, in_part pn k -> assoc k d = assoc k e) -> forall a, F d a -> F e a.
Hypothesis S_ext : forall d e, (forall k, in_part pn k -> assoc k d = assoc k e) -> Shape d -> Shape e.
Hypothesis F_some : forall a, ~ F [] a.
Hypothesis check_says : forall sc d, Shape d -> says (check (sc, VDict d)) (fun m => exists a, F d a /\ m = said_for sc a).
Variable order : list string -> list string.
Hypothesis Ho : forall l, Permutation (order l) l.
Notation run c v := (do sets <- get_object_without_conditions order c v pn; concat_res check sets).

Lemma scen_plain c d : plain_object d -> (forall n, ~ part_looks_at d pn n) -> VDict d <> no_value -> Shape d ->
  says (run c (VDict d)) (fun m => exists a, F d a /\ m = said_for None a).
Proof using no_if check_says Ho.
  intros Hd Hn Hnv Hs. rewrite (sets_plain order Ho c d pn Hd no_if Hn Hnv). cbn [bind].
  eapply says_ext; [apply says_concat with (P := fun x m => exists a, F d a /\ m = said_for None a); intros x [<-|[]]; now apply check_says|].
  intros m. split; [intros [x [_ H]]; exact H | intros H; exists (None, VDict d); split; [now left | exact H]].
Qed.
Lemma scen_both hash template defs parameters d names w0 b0 :
  (forall v, digest (hash v)) ->
  section_of "Conditions" template defs -> section_of "Parameters" template parameters ->
  NoDup (keys defs) -> (forall n v, In (n, v) defs -> well_formed defs v) ->
  NoDup (keys parameters) -> (forall n p, In (n, p) parameters -> plain_parameter p) -> told_apart hash parameters ->
  plain_object d -> NoDup names -> names <> [] -> (forall n, In n names <-> part_looks_at d pn n) -> (forall n, In n names -> In n (keys defs)) ->
  (List.length names <= 4 \/ some_related defs names) -> deployment hash parameters w0 -> gives defs w0 names b0 ->
  (forall b d', deployed b d d' -> Shape d') ->
  exists limit, forall fuel, limit <= fuel ->
  exists ms, run (load hash fuel template) (VDict d) = Ok ms /\
    (forall w b d' a, deployment hash parameters w -> gives defs w names b -> deployed b d d' -> F d' a ->
       exists sc, Permutation sc (scenario_of names b) /\ In (said_for (Some sc) a) ms) /\
    (forall m, In m ms -> exists b sc a, Permutation sc (scenario_of names b) /\ (forall d', deployed b d d' -> F d' a) /\ m = said_for (Some sc) a /\
       ((some_related defs names \/ forall n, In n names -> exists w, deployment hash parameters w /\ gives defs w [n] b) ->
        exists w, deployment hash parameters w /\ gives defs w names b)).
Proof using no_if F_ext S_ext F_some check_says Ho.
  intros Hh Hc Hp Hcn Hcw Hpan Hpp Hta Hd Hnd Hne Hn Hdef Hsz Hw0 Hg0 Hsh.
  destruct (sets_real hash order template defs parameters d pn names w0 b0) as [limit Hlim]; auto.
  destruct (all_loaded hash template defs Hc Hcn Hcw) as [limit' Hlim'].
  exists (Nat.max limit limit'). intros fuel Hf. destruct (Hlim fuel ltac:(lia)) as [out [E Hout]]. rewrite E. cbn [bind].
  assert (Hdep : forall b, exists d', deployed b d d') by (intros b; apply resolved_members_total; apply Hd).
  assert (Hsay : forall x, In x out -> says (check x) (fun m => exists sc d'' a, x = (Some sc, VDict d'') /\ F d'' a /\ m = said_for (Some sc) a)).
  { intros [s o] Hx. destruct (Hout s o Hx) as [sc [b [d'' [-> [_ [-> [Heq _]]]]]]]. destruct (Hdep b) as [d' Hd'].
    eapply says_ext; [apply check_says; apply (S_ext d'); [intros k Hk; symmetry; now apply Heq | now apply (Hsh b)]|].
    intros m. cbv beta. split; [intros [a [H1 H2]]; exists sc, d'', a; auto | intros [sc' [d1 [a [[= <- <-] [H1 H2]]]]]; exists a; auto]. }
  destruct (says_concat check out _ Hsay) as [ms [Ems Hms]]. exists ms. split; [exact Ems|]. split.
  - intros w b d' a Hdw Hgv Hd' Hfa. destruct (sets_found hash order template defs parameters fuel w b d pn names) as [out' [E' Hout']]; auto.
    { intros n Hi. apply Hlim'; [lia | now apply Hdef]. }
    rewrite E in E'. injection E' as <-. destruct (Hout' d' Hd') as [sc [d'' [Hi [Hpm Heq]]]]; [intros ->; exact (F_some _ Hfa)|].
    exists sc. split; [exact Hpm|]. apply Hms. exists (Some sc, VDict d''). split; [exact Hi|]. exists sc, d'', a. split; [reflexivity|]. split; [|reflexivity].
    apply (F_ext d'); [intros k Hk; symmetry; now apply Heq | exact Hfa].
  - intros m Hm. apply Hms in Hm as [x [Hx [sc [d'' [a [-> [Hfa ->]]]]]]]. destruct (Hout _ _ Hx) as [sc' [b [d1 [[= <-] [Hpm [[= <-] [Heq Hposs]]]]]]].
    exists b, sc, a. split; [exact Hpm|]. split; [|split; [reflexivity | exact Hposs]]. intros d' Hd'. apply (F_ext d''); [intros k Hk; now apply (Heq d') | exact Hfa].
Qed.
End ScenarioRule.
