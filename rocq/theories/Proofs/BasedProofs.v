(** Proofs about E3017 and E3018 (C66). *)
From Coq Require Import Permutation Lia.
From Verif.Model Require Import Base Helpers Locate Node Conditions Search Resolve Rules Refs Relationship PropertyRules BasedOn.
From Verif.Spec Require Import Paths Branches Walk Required Truth Resolved Groups Based.
From Verif.Proofs Require Import BaseFacts BranchProofs SearchProofs ConditionProofs ResolveProofs ScenarioMain SetProofs PropertyRuleProofs GroupProofs GroupMain.
Import ListNotations.
Import Verif.Model.Rules.
Local Open Scope string_scope.

(** * One value *)
Lemma typed_get template n t : typed template n t -> exists rs r, vget "Resources" template = Ok rs /\ vget n rs = Ok r /\ vget_def n (VDict []) rs = Ok r /\ vget "Type" r = Ok (VStr t).
Proof. intros [d [rs [r [-> [H1 [H2 H3]]]]]]. exists (VDict rs), (VDict r). cbn [vget vget_def]. rewrite H1, H2, H3. auto. Qed.
Lemma got_typed template n t rs r : vget "Resources" template = Ok rs -> vget_def n (VDict []) rs = Ok r -> vget "Type" r = Ok (VStr t) -> typed template n t.
Proof.
  intros H1 H2 H3. destruct template as [| | | | | |d]; try discriminate. cbn [vget] in H1. destruct (assoc "Resources" d) as [x|] eqn:E; injection H1 as <-; [|discriminate].
  destruct x as [| | | | | |m]; try discriminate. cbn [vget_def] in H2. destruct (assoc n m) as [y|] eqn:E2; injection H2 as <-; [|discriminate].
  destruct y as [| | | | | |a]; try discriminate. cbn [vget] in H3. destruct (assoc "Type" a) as [z|] eqn:E3; [|discriminate]. injection H3 as ->. exists d, m, a. auto.
Qed.
Lemma got_typed' template n t rs r : vget "Resources" template = Ok rs -> vget n rs = Ok r -> vget "Type" r = Ok (VStr t) -> typed template n t.
Proof.
  intros H1 H2 H3. apply (got_typed template n t rs r H1); [|exact H3]. destruct rs as [| | | | | |m]; try discriminate. cbn [vget vget_def] in *. destruct (assoc n m); [exact H2|]. injection H2 as <-. discriminate.
Qed.
Lemma ref_fits_iff template ref n b : ref_fits template ref n = Ok b -> (b = true <-> exists t, typed template n t /\ In t ref).
Proof.
  unfold ref_fits. destruct (vget "Resources" template) as [rs|] eqn:E1; cbn [bind]; [|discriminate]. destruct (vget_def n (VDict []) rs) as [r|] eqn:E2; cbn [bind]; [|discriminate].
  destruct (vget "Type" r) as [t|] eqn:E3; cbn [bind]; [|discriminate]. intros [= <-]. split.
  - destruct t as [| | | |s| |]; try discriminate. intros H. apply smem_iff in H. exists s. split; [|exact H]. eapply got_typed; eauto.
  - intros [s [Ht Hs]]. destruct (typed_get _ _ _ Ht) as [rs' [r' [H1 [_ [H2 H3]]]]]. rewrite E1 in H1. injection H1 as <-. rewrite E2 in H2. injection H2 as <-. rewrite E3 in H3. injection H3 as ->. now apply smem_iff.
Qed.
Lemma getatt_fits_iff template ga l b : getatt_fits template ga l = Ok b -> (b = true <-> exists n a t rest, l = VStr n :: VStr a :: rest /\ typed template n t /\ assoc t ga = Some a).
Proof.
  unfold getatt_fits. destruct l as [|n rest]; [discriminate|]. destruct (vget "Resources" template) as [rs|] eqn:E1; cbn [bind]; [|discriminate].
  destruct n as [| | | |s| |]; try solve [destruct rs; discriminate].
  destruct (vget s rs) as [r|] eqn:E2; cbn [bind]; [|discriminate]. destruct (vget "Type" r) as [t|] eqn:E3; cbn [bind]; [|discriminate].
  assert (Ht : forall t', typed template s t' -> t = VStr t').
  { intros t' H. destruct (typed_get _ _ _ H) as [rs' [r' [H1 [H2 [_ H3]]]]]. rewrite E1 in H1. injection H1 as <-. rewrite E2 in H2. injection H2 as <-. rewrite E3 in H3. now injection H3. }
  destruct t as [| | | |ty| |]; try discriminate; try (intros [= <-]; split; [discriminate | intros [n' [a [t' [rest' [[= <- _] [H _]]]]]]; apply Ht in H; discriminate]).
  destruct (assoc ty ga) as [a|] eqn:E4.
  - destruct rest as [|x rest]; [discriminate|]. intros [= <-]. split.
    + destruct x as [| | | |s'| |]; try discriminate. cbn [eq_str]. intros H. apply String.eqb_eq in H. subst s'. exists s, a, ty, rest. split; [reflexivity|]. split; [|exact E4]. eapply got_typed'; eauto.
    + intros [n' [a' [t' [rest' [[= <- -> _] [H1 H2]]]]]]. apply Ht in H1. injection H1 as ->. rewrite E4 in H2. injection H2 as ->. cbn [eq_str]. apply String.eqb_refl.
  - intros [= <-]. split; [discriminate|]. intros [n' [a' [t' [rest' [[= <- _] [H1 H2]]]]]]. apply Ht in H1. injection H1 as ->. congruence.
Qed.
Section Fits.
Variable matches : string -> string -> bool.
Variable template : val.
Lemma value_fits_iff v s b : value_fits matches template v s = Ok b -> (b = true <-> fits matches template s v).
Proof.
  unfold value_fits. destruct v as [| | | |t|l|d]; try (intros [= <-]; split; [discriminate | intros H; inversion H]).
  - intros [= <-]. rewrite Bool.andb_true_iff, Bool.negb_true_iff, String.eqb_neq. split; [intros [H1 H2]; now constructor | intros H; inversion H; subst; auto].
  - destruct d as [|[k x] [|y d]]; try (intros [= <-]; split; [discriminate | intros H; inversion H]).
    destruct x as [| | | |n|l|d].
    5: { destruct (bs_ref s) as [|r0 rs] eqn:Er.
         - intros [= <-]. split; [discriminate|]. intros H. inversion H as [|n' t Ht Hi|]; subst. rewrite Er in Hi. destruct Hi.
         - destruct (String.eqb_spec k "Ref") as [->|Hk].
           + intros H. rewrite (ref_fits_iff _ _ _ _ H). rewrite <- Er. split; [intros [t [H1 H2]]; now apply fits_ref with t | intros K; inversion K; subst; eauto].
           + intros [= <-]. split; [discriminate|]. intros H. inversion H; subst; contradiction. }
    5: { assert (E : forall x y : res bool, match bs_ref s with [] => x | _ :: _ => x end = x) by (intros; now destruct (bs_ref s)). rewrite E; [|exact (Ok true)]. clear E.
         destruct (bs_getatt s) as [|g0 gs] eqn:Eg.
         - intros [= <-]. split; [discriminate|]. intros H. inversion H as [| |n' a t rest Ht Hi]; subst. rewrite Eg in Hi. discriminate.
         - destruct (String.eqb_spec k "Fn::GetAtt") as [->|Hk].
           + intros H. rewrite (getatt_fits_iff _ _ _ _ H). rewrite <- Eg. split; [intros [n [a [t [rest [-> [H1 H2]]]]]]; now apply fits_getatt with t | intros K; inversion K; subst; eauto 9].
           + intros [= <-]. split; [discriminate|]. intros H. inversion H; subst; contradiction. }
    all: assert (E : forall x : res bool, match bs_ref s with [] => x | _ :: _ => x end = x) by (intros; now destruct (bs_ref s)); rewrite E; intros [= <-]; (split; [discriminate | intros H; inversion H]).
Qed.
Lemma value_fits_total v s : judged template v -> exists b, value_fits matches template v s = Ok b.
Proof.
  intros [H1 H2]. unfold value_fits. destruct v as [| | | |t|l|d]; eauto. destruct d as [|[k x] [|y d]]; eauto.
  destruct (bs_ref s) as [|r0 rs], x as [| | | |n|l|d]; eauto.
  1,3: destruct (bs_getatt s); eauto; destruct (String.eqb_spec k "Fn::GetAtt") as [->|_]; eauto; destruct (H2 l eq_refl) as [n [a [rest [t [-> Ht]]]]];
       destruct (typed_get _ _ _ Ht) as [rs' [r' [E1 [E2 [_ E3]]]]]; unfold getatt_fits; rewrite E1; cbn [bind]; rewrite E2; cbn [bind]; rewrite E3; cbn [bind]; match goal with |- context [assoc t ?g] => destruct (assoc t g) end; eauto.
  destruct (String.eqb_spec k "Ref") as [->|_]; eauto. destruct (H1 n eq_refl) as [d [m [-> [E Hm]]]]. unfold ref_fits. cbn [vget]. rewrite E. cbn [bind vget_def].
  destruct (assoc n m) as [r|] eqn:En; [destruct (Hm r eq_refl) as [y ->]|]; cbn [bind vget]; eauto.
Qed.

(** * The check *)
Variable order : list string -> list string.
Hypothesis Ho : forall l, Permutation (order l) l.
Variable which : bspec -> list string.
Variable wrong : bool -> bool.
Variable words : string.
Notation check c := (based_check matches template order c which wrong words).
Definition faulty (s : bspec) (k prop : string) (d : list (string * val)) : Prop := asks matches template s (which s) k prop d /\ wrong (mem_assoc prop d) = true.

Lemma based_set_in p k s sc d ms : based_set matches template which wrong words p k s (sc, VDict d) = Ok ms ->
  forall m, In m ms <-> exists prop, faulty s k prop d /\ m = based_match words p sc k prop.
Proof.
  clear. unfold based_set. cbn [snd fst dict_of vget]. cbn [bind].
  destruct (value_fits matches template match assoc k d with Some x => x | None => VNull end s) as [b|] eqn:E; cbn [bind]; [|discriminate]. intros [= <-] m.
  pose proof (value_fits_iff _ _ _ E) as Hb. split.
  - destruct b; [|intros []]. intros H. apply in_flat_map in H as [prop [Hp H]]. destruct (wrong (mem_assoc prop d)) eqn:Ew; [|destruct H]. destruct H as [<-|[]].
    exists prop. split; [|reflexivity]. split; [|exact Ew]. apply proj1 in Hb. specialize (Hb eq_refl). destruct (assoc k d) as [x|] eqn:Ek; [exists x; auto | inversion Hb].
  - intros [prop [[[x [Hx [Hf Hp]]] Hw] ->]]. rewrite Hx in Hb. apply Hb in Hf. subst b. apply in_flat_map. exists prop. split; [exact Hp|]. rewrite Hw. now left.
Qed.
Lemma based_set_total p k s sc d : (forall x, assoc k d = Some x -> judged template x) -> exists ms, based_set matches template which wrong words p k s (sc, VDict d) = Ok ms.
Proof.
  clear. intros H. unfold based_set. cbn [snd fst dict_of vget]. cbn [bind]. destruct (assoc k d) as [x|].
  - destruct (value_fits_total x s (H x eq_refl)) as [b ->]. cbn [bind]. eauto.
  - cbn. eauto.
Qed.
Lemma entry_in c props specs p ms : check c props specs p = Ok ms ->
  forall m, In m ms <-> exists k s o, entry specs k s /\ based_spec matches template order c which wrong words props p k s = Ok o /\ In m o.
Proof.
  clear. intros E m. unfold based_check in E. rewrite (concat_res_ok_iff _ _ _ E). split.
  - intros [[k l] [o [Hi [Eo Hm]]]]. cbn [fst snd] in Eo. apply (concat_res_ok_iff _ _ _ Eo) in Hm as [s [o' [Hs [Es Hm]]]]. exists k, s, o'. split; [exists l; auto|]. auto.
  - intros [k [s [o [[l [Hl Hs]] [Es Hm]]]]]. destruct (concat_res_each _ _ _ E _ Hl) as [o' Eo]. exists (k, l), o'. split; [exact Hl|]. split; [exact Eo|]. cbn [fst snd] in Eo.
    apply (concat_res_ok_iff _ _ _ Eo). exists s, o. auto.
Qed.
Lemma entry_each c props specs p ms : check c props specs p = Ok ms -> forall k s, entry specs k s -> exists o, based_spec matches template order c which wrong words props p k s = Ok o.
Proof.
  clear. intros E k s [l [Hl Hs]]. unfold based_check in E. destruct (concat_res_each _ _ _ E _ Hl) as [o' Eo]. cbn [fst snd] in Eo. now apply (concat_res_each _ _ _ Eo).
Qed.
Lemma entry_total c props specs p : (forall k s, entry specs k s -> exists o, based_spec matches template order c which wrong words props p k s = Ok o) -> exists ms, check c props specs p = Ok ms.
Proof.
  clear. intros H. unfold based_check. apply concat_res_total. intros [k l] Hl. cbn [fst snd]. apply concat_res_total. intros s Hs. apply H. exists l. auto.
Qed.
Lemma spec_in c d p k s ms sets : based_spec matches template order c which wrong words (VDict d) p k s = Ok ms ->
  get_object_without_conditions order c (VDict d) (k :: which s) = Ok sets -> (forall sc o, In (sc, o) sets -> exists d, o = VDict d) ->
  forall m, In m ms <-> exists sc d' prop, In (sc, VDict d') sets /\ faulty s k prop d' /\ m = based_match words p sc k prop.
Proof.
  clear. intros E Es Hd m. unfold based_spec in E. destruct (which s) as [|w ws] eqn:Ew.
  - injection E as <-. split; [intros []|]. intros [sc [d' [prop [_ [[[x [_ [_ Hp]]] _] _]]]]]. rewrite Ew in Hp. destruct Hp.
  - rewrite Es in E. cbn [bind] in E. rewrite (concat_res_ok_iff _ _ _ E). split.
    + intros [[sc o] [out [Hi [Eo Hm]]]]. destruct (Hd _ _ Hi) as [d' ->]. apply (based_set_in _ _ _ _ _ _ Eo) in Hm as [prop [H1 ->]]. exists sc, d', prop. auto.
    + intros [sc [d' [prop [Hi [H1 ->]]]]]. destruct (concat_res_each _ _ _ E _ Hi) as [o Eo]. exists (sc, VDict d'), o. split; [exact Hi|]. split; [exact Eo|].
      apply (based_set_in _ _ _ _ _ _ Eo). eauto.
Qed.
Lemma spec_total c d p k s : which s = [] \/ (exists sets, get_object_without_conditions order c (VDict d) (k :: which s) = Ok sets /\
    forall sc o, In (sc, o) sets -> exists d, o = VDict d /\ forall x, assoc k d = Some x -> judged template x) ->
  exists ms, based_spec matches template order c which wrong words (VDict d) p k s = Ok ms.
Proof.
  clear. intros H. unfold based_spec. destruct (which s) as [|w ws]; [eauto|]. destruct H as [H|[sets [-> H]]]; [discriminate|]. cbn [bind]. apply concat_res_total. intros [sc o] Hi.
  destruct (H sc o Hi) as [d' [-> Hj]]. now apply based_set_total.
Qed.

(** Without conditions. *)
Lemma based_plain c d specs p :
  plain_object d -> VDict d <> no_value ->
  (forall k s, entry specs k s -> ~ In "Fn::If" (k :: which s) /\ (forall n, ~ group_looks_at d (k :: which s) n) /\ forall x, assoc k d = Some x -> judged template x) ->
  exists ms, check c (VDict d) specs p = Ok ms /\
    forall m, In m ms <-> exists k s prop, entry specs k s /\ faulty s k prop d /\ m = based_match words p None k prop.
Proof using Ho.
  intros Hd Hnv H.
  assert (Hs : forall k s, entry specs k s -> get_object_without_conditions order c (VDict d) (k :: which s) = Ok [(None, VDict d)]).
  { intros k s Hk. destruct (H k s Hk) as [H1 [H2 _]]. apply sets_plain; auto. intros n Hn. apply part_group in Hn; [now apply (H2 n) | discriminate]. }
  assert (Hob : forall (sc : option scenario) o, In (sc, o) [(@None scenario, VDict d)] -> exists d', o = VDict d') by (intros sc o [[= _ <-]|[]]; eauto).
  destruct (entry_total c (VDict d) specs p) as [ms E].
  { intros k s Hk. apply spec_total. right. exists [(None, VDict d)]. split; [now apply Hs|]. intros sc o [[= _ <-]|[]]. exists d. split; [reflexivity|]. now apply H with s. }
  exists ms. split; [exact E|]. intros m. rewrite (entry_in _ _ _ _ _ E). split.
  - intros [k [s [o [Hk [Eo Hm]]]]]. apply (spec_in _ _ _ _ _ _ _ Eo (Hs k s Hk) Hob) in Hm as [sc [d' [prop [[[= <- <-]|[]] [H1 ->]]]]]. exists k, s, prop. auto.
  - intros [k [s [prop [Hk [H1 ->]]]]]. destruct (entry_each _ _ _ _ _ E k s Hk) as [o Eo]. exists k, s, o. split; [exact Hk|]. split; [exact Eo|].
    apply (spec_in _ _ _ _ _ _ _ Eo (Hs k s Hk) Hob). exists None, d, prop. split; [now left|]. auto.
Qed.
Lemma faulty_ext s k prop d d' : (forall x, in_part (k :: which s) x -> assoc x d = assoc x d') -> faulty s k prop d -> faulty s k prop d'.
Proof.
  clear. intros H [[x [Hx [Hf Hp]]] Hw]. split.
  - exists x. rewrite <- H; [auto|]. right. now left.
  - unfold mem_assoc in *. rewrite <- H; [exact Hw|]. right. now right.
Qed.
(** In each deployment. *)
Lemma based_found hash defs parameters fuel w b d names specs p k s prop d' ms :
  (forall v, digest (hash v)) ->
  section_of "Conditions" template defs -> section_of "Parameters" template parameters ->
  plain_object d -> entry specs k s -> ~ In "Fn::If" (k :: which s) ->
  NoDup names -> names <> [] -> (forall n, In n names <-> group_looks_at d (k :: which s) n) ->
  (forall n, In n names -> mem_assoc n (cs_conditions (load hash fuel template)) = true) ->
  (List.length names <= 4 \/ some_related defs names) ->
  deployment hash parameters w -> gives defs w names b ->
  deployed b d d' -> faulty s k prop d' ->
  check (load hash fuel template) (VDict d) specs p = Ok ms ->
  exists sc, Permutation sc (scenario_of names b) /\ In (based_match words p (Some sc) k prop) ms.
Proof using Ho.
  intros Hh Hc Hp Hd He Hnif Hnd Hne Hn Hl Hs Hw Hg Hdep Hf E.
  destruct (sets_found hash order template defs parameters fuel w b d (k :: which s) names) as [out [Eo Hout]]; auto.
  { intros n. rewrite Hn. symmetry. now apply part_group. }
  assert (Hd' : d' <> []) by (destruct Hf as [[x [Hx _]] _]; intros ->; discriminate).
  destruct (Hout d' Hdep Hd') as [sc [d'' [Hi [Hperm Hag]]]]. exists sc. split; [exact Hperm|]. apply (entry_in _ _ _ _ _ E).
  destruct (entry_each _ _ _ _ _ E k s He) as [o Es]. exists k, s, o. split; [exact He|]. split; [exact Es|].
  assert (Hob : forall (sc : option scenario) o, In (sc, o) out -> exists d0, o = VDict d0).
  { intros sc' o' Ho'. destruct Hd as [H1 [H2 H3]]. destruct (c18_only order (load hash fuel template) d (k :: which s) out sc' o' H1 H2 H3 Eo Ho') as [[_ ->]|[? [d2 [_ [_ ->]]]]]; eauto. }
  apply (spec_in _ _ _ _ _ _ _ Es Eo Hob). exists (Some sc), d'', prop. split; [exact Hi|]. split; [|reflexivity]. eapply faulty_ext; [|exact Hf]. intros x Hx. symmetry. now apply Hag.
Qed.
(** Nothing else. *)
Lemma based_real hash defs parameters d specs p w0 b0 :
  (forall v, digest (hash v)) ->
  section_of "Conditions" template defs -> section_of "Parameters" template parameters ->
  NoDup (keys defs) -> (forall n v, In (n, v) defs -> well_formed defs v) ->
  NoDup (keys parameters) -> (forall n p, In (n, p) parameters -> plain_parameter p) -> told_apart hash parameters ->
  plain_object d -> VDict d <> no_value -> deployment hash parameters w0 -> gives defs w0 (keys defs) b0 ->
  (forall k s, entry specs k s -> ~ In "Fn::If" (k :: which s) /\
     (forall x, assoc k d = Some x -> judged template x) /\ (forall b d' x, deployed b d d' -> assoc k d' = Some x -> judged template x) /\
     exists names, NoDup names /\ (forall n, In n names <-> group_looks_at d (k :: which s) n) /\
       (forall n, In n names -> In n (keys defs)) /\ (List.length names <= 4 \/ some_related defs names)) ->
  exists limit, forall fuel, limit <= fuel ->
  exists ms, check (load hash fuel template) (VDict d) specs p = Ok ms /\
    forall m, In m ms -> exists k s prop, entry specs k s /\
      ((forall n, ~ group_looks_at d (k :: which s) n) /\ faulty s k prop d /\ m = based_match words p None k prop \/
       exists names b sc, NoDup names /\ names <> [] /\ (forall n, In n names <-> group_looks_at d (k :: which s) n) /\ Permutation sc (scenario_of names b) /\
         (forall d', deployed b d d' -> faulty s k prop d') /\ m = based_match words p (Some sc) k prop /\
         ((some_related defs names \/ forall n, In n names -> exists w, deployment hash parameters w /\ gives defs w [n] b) ->
          exists w, deployment hash parameters w /\ gives defs w names b)).
Proof using Ho.
  intros Hh Hc Hp Hcn Hcw Hpn Hpp Hta Hd Hnv Hw0 Hg0 H.
  pose (ok := fun (ks : string * bspec) fuel sets => get_object_without_conditions order (load hash fuel template) (VDict d) (fst ks :: which (snd ks)) = Ok sets /\
    forall (sc : option scenario) o, In (sc, o) sets ->
      ((forall n, ~ group_looks_at d (fst ks :: which (snd ks)) n) /\ sc = None /\ o = VDict d \/
       exists names b sc' d'', NoDup names /\ names <> [] /\ (forall n, In n names <-> group_looks_at d (fst ks :: which (snd ks)) n) /\ sc = Some sc' /\ Permutation sc' (scenario_of names b) /\
         o = VDict d'' /\ (forall d', deployed b d d' -> forall x, in_part (fst ks :: which (snd ks)) x -> assoc x d'' = assoc x d') /\
         ((some_related defs names \/ forall n, In n names -> exists w, deployment hash parameters w /\ gives defs w [n] b) ->
          exists w, deployment hash parameters w /\ gives defs w names b))).
  assert (Hall : forall l, (forall ks, In ks l -> entry specs (fst ks) (snd ks)) -> exists limit, forall fuel, limit <= fuel -> forall ks, In ks l -> exists sets, ok ks fuel sets).
  { induction l as [|ks l IH]; intros Hl; [exists 0; intros ? _ ? []|].
    destruct IH as [lim1 H1]; [intros ks' Hi; apply Hl; now right|]. enough (exists lim, forall fuel, lim <= fuel -> exists sets, ok ks fuel sets) as [lim2 H2].
    { exists (Nat.max lim1 lim2). intros fuel Hf ks' [<-|Hi]; [apply H2; lia | apply H1; [lia | exact Hi]]. }
    destruct ks as [k s]. cbn [fst snd] in *. destruct (H k s (Hl (k, s) (or_introl eq_refl))) as [G3 [_ [_ [names [N1 [N2 [N3 N4]]]]]]].
    destruct names as [|n0 names].
    - exists 0. intros fuel _. assert (Hno : forall n, ~ group_looks_at d (k :: which s) n) by (intros n K; now apply N2 in K). exists [(None, VDict d)]. split; cbn [fst snd].
      + apply sets_plain; auto. intros n K. apply part_group in K; [now apply (Hno n) | discriminate].
      + intros sc o [[= <- <-]|[]]. left. auto.
    - destruct (sets_real hash order template defs parameters d (k :: which s) (n0 :: names) w0 b0) as [lim HH]; auto; try discriminate.
      { intros n. rewrite N2. symmetry. now apply part_group. }
      { intros n Hi. now apply Hg0, N3. }
      exists lim. intros fuel Hf. destruct (HH fuel Hf) as [out [E Hout]]. exists out. split; [exact E|]. cbn [fst snd]. intros sc o Hi. right.
      destruct (Hout sc o Hi) as [sc' [b [d'' [H3 [H4 [H5 [H6 H7]]]]]]]. exists (n0 :: names), b, sc', d''. split; [exact N1|]. split; [discriminate|]. auto 10. }
  destruct (Hall (flat_map (fun kv => map (fun s => (fst kv, s)) (snd kv)) specs)) as [limit Hlim].
  { intros [k s] Hi. apply in_flat_map in Hi as [[k' l] [Hl Hi]]. cbn [fst snd] in *. apply in_map_iff in Hi as [s' [[= <- <-] Hs]]. exists l. auto. }
  exists limit. intros fuel Hf.
  assert (Hget : forall k s, entry specs k s -> exists sets, ok (k, s) fuel sets).
  { intros k s [l [Hl Hs]]. apply (Hlim fuel Hf). apply in_flat_map. exists (k, l). split; [exact Hl|]. cbn [fst snd]. apply in_map_iff. eauto. }
  destruct (entry_total (load hash fuel template) (VDict d) specs p) as [ms E].
  { intros k s Hk. destruct (Hget k s Hk) as [sets [E Hs]]. destruct (H k s Hk) as [_ [Hj1 [Hj2 _]]]. apply spec_total. right. exists sets. split; [exact E|]. cbn [fst snd] in Hs. intros sc o Hi.
    destruct (Hs sc o Hi) as [[_ [_ ->]]|[names [b [sc' [d'' [_ [_ [_ [_ [_ [-> [Hag _]]]]]]]]]]]]; [eauto|]. exists d''. split; [reflexivity|]. intros x Hx.
    destruct Hd as [_ [_ Hpl]]. destruct (resolved_members_total (fun n => Some (b n)) d Hpl) as [d' Hd']. apply (Hj2 b d' x Hd'). rewrite <- (Hag d' Hd' k); [exact Hx|]. right. now left. }
  exists ms. split; [exact E|]. intros m Hm. apply (entry_in _ _ _ _ _ E) in Hm as [k [s [o [Hk [Es Hm]]]]]. destruct (Hget k s Hk) as [sets [E' Hs]]. cbn [fst snd] in E', Hs.
  assert (Hob : forall (sc : option scenario) o, In (sc, o) sets -> exists d0, o = VDict d0).
  { intros sc o' Hi. destruct (Hs sc o' Hi) as [[_ [_ ->]]|[names [b [sc' [d'' [_ [_ [_ [_ [_ [-> _]]]]]]]]]]]; eauto. }
  destruct (proj1 (spec_in _ _ _ _ _ _ _ Es E' Hob m) Hm) as [sc [d1 [prop [Hi [H1 Em]]]]]. exists k, s, prop. split; [exact Hk|].
  destruct (Hs sc (VDict d1) Hi) as [[K1 [E1 E2]]|[names [b [sc' [d'' [K1 [K2 [K3 [E1 [K4 [E2 [K5 K6]]]]]]]]]]]]; injection E2 as E2; subst; [now left|]. right.
  exists names, b, sc'. split; [exact K1|]. split; [exact K2|]. split; [exact K3|]. split; [exact K4|]. split; [|auto]. intros d' Hd'. eapply faulty_ext; [|exact H1]. now apply K5.
Qed.
End Fits.

(** * The two rules *)
Lemma needed_iff matches template s k prop d : faulty matches template bs_required negb s k prop d <-> asks matches template s (bs_required s) k prop d /\ ~ In prop (keys d).
Proof. unfold faulty. rewrite <- mem_keys. destruct (mem_assoc prop d); cbn [negb]; intuition congruence. Qed.
Lemma unwanted_iff matches template s k prop d : faulty matches template bs_unwanted (fun b => b) s k prop d <-> asks matches template s (bs_unwanted s) k prop d /\ In prop (keys d).
Proof. unfold faulty. now rewrite <- mem_keys. Qed.
