(** The objects that get_object_without_conditions yields, for all members or some of them. *)
From Coq Require Import Permutation Lia.
From Verif.Model Require Import Base Helpers Conditions Resolve.
From Verif.Spec Require Import Truth Resolved Groups.
From Verif.Proofs Require Import BaseFacts ConditionProofs ScenarioMain ResolveProofs.
Import ListNotations.
Local Open Scope string_scope.

Definition in_part (pn : list string) (k : string) : Prop := pn = [] \/ In k pn.
Definition part_looks_at (d : list (string * val)) (pn : list string) (n : string) : Prop :=
  exists k x, In (k, x) d /\ in_part pn k /\ looks_at x n.

Lemma set_union_app b : forall a, (forall y, In y b -> ~ In y a) -> NoDup b -> set_union a b = (a ++ b)%list.
Proof.
  induction b as [|y b IHb]; intros a Ha Hb; [cbn; now rewrite app_nil_r|]. inversion Hb; subst.
  change (set_union a (y :: b)) with (set_union (set_add y a) b). unfold set_add.
  destruct (smem y a) eqn:E; [apply smem_iff in E; now destruct (Ha y (or_introl eq_refl))|].
  rewrite IHb; [now rewrite <- app_assoc| |assumption]. intros z Hz. rewrite in_app_iff. cbn. intros [Hi|[<-|[]]]; [apply (Ha z); [now right | exact Hi] | contradiction].
Qed.
Lemma set_union_nil b : NoDup b -> set_union [] b = b.
Proof. intros H. rewrite set_union_app; auto. Qed.

(** * The part of the object that is looked at *)
Definition part (d : list (string * val)) (pn : list string) : list (string * val) :=
  fold_left (fun o p => set_assoc p (match assoc p d with Some x => x | None => VNull end) o) pn [].
Lemma selected_eq d pn : selected (VDict d) pn = Ok (VDict (match pn with [] => d | _ => part d pn end)).
Proof. destruct pn; reflexivity. Qed.
Lemma part_acc d pn : forall acc, NoDup (keys acc) -> (forall k x, In (k, x) acc -> x = match assoc k d with Some x => x | None => VNull end) ->
  let o := fold_left (fun o p => set_assoc p (match assoc p d with Some x => x | None => VNull end) o) pn acc in
  NoDup (keys o) /\ (forall k x, In (k, x) o -> x = match assoc k d with Some x => x | None => VNull end) /\
  (forall k, In k (keys o) <-> In k (keys acc) \/ In k pn).
Proof.
  induction pn as [|p pn IH]; intros acc Hn Ha; cbn [fold_left].
  - split; [exact Hn|]. split; [exact Ha|]. intros k. cbn. tauto.
  - destruct (IH (set_assoc p (match assoc p d with Some x => x | None => VNull end) acc)) as [H1 [H2 H3]].
    + now apply keys_set_NoDup.
    + intros k x Hk. assert (E : assoc k (set_assoc p (match assoc p d with Some x => x | None => VNull end) acc) = Some x) by (apply assoc_NoDup; [now apply keys_set_NoDup | exact Hk]).
      destruct (String.eqb_spec k p) as [->|N]; [rewrite assoc_set_same in E; congruence|]. rewrite assoc_set_other in E by exact N. apply assoc_In in E. now apply Ha.
    + split; [exact H1|]. split; [exact H2|]. intros k. rewrite H3, keys_set_in. cbn. intuition.
Qed.
Lemma part_spec d pn : NoDup (keys (part d pn)) /\ (forall k x, In (k, x) (part d pn) -> In k pn /\ x = match assoc k d with Some x => x | None => VNull end) /\
  (forall k, In k pn -> In k (keys (part d pn))).
Proof.
  destruct (part_acc d pn []) as [H1 [H2 H3]]; [constructor | intros ? ? []|]. split; [exact H1|]. split.
  - intros k x H. split; [|now apply H2]. assert (In k (keys (part d pn))) as Hk by (apply in_map_iff; exists (k, x); auto). apply H3 in Hk as [[]|Hk]. exact Hk.
  - intros k H. apply H3. now right.
Qed.
Section Scen.
Variable order : list string -> list string.
Hypothesis Ho : forall l, Permutation (order l) l.
Lemma part_conditions d pn : NoDup (keys d) -> (forall x, d <> [("Fn::If", x)]) -> (forall k x, In (k, x) d -> plain_ifs x) -> ~ In "Fn::If" pn ->
  exists con, NoDup con /\ (forall n, In n con <-> part_looks_at d pn n) /\
    forall c scs, get_scenarios order c (order con) = scs ->
    (do o <- selected (VDict d) pn; get_conditions_scenarios_from_object order c [o]) = scs.
Proof.
  intros Hk Hd Hpl Hpn. rewrite selected_eq. cbn [bind].
  set (o := match pn with [] => d | _ => part d pn end).
  assert (Hoif : forall x, o <> [("Fn::If", x)]).
  { subst o. destruct pn as [|p pn]; [exact Hd|]. intros x E. destruct (part_spec d (p :: pn)) as [_ [H _]]. rewrite E in H.
    destruct (H "Fn::If" x (or_introl eq_refl)). contradiction. }
  assert (Hopl : forall k x, In (k, x) o -> plain_ifs x).
  { subst o. destruct pn as [|p pn]; [exact Hpl|]. intros k x H. destruct (part_spec d (p :: pn)) as [_ [K _]]. apply K in H as [_ ->].
    destruct (assoc k d) as [y|] eqn:E; [apply assoc_In in E; eauto | constructor]. }
  exists (fold_left (fun acc kv => set_union acc (property_conditions (snd kv))) o []). split; [apply members_conditions_NoDup; constructor|]. split.
  - intros n. rewrite members_conditions_in by exact Hopl. unfold members_look_at, part_looks_at, in_part. subst o. destruct pn as [|p pn].
    + split; [intros [[]|[k [x [H1 H2]]]]; exists k, x; auto | intros [k [x [H1 [_ H2]]]]; right; exists k, x; auto].
    + destruct (part_spec d (p :: pn)) as [N [K1 K2]]. split.
      * intros [[]|[k [x [H1 H2]]]]. apply K1 in H1 as [H1 ->]. destruct (assoc k d) as [y|] eqn:E; [|inversion H2]. apply assoc_In in E. exists k, y. auto.
      * intros [k [x [H1 [[Hp|Hp] H2]]]]; [discriminate|]. right. exists k, x. split; [|exact H2].
        assert (Hk' := K2 k Hp). apply in_map_iff in Hk' as [[k' y] [E Hy]]. cbn in E. subst k'. destruct (K1 _ _ Hy) as [_ E]. rewrite (assoc_NoDup k x d Hk H1) in E. now subst y.
  - intros c scs <-. unfold get_conditions_scenarios_from_object. cbn [objects_conditions]. rewrite object_conditions_members by exact Hoif. cbn [bind fst snd andb].
    rewrite set_union_nil by (apply members_conditions_NoDup; constructor). reflexivity.
Qed.

Variable c : conditions.
(** * Partial resolution *)
Lemma known_in names b n : In n names -> known names b n = Some (b n).
Proof. intros H. unfold known. apply smem_iff in H. now rewrite H. Qed.
Lemma known_some names b n x : known names b n = Some x -> x = b n.
Proof. unfold known. destruct (smem n names); congruence. Qed.
Lemma resolved_some_partial decide b :
  (forall n x, decide n = Some x -> x = b n) ->
  (forall v r, resolved (fun n => Some (b n)) v r -> forall r', resolved decide v r' -> r <> None -> r' <> None) /\ (forall l l', resolved_items (fun n => Some (b n)) l l' -> True).
Proof.
  intros Hd. apply resolved_mut; auto; try (intros; match goal with H : resolved decide _ _ |- _ => inversion H; subst; discriminate end).
  - intros c0 t e r [= Hc] _ IH r' H Hr. inversion H; subst; try discriminate; auto;
      try (match goal with K : decide _ = Some ?x |- _ => apply Hd in K end; congruence);
      exfalso; match goal with K : forall x, _ <> _ |- _ => eapply K; reflexivity end.
  - intros c0 t e r [= Hc] _ IH r' H Hr. inversion H; subst; try discriminate; auto;
      try (match goal with K : decide _ = Some ?x |- _ => apply Hd in K end; congruence);
      exfalso; match goal with K : forall x, _ <> _ |- _ => eapply K; reflexivity end.
  - intros d H1 H2 r' H _. inversion H; subst; try discriminate; try (exfalso; eapply H1; reflexivity); exfalso; apply H2; reflexivity.
Qed.
Lemma deployed_partial names b d d' d'' : deployed b d d' -> resolved_members (known names b) d d'' -> d' <> [] -> d'' <> [].
Proof.
  intros H. revert d''. induction H as [|k x y d d' Hx Hd IH|k x d d' Hx Hd IH]; intros d'' H'' Hne; [congruence| |].
  - inversion H''; subst; [discriminate|]. exfalso.
    apply (proj1 (resolved_some_partial (known names b) b (known_some names b)) _ _ Hx None); [assumption | discriminate | reflexivity].
  - inversion H''; subst; [discriminate | auto].
Qed.
Lemma resolved_members_keys decide d d' : resolved_members decide d d' -> forall k, In k (keys d') -> In k (keys d).
Proof. induction 1 as [|k x y d d' Hx Hd IH|k x d d' Hx Hd IH]; intros k'; cbn; [auto | intros [->|H]; auto | auto]. Qed.
Lemma resolved_members_assoc decide d d' : NoDup (keys d) -> resolved_members decide d d' ->
  forall k y, assoc k d' = Some y <-> exists x, assoc k d = Some x /\ resolved decide x (Some y).
Proof.
  intros Hn H. induction H as [|k0 x0 y0 d d' Hx Hd IH|k0 x0 d d' Hx Hd IH]; intros k y; cbn [assoc].
  - split; [discriminate | intros [x [H _]]; discriminate].
  - cbn [keys map] in Hn. inversion Hn; subst. destruct (String.eqb_spec k k0) as [->|N]; [|now apply IH].
    split; [intros [= <-]; eauto | intros [x [[= <-] H]]]. f_equal. now injection (proj1 (resolved_det decide) _ _ Hx _ H).
  - cbn [keys map] in Hn. inversion Hn as [|? ? Hni Hn']; subst. destruct (String.eqb_spec k k0) as [->|N]; [|now apply IH].
    split.
    + intros H. exfalso. apply Hni. apply (resolved_members_keys decide _ _ Hd). apply assoc_Some_key. eauto.
    + intros [x [[= <-] H]]. now pose proof (proj1 (resolved_det decide) _ _ Hx _ H).
Qed.
(** Members whose conditions are all known are resolved completely. *)
Lemma part_agrees names b pn d d' d'' : NoDup (keys d) -> (forall n, part_looks_at d pn n -> In n names) ->
  deployed b d d' -> resolved_members (known names b) d d'' -> forall k, in_part pn k -> assoc k d'' = assoc k d'.
Proof.
  intros Hn Hnames Hd Hd'' k Hk.
  assert (E : forall y, assoc k d'' = Some y <-> assoc k d' = Some y).
  { intros y. rewrite (resolved_members_assoc _ _ _ Hn Hd''), (resolved_members_assoc _ _ _ Hn Hd). split; intros [x [Hx H]]; exists x; (split; [exact Hx|]).
    - apply (proj1 (resolved_ext (known names b) (fun n => Some (b n))) _ _ H). intros n Hl. apply known_in, Hnames. exists k, x. apply assoc_In in Hx. auto.
    - apply (proj1 (resolved_ext (fun n => Some (b n)) (known names b)) _ _ H). intros n Hl. symmetry. apply known_in, Hnames. exists k, x. apply assoc_In in Hx. auto. }
  destruct (assoc k d'') as [y|] eqn:E1; [symmetry; now apply E|]. destruct (assoc k d') as [y|] eqn:E2; [|reflexivity]. now apply E.
Qed.
Lemma decides_known names b n : NoDup names -> decides (scenario_of names b) n = known names b n.
Proof.
  intros Hn. destruct (smem n names) eqn:E.
  - apply smem_iff in E. rewrite decides_scenario, known_in; auto.
  - unfold known. rewrite E. unfold decides. assert (assoc n (scenario_of names b) = None) as ->; [|reflexivity].
    apply assoc_None. unfold scenario_of, keys. rewrite map_map. cbn. rewrite map_id. now apply smem_false in E.
Qed.

Lemma resolve_all_for d scs : plain_object d -> exists out, resolve_all (VDict d) scs = Ok out.
Proof.
  intros [Hk [Hd Hpl]]. apply resolve_all_total. intros sc _. destruct (resolved_members_total (decides sc) d Hpl) as [e He]. exists (VDict e). now apply c18_members.
Qed.
Lemma sets_some d pn scs s ss : (do o <- selected (VDict d) pn; get_conditions_scenarios_from_object order c [o]) = Ok scs -> scs = s :: ss ->
  get_object_without_conditions order c (VDict d) pn = resolve_all (VDict d) scs.
Proof.
  intros H ->. unfold get_object_without_conditions. destruct (selected (VDict d) pn) as [o|]; cbn [bind] in *; [|discriminate]. now rewrite H.
Qed.
Lemma sets_plain d pn : plain_object d -> ~ In "Fn::If" pn -> (forall n, ~ part_looks_at d pn n) -> VDict d <> no_value ->
  get_object_without_conditions order c (VDict d) pn = Ok [(None, VDict d)].
Proof.
  intros [Hk [Hd Hpl]] Hpn Hnone Hnv. destruct (part_conditions d pn Hk Hd Hpl Hpn) as [con [_ [Hcon H]]].
  assert (con = []) as -> by (destruct con as [|x con]; [reflexivity|]; destruct (Hnone x); apply Hcon; now left).
  assert (E : order [] = []) by (apply Permutation_nil; symmetry; apply Ho). rewrite E in H.
  assert (Es : get_scenarios order c [] = Ok []) by (unfold get_scenarios; destruct (cs_conditions c); reflexivity).
  specialize (H c); rewrite Es in H; specialize (H _ eq_refl). unfold get_object_without_conditions. destruct (selected (VDict d) pn) as [o|]; cbn [bind] in *; [|discriminate].
  rewrite H. cbn [bind]. destruct d as [|[k x] [|? ?]]; try reflexivity.
  unfold is_novalue. destruct (String.eqb_spec k "Ref") as [->|_]; [|reflexivity]. destruct x; try reflexivity. cbn [andb eq_str].
  destruct (String.eqb_spec "AWS::NoValue" s) as [<-|_]; [now destruct Hnv | reflexivity].
Qed.
Lemma sets_total d pn : plain_object d -> ~ In "Fn::If" pn -> (forall names, exists scs, get_scenarios order c names = Ok scs) ->
  exists out, get_object_without_conditions order c (VDict d) pn = Ok out.
Proof.
  intros Hd Hpn Hs. destruct Hd as [Hk [Hif Hpl]] eqn:E. clear E. destruct (part_conditions d pn Hk Hif Hpl Hpn) as [con [_ [_ H]]].
  destruct (Hs (order con)) as [scs E]. specialize (H c). rewrite E in H. specialize (H _ eq_refl). destruct scs as [|s ss].
  - unfold get_object_without_conditions. destruct (selected (VDict d) pn) as [o|]; cbn [bind] in *; [|discriminate]. rewrite H. cbn [bind].
    destruct d as [|[k x] [|? ?]]; eauto. destruct (is_novalue k x); eauto.
  - rewrite (sets_some d pn _ s ss H eq_refl). apply resolve_all_for. now repeat split.
Qed.
End Scen.

Lemma sets_found hash order template defs parameters fuel w b d pn names :
  (forall v, digest (hash v)) -> (forall l, Permutation (order l) l) ->
  section_of "Conditions" template defs -> section_of "Parameters" template parameters ->
  plain_object d -> ~ In "Fn::If" pn ->
  NoDup names -> names <> [] -> (forall n, In n names <-> part_looks_at d pn n) ->
  (forall n, In n names -> mem_assoc n (cs_conditions (load hash fuel template)) = true) ->
  (List.length names <= 4 \/ some_related defs names) ->
  deployment hash parameters w -> gives defs w names b ->
  exists out, get_object_without_conditions order (load hash fuel template) (VDict d) pn = Ok out /\
    forall d', deployed b d d' -> d' <> [] ->
    exists sc d'', In (Some sc, VDict d'') out /\ Permutation sc (scenario_of names b) /\ forall k, in_part pn k -> assoc k d'' = assoc k d'.
Proof.
  intros Hh Ho Hc Hp Hd Hpn Hnd Hne Hn Hl Hs Hw Hg. pose proof Hd as [Hk [Hif Hpl]].
  destruct (part_conditions order d pn Hk Hif Hpl Hpn) as [con [Hcd [Hcon Hget]]]. specialize (Hget (load hash fuel template)).
  assert (Hpm : Permutation names (order con)).
  { eapply Permutation_trans; [|symmetry; apply Ho]. apply NoDup_Permutation; auto. intros n. now rewrite Hn, Hcon. }
  assert (Hin : forall n, In n (order con) <-> In n names) by (intros n; split; [apply Permutation_in; now symmetry | now apply Permutation_in]).
  assert (Hod : NoDup (order con)) by (now apply (Permutation_NoDup Hpm)).
  destruct (c16 hash order template defs parameters fuel (order con) w b) as [scs [Hsc Hisc]]; auto.
  - intros E. rewrite E in Hpm. apply Permutation_sym, Permutation_nil in Hpm. contradiction.
  - intros n Hi. now apply Hl, Hin.
  - destruct Hs as [Hs|[n [n' [v [v' [H1 [H2 H3]]]]]]]; [left; now rewrite <- (Permutation_length Hpm)|].
    right. exists n, n', v, v'. rewrite !Hin. auto.
  - intros n Hi. now apply Hg, Hin.
  - rewrite Hsc in Hget. specialize (Hget _ eq_refl). assert (Hne' : exists s ss, scs = s :: ss) by (destruct scs as [|s ss]; [destruct Hisc | eauto]). destruct Hne' as [s [ss Ess]].
    rewrite (sets_some order _ d pn _ s ss Hget Ess). destruct (resolve_all_for d scs Hd) as [out Hout]. exists out. split; [exact Hout|]. intros d' Hd' Hd'ne.
    destruct (resolved_members_total (known names b) d Hpl) as [d'' Hd''].
    exists (scenario_of (order con) b), d''. split; [|split].
    + eapply resolve_all_in; eauto.
      * apply c18_members; auto. eapply resolved_members_ext; [exact Hd''|]. intros n _. rewrite decides_known by exact Hod. unfold known.
        destruct (smem n names) eqn:E1, (smem n (order con)) eqn:E2; try reflexivity; [apply smem_iff, Hin, smem_iff in E1 | apply smem_iff, Hin, smem_iff in E2]; congruence.
      * pose proof (deployed_partial names b d d' d'' Hd' Hd'' Hd'ne). destruct d''; [congruence | reflexivity].
    + apply Permutation_map. now symmetry.
    + apply (part_agrees names b pn d d' d''); auto. intros n. apply Hn.
Qed.

Lemma sets_real hash order template defs parameters d pn names w0 b0 :
  (forall v, digest (hash v)) -> (forall l, Permutation (order l) l) ->
  section_of "Conditions" template defs -> section_of "Parameters" template parameters ->
  NoDup (keys defs) -> (forall n v, In (n, v) defs -> well_formed defs v) ->
  NoDup (keys parameters) -> (forall n p, In (n, p) parameters -> plain_parameter p) -> told_apart hash parameters ->
  plain_object d -> ~ In "Fn::If" pn ->
  NoDup names -> names <> [] -> (forall n, In n names <-> part_looks_at d pn n) -> (forall n, In n names -> In n (keys defs)) ->
  (List.length names <= 4 \/ some_related defs names) -> deployment hash parameters w0 -> gives defs w0 names b0 ->
  exists limit, forall fuel, limit <= fuel ->
  exists out, get_object_without_conditions order (load hash fuel template) (VDict d) pn = Ok out /\
    forall s o, In (s, o) out -> exists sc b d'', s = Some sc /\ Permutation sc (scenario_of names b) /\ o = VDict d'' /\
      (forall d', deployed b d d' -> forall k, in_part pn k -> assoc k d'' = assoc k d') /\
      ((some_related defs names \/ forall n, In n names -> exists w, deployment hash parameters w /\ gives defs w [n] b) ->
       exists w, deployment hash parameters w /\ gives defs w names b).
Proof.
  intros Hh Ho Hc Hp Hcn Hcw Hpan Hpp Hta Hd Hpn Hnd Hne Hn Hdef Hsz Hw0 Hg0. pose proof Hd as [Hk [Hif Hpl]].
  destruct (part_conditions order d pn Hk Hif Hpl Hpn) as [con [Hcd [Hcon Hget]]].
  assert (Hpm : Permutation names (order con)).
  { eapply Permutation_trans; [|symmetry; apply Ho]. apply NoDup_Permutation; auto. intros n. now rewrite Hn, Hcon. }
  assert (Hin : forall n, In n (order con) <-> In n names) by (intros n; split; [apply Permutation_in; now symmetry | now apply Permutation_in]).
  assert (Hod : NoDup (order con)) by (now apply (Permutation_NoDup Hpm)).
  assert (Hrel : some_related defs names <-> some_related defs (order con)).
  { split; intros [n [n' [v [v' [H1 [H2 H3]]]]]]; exists n, n', v, v'; (split; [now apply Hin | split; [now apply Hin | exact H3]]). }
  assert (Hone : order con <> []) by (intros E; rewrite E in Hpm; apply Permutation_sym, Permutation_nil in Hpm; contradiction).
  destruct (c17 hash order template defs parameters (order con)) as [limit Hlim]; auto.
  { intros n Hi. now apply Hdef, Hin. }
  destruct (all_loaded hash template defs Hc Hcn Hcw) as [limit' Hlim'].
  exists (Nat.max limit limit'). intros fuel Hf. destruct (Hlim fuel ltac:(lia)) as [scs [Hsc [H1 H2]]]. specialize (Hget (load hash fuel template)). rewrite Hsc in Hget. specialize (Hget _ eq_refl).
  assert (Hscs : exists s ss, scs = s :: ss).
  { destruct (c16 hash order template defs parameters fuel (order con) w0 b0) as [scs' [Hsc' Hi]]; auto.
    - intros n Hi. apply Hlim'; [lia | now apply Hdef, Hin].
    - destruct Hsz as [Hsz|Hsz]; [left; now rewrite <- (Permutation_length Hpm) | right; now apply Hrel].
    - intros n Hi. now apply Hg0, Hin.
    - rewrite Hsc in Hsc'. injection Hsc' as ->. destruct scs' as [|s ss]; [destruct Hi | eauto]. }
  destruct Hscs as [s0 [ss Ess]]. rewrite (sets_some order _ d pn _ s0 ss Hget Ess). destruct (resolve_all_for d scs Hd) as [out Hout]. exists out. split; [exact Hout|].
  intros s o Hso. destruct (resolve_all_from _ _ _ Hout _ _ Hso) as [sc [-> [Hscin Hv]]].
  destruct (H1 sc Hscin) as [b [-> Hb]].
  destruct (resolved_members_total (known names b) d Hpl) as [d'' Hd''].
  assert (Hv' : get_value_from_scenario (VDict d) (scenario_of (order con) b) = Ok (VDict d'')).
  { apply c18_members; auto. eapply resolved_members_ext; [exact Hd''|]. intros n _. rewrite decides_known by exact Hod. unfold known.
    destruct (smem n names) eqn:E1, (smem n (order con)) eqn:E2; try reflexivity; [apply smem_iff, Hin, smem_iff in E1 | apply smem_iff, Hin, smem_iff in E2]; congruence. }
  exists (scenario_of (order con) b), b, d''. split; [reflexivity|]. split; [apply Permutation_map; now symmetry|]. split; [assert (K : Ok o = Ok (VDict d'')) by (rewrite <- Hv'; symmetry; apply Hv); now injection K|]. split.
  - intros d' Hd'. apply (part_agrees names b pn d d' d''); auto. intros n. apply Hn.
  - intros [Hr|Hr].
    + destruct (H2 (proj1 Hrel Hr) _ Hscin) as [b' [w [E [Hw Hg]]]]. exists w. split; [exact Hw|]. intros n Hi. 
      assert (b n = b' n) as ->; [|now apply Hg, Hin].
      pose proof (decides_scenario (order con) b n Hod (proj2 (Hin n) Hi)) as K1. pose proof (decides_scenario (order con) b' n Hod (proj2 (Hin n) Hi)) as K2. rewrite E in K1. congruence.
    + destruct Hb as [w [Hw Hg]]; [intros n Hi; now apply Hr, Hin|]. exists w. split; [exact Hw|]. intros n Hi. now apply Hg, Hin.
Qed.

(** * Objects that are an Fn::If *)
Lemma scenarios_found hash order template defs parameters fuel w b names con :
  (forall v, digest (hash v)) -> (forall l, Permutation (order l) l) ->
  section_of "Conditions" template defs -> section_of "Parameters" template parameters ->
  NoDup con -> NoDup names -> names <> [] -> (forall n, In n names <-> In n con) ->
  (forall n, In n names -> mem_assoc n (cs_conditions (load hash fuel template)) = true) ->
  (List.length names <= 4 \/ some_related defs names) ->
  deployment hash parameters w -> gives defs w names b ->
  exists scs sc, get_scenarios order (load hash fuel template) (order con) = Ok scs /\ In sc scs /\ Permutation sc (scenario_of names b) /\
    forall n, decides sc n = known names b n.
Proof.
  intros Hh Ho Hc Hp Hcd Hnd Hne Hn Hl Hs Hw Hg.
  assert (Hpm : Permutation names (order con)).
  { eapply Permutation_trans; [|symmetry; apply Ho]. apply NoDup_Permutation; auto. }
  assert (Hin : forall n, In n (order con) <-> In n names) by (intros n; split; [apply Permutation_in; now symmetry | now apply Permutation_in]).
  assert (Hod : NoDup (order con)) by (now apply (Permutation_NoDup Hpm)).
  destruct (c16 hash order template defs parameters fuel (order con) w b) as [scs [Hsc Hisc]]; auto.
  - intros E. rewrite E in Hpm. apply Permutation_sym, Permutation_nil in Hpm. contradiction.
  - intros n Hi. now apply Hl, Hin.
  - destruct Hs as [Hs|[n [n' [v [v' [H1 [H2 H3]]]]]]]; [left; now rewrite <- (Permutation_length Hpm)|].
    right. exists n, n', v, v'. rewrite !Hin. auto.
  - intros n Hi. now apply Hg, Hin.
  - exists scs, (scenario_of (order con) b). split; [exact Hsc|]. split; [exact Hisc|]. split; [apply Permutation_map; now symmetry|].
    intros n. rewrite decides_known by exact Hod. unfold known.
    destruct (smem n names) eqn:E1, (smem n (order con)) eqn:E2; try reflexivity; [apply smem_iff, Hin, smem_iff in E1 | apply smem_iff, Hin, smem_iff in E2]; congruence.
Qed.
Lemma conditional_list_plain v : conditional_list v -> plain_ifs v.
Proof. induction 1 as [l H| |]; [now constructor | apply pi_object; intros x [=] | now constructor]. Qed.
Lemma branch_conditions_list v : conditional_list v -> forall acc n, NoDup acc ->
  NoDup (branch_conditions v acc) /\ (In n (branch_conditions v acc) <-> In n acc \/ exists c t e, v = if_ c t e /\ looks_at v n).
Proof.
  intros H acc n Ha. destruct H as [l H| |c t e Ht He]; cbn [branch_conditions].
  - split; [exact Ha|]. split; [now left | intros [K|[c [t [e [K _]]]]]; [exact K | discriminate]].
  - cbn. split; [exact Ha|]. split; [now left | intros [K|[c [t [e [K _]]]]]; [exact K | discriminate]].
  - unfold if_ at 1 2. cbn [branch_conditions fold_left fst]. rewrite String.eqb_refl. fold (if_ c t e). split; [now apply set_union_NoDup|].
    rewrite set_union_in, property_conditions_in by (constructor; now apply conditional_list_plain). split.
    + intros [K|K]; [now left | right; eauto].
    + intros [K|[? [? [? [_ K]]]]]; auto.
Qed.
Lemma if_conditions c t e : conditional_list t -> conditional_list e ->
  exists con, object_conditions (if_ c t e) = Ok (con, true) /\ NoDup con /\ forall n, In n con <-> chosen_by (if_ c t e) n.
Proof.
  intros Ht He. exists (branch_conditions e (branch_conditions t [c])). split; [reflexivity|].
  assert (H0 : NoDup [c]) by (repeat constructor; intros []).
  split; [destruct (branch_conditions_list t Ht [c] c H0) as [K _]; now destruct (branch_conditions_list e He _ c K)|].
  intros n. destruct (branch_conditions_list t Ht [c] n H0) as [K1 K2]. destruct (branch_conditions_list e He _ n K1) as [_ K3]. rewrite K3, K2. split.
  - intros [[[<-|[]]|[c' [t' [e' [-> K]]]]]|[c' [t' [e' [-> K]]]]]; [apply cb_here | now apply cb_then | now apply cb_else].
  - intros H. inversion H; subst; [left; left; now left | left; right; eauto | right; eauto].
Qed.
Lemma list_set_found hash order template defs parameters fuel w b c t e names l :
  (forall v, digest (hash v)) -> (forall l, Permutation (order l) l) ->
  section_of "Conditions" template defs -> section_of "Parameters" template parameters ->
  conditional_list (if_ c t e) ->
  NoDup names -> (forall n, In n names <-> chosen_by (if_ c t e) n) ->
  (forall n, In n names -> mem_assoc n (cs_conditions (load hash fuel template)) = true) ->
  (List.length names <= 4 \/ some_related defs names) ->
  deployment hash parameters w -> gives defs w names b ->
  resolved (known names b) (if_ c t e) (Some (VList l)) -> l <> [] ->
  forall out, get_object_without_conditions order (load hash fuel template) (if_ c t e) [] = Ok out ->
  exists sc, In (Some sc, VList l) out /\ Permutation sc (scenario_of names b).
Proof.
  intros Hh Ho Hc Hp Hcl Hnd Hn Hl Hs Hw Hg Hr Hlne out Hout. inversion Hcl as [| |c0 t0 e0 Ht He]; subst.
  destruct (if_conditions c t e Ht He) as [con [Hoc [Hcd Hcon]]].
  assert (Hne : names <> []) by (intros ->; destruct (proj2 (Hn c) (cb_here _ _ _))).
  destruct (scenarios_found hash order template defs parameters fuel w b names con Hh Ho Hc Hp Hcd Hnd Hne) as [scs [sc [Hsc [Hi [Hperm Hdec]]]]]; auto.
  { intros n. now rewrite Hn, Hcon. }
  exists sc. split; [|exact Hperm]. unfold get_object_without_conditions in Hout. cbn [selected bind] in Hout. unfold get_conditions_scenarios_from_object in Hout.
  cbn [objects_conditions] in Hout. rewrite Hoc in Hout. cbn [bind fst snd andb] in Hout. rewrite set_union_nil in Hout by exact Hcd. rewrite Hsc in Hout. cbn [bind] in Hout.
  destruct scs as [|s ss]; [destruct Hi|]. unfold if_ in Hout at 1. eapply resolve_all_in; [exact Hout | exact Hi| |].
  - apply c18_if with (r := Some (VList l)). apply (proj1 (resolved_ext (known names b) (decides sc)) _ _ Hr). intros n _. symmetry. apply Hdec.
  - destruct l; [congruence | reflexivity].
Qed.
Lemma chosen_resolved names b v : (forall n, looks_at v n -> In n names) -> forall r, resolved (fun n => Some (b n)) v r -> resolved (known names b) v r.
Proof.
  intros H r Hr. apply (proj1 (resolved_ext (fun n => Some (b n)) (known names b)) _ _ Hr). intros n Hn. apply H in Hn. unfold known. apply smem_iff in Hn. now rewrite Hn.
Qed.
