(** E2541 over all pipelines of a template. *)
From Coq Require Import List String Ascii ZArith Lia Sorting.Sorted.
From Verif.Model Require Import Base Helpers Locate Node Conditions Search Resolve Rules Relationship Limits ConditionRules PropertyRules SubProps Pipelines.
From Verif.Spec Require Import Paths Branches References Required Walk Values Truth Resolved Groups Nested Pipelines.
From Verif.Proofs Require Import BaseFacts SearchProofs BranchProofs SubPropsProofs PropertyRuleProofs Places Says MatchRun StageMain ActionProofs.
Import Verif.Model.Rules.
Import ListNotations.
Local Open Scope string_scope.

Lemma stage_kept l n s : stage_in l n s <-> In (n, s) (kept l).
Proof. symmetry. apply kept_in. Qed.
Lemma kept_fun l n s s' : In (n, s) (kept l) -> In (n, s') (kept l) -> s = s'.
Proof. intros H H'. apply kept_in in H as [d [E [_ K]]]. apply kept_in in H' as [d' [E' [_ K']]]. rewrite E in E'. injection E' as <-. apply clean_pruned in K, K'. congruence. Qed.
Lemma action_kept l n i a : action_in l n i a <-> exists s, In (n, s) (kept l) /\ action_of s i a.
Proof.
  split.
  - intros [s [la [d [H1 [H2 H3]]]]]. exists s. split; [now apply stage_kept|]. exists la. split; [exact H2|]. apply kept_in. eauto.
  - intros [s [H1 [la [H2 H3]]]]. apply kept_in in H3 as [d H3]. exists s, la, d. split; [now apply stage_kept | auto].
Qed.
Lemma action_fun l n i a b : action_in l n i a -> action_in l n i b -> a = b.
Proof.
  intros H H'. apply action_kept in H as [s [H1 [la [H2 H3]]]]. apply action_kept in H' as [s' [H1' [la' [H2' H3']]]]. rewrite <- (kept_fun _ _ _ _ H1 H1') in H2'. rewrite H2 in H2'. injection H2' as <-. exact (kept_fun _ _ _ _ H3 H3').
Qed.
Lemma shaped_items l : actions_shaped l -> plain_items l /\ forall n s, In (n, s) (kept l) -> stage_shaped s.
Proof.
  intros H. split.
  - intros x Hx. destruct (H x Hx) as [E|[d [s [E [Hd _]]]]]; eauto.
  - intros n s Hs. apply kept_in in Hs as [d [E [Hn Hp]]]. apply nth_error_In in E. destruct (H _ E) as [E'|[d' [s' [[= <-] [_ [Hp' [la [El Ha]]]]]]]]; [contradiction|].
    apply clean_pruned in Hp, Hp'. assert (s = s') as -> by congruence. exists la. split; [exact El|]. split.
    + intros y Hy. destruct (Ha y Hy) as [E'|[e [a [E' [He _]]]]]; eauto.
    + intros i a Hi. apply kept_in in Hi as [e [Ei [Hne Hpe]]]. apply nth_error_In in Ei. destruct (Ha _ Ei) as [E'|[e' [a' [[= <-] [_ [Hpe' Hsh]]]]]]; [contradiction|]. apply clean_pruned in Hpe, Hpe'. assert (a = a') as -> by congruence. exact Hsh.
Qed.
Lemma stages_says show p l : actions_shaped l -> exists ms known, stages_sets show p [(VList l, [PKey "Stages"])] [] = Ok (ms, known, true) /\
  forall m, In m ms <-> exists n i t words, action_fault l n i t words /\ m = mkRM (p ++ [PKey "Stages"; PIdx n; PKey "Actions"; PIdx i] ++ t)%list words.
Proof.
  intros H. apply shaped_items in H as [Hpl Hs]. cbn [stages_sets]. rewrite (items_kept l [PKey "Stages"] Hpl).
  destruct (stages_loop_says show p [PKey "Stages"] (kept l) Hs []) as [ms [known [-> Hm]]]. cbn [bind fst snd]. rewrite app_nil_r. do 2 eexists. split; [reflexivity|]. intros m. rewrite Hm.
  assert (Hpath : forall n i t, (p ++ [PKey "Stages"] ++ [PIdx n; PKey "Actions"; PIdx i] ++ t)%list = (p ++ [PKey "Stages"; PIdx n; PKey "Actions"; PIdx i] ++ t)%list) by reflexivity.
  assert (Hord : forall pre n s post, kept l = (pre ++ (n, s) :: post)%list -> forall n' s', In (n', s') pre <-> In (n', s') (kept l) /\ n' < n).
  { intros pre n s post E n' s'. pose proof (kept_ordered l 0) as Ho. fold (kept l) in Ho. rewrite E in Ho. pose proof (ordered_split _ _ _ Ho (n', s')) as K. rewrite <- E in K. exact K. }
  assert (HK : forall pre n s post i x, kept l = (pre ++ (n, s) :: post)%list ->
     (In x [] \/ (exists n' s' j b k, In (n', s') pre /\ action_of s' j b /\ artifact b "OutputArtifacts" k x) \/ exists j b k, action_of s j b /\ j < i /\ artifact b "OutputArtifacts" k x) <->
     exists m j b k, action_in l m j b /\ earlier m j n i /\ artifact b "OutputArtifacts" k x).
  { intros pre n s post i x E. assert (Hn : In (n, s) (kept l)) by (rewrite E; apply in_or_app; right; now left). split.
    - intros [[]|[[n' [s' [j [b [k [H1 [H2 H3]]]]]]]|[j [b [k [H1 [H2 H3]]]]]]].
      + apply (Hord _ _ _ _ E) in H1 as [H1 H1']. exists n', j, b, k. split; [apply action_kept; eauto|]. split; [now left | exact H3].
      + exists n, j, b, k. split; [apply action_kept; eauto|]. split; [now right | exact H3].
    - intros [m' [j [b [k [H1 [H2 H3]]]]]]. apply action_kept in H1 as [s' [H1 H1']]. right. destruct H2 as [H2|[-> H2]].
      + left. exists m', s', j, b, k. split; [apply (Hord _ _ _ _ E); auto | auto].
      + right. rewrite (kept_fun _ _ _ _ H1 Hn) in H1'. exists j, b, k. auto. }
  split.
  - intros [pre [n [s [post [i [a [t [words [E [Ha [F ->]]]]]]]]]]]. exists n, i, t, words. split; [|now rewrite <- Hpath].
    assert (Hn : In (n, s) (kept l)) by (rewrite E; apply in_or_app; right; now left). assert (Hin : action_in l n i a) by (apply action_kept; eauto). pose proof (fun x => HK pre n s post i x E) as HK'. clear HK Hord.
    inversion F as [x E1 [j [b [K1 [K2 K3]]]] Q1 Q2|s' K1 K2 Q1 Q2|s' K1 K2 K3 Q1 Q2|key low high count name K1 K2 K3 K4 Q1 Q2|k x K1 K2 Q1 Q2|k x K1 K2 Q1 Q2]; subst.
    + apply (af_same_name l n i a j b x); auto. apply action_kept; eauto.
    + now apply (af_length l n i a).
    + now apply (af_letters l n i a s').
    + now apply (af_count l n i a).
    + apply (af_input l n i a k x); auto. intros m' j b k' L1 L2 L3. apply K2. apply HK'. exists m', j, b, k'. auto.
    + destruct K2 as [K2|[k' [L1 L2]]].
      * apply HK' in K2 as [m' [j [b [k' [L1 [L2 L3]]]]]]. apply (af_output l n i a k x m' j b k'); auto.
      * apply (af_output l n i a k x n i a k'); auto.
  - intros [n [i [t [words [F ->]]]]]. assert (Hin : exists a, action_in l n i a) by (inversion F; eauto). destruct Hin as [a Hin]. pose proof Hin as Hin'. apply action_kept in Hin' as [s [Hn Ha]]. destruct (in_split _ _ Hn) as [pre [post E]].
    exists pre, n, s, post, i, a, t, words. split; [exact E|]. split; [exact Ha|]. split; [|now rewrite <- Hpath].
    assert (Hsame : forall b, action_in l n i b -> b = a) by (intros b Hb; now apply (action_fun l n i)). pose proof (fun x => HK pre n s post i x E) as HK'. clear HK Hord.
    inversion F as [b j c x K1 K2 K3 K4 K5 Q1 Q2|b s' K1 K2 K3 Q1 Q2|b s' K1 K2 K3 K4 Q1 Q2|b key low high count name K1 K2 K3 K4 K5 Q1 Q2|b k x K1 K2 K3 Q1 Q2|b k x m' j c k' K1 K2 K3 K4 K5 Q1 Q2]; subst; rewrite (Hsame _ K1) in *.
    + apply fg_name; [exact K4|]. apply action_kept in K2 as [s' [L1 L2]]. rewrite (kept_fun _ _ _ _ L1 Hn) in L2. eauto.
    + now apply fg_length.
    + now apply (fg_letters _ _ _ s').
    + now apply fg_count.
    + apply (fg_input _ _ _ k); [exact K2|]. intros L. apply HK' in L as [m' [j [c [k' [L1 [L2 L3]]]]]]. exact (K3 _ _ _ _ L1 L2 L3).
    + apply (fg_output _ _ _ k); [exact K2|]. destruct K5 as [K5|[-> [-> K5]]]; [left; apply HK'; exists m', j, c, k'; auto|]. right. rewrite (Hsame _ K3) in K4. eauto.
Qed.

(** * All pipelines *)
Lemma c85 show template : wf template ->
  (forall name attrs, resource_of template name "AWS::CodePipeline::Pipeline" attrs -> assoc "Properties" attrs = None \/ exists d, assoc "Properties" attrs = Some (VDict d)) ->
  (forall name d, pipeline template name d -> d = [] \/ exists l, assoc "Stages" d = Some (VList l) /\ actions_shaped l) ->
  exists ms, actions_match show template = Ok ms /\
  forall m, In m ms <-> exists name d l n i q words, pipeline template name d /\ assoc "Stages" d = Some (VList l) /\ action_fault l n i q words /\
    m = mkRM (props_path name ++ [PKey "Stages"; PIdx n; PKey "Actions"; PIdx i] ++ q)%list words.
Proof.
  intros Hw Hs Hp. unfold actions_match. destruct (props_all _ template Hw Hs) as [l [-> Hl]]. cbn [bind].
  assert (Hall : forall p v, In (p, v) l -> exists name d st, pipeline template name d /\ p = props_path name /\ v = VDict d /\ assoc "Stages" d = Some (VList st) /\ actions_shaped st).
  { intros p v Hi. apply Hl in Hi as [name [attrs [d [Hres [Ea [Hne [= -> ->]]]]]]]. assert (Hpi : pipeline template name d) by (exists attrs; auto). destruct (Hp _ _ Hpi) as [->|[st [E Hst]]]; [now elim Hne|]. exists name, d, st. auto. }
  assert (H : exists ms, pipelines_loop show l = Ok ms /\ forall m, In m ms <-> exists p d st n i q words, In (p, VDict d) l /\ assoc "Stages" d = Some (VList st) /\ action_fault st n i q words /\
    m = mkRM (p ++ [PKey "Stages"; PIdx n; PKey "Actions"; PIdx i] ++ q)%list words).
  { clear Hl. induction l as [|[p v] l IH]; [exists []; split; [reflexivity|]; intros m; split; [intros [] | intros [? [? [? [? [? [? [? [[] _]]]]]]]]]|].
    destruct IH as [ms [Ems Hms]]; [intros p' v' Hi; apply Hall; now right|]. destruct (Hall p v (or_introl eq_refl)) as [name [d [st [_ [_ [-> [E Hst]]]]]]]. cbn [pipelines_loop]. rewrite (listed_stage "Stages" d st E). cbn [bind].
    destruct (stages_says show p st Hst) as [ms1 [known [-> Hm1]]]. cbn [bind fst snd]. rewrite Ems. cbn [bind]. eexists. split; [reflexivity|]. intros m. rewrite in_app_iff, Hm1, Hms. split.
    - intros [[n [i [q [words [F ->]]]]]|[p' [d' [st' [n [i [q [words [Hi K]]]]]]]]]; [exists p, d, st, n, i, q, words; split; [now left | auto] | exists p', d', st', n, i, q, words; split; [now right | exact K]].
    - intros [p' [d' [st' [n [i [q [words [[[= <- <-]|Hi] [E' [F ->]]]]]]]]]]; [left; rewrite E in E'; injection E' as <-; exists n, i, q, words; auto | right; exists p', d', st', n, i, q, words; auto]. }
  destruct H as [ms [E Hm]]. exists ms. split; [exact E|]. intros m. rewrite Hm. split.
  - intros [p [d [st [n [i [q [words [Hi [Es [F ->]]]]]]]]]]. apply Hl in Hi as [name [attrs [d' [Hres [Ea [_ [= -> <-]]]]]]]. exists name, d, st, n, i, q, words. split; [exists attrs; auto | auto].
  - intros [name [d [st [n [i [q [words [[attrs [Hres Ea]] [Es [F ->]]]]]]]]]]. exists (props_path name), d, st, n, i, q, words. split; [|auto]. apply Hl. exists name, attrs, d. split; [exact Hres|]. split; [exact Ea|]. split; [|reflexivity]. intros ->. discriminate Es.
Qed.
Lemma keys_indices t p : (forall e, In e p -> exists k, e = PKey k) -> indices_ok t p.
Proof. intros H before i after c E. destruct (H (PIdx i)) as [k [=]]. rewrite E. apply in_or_app. right. now left. Qed.
Lemma pruned_assoc d s k x : pruned d s -> NoDup (keys d) -> assoc k s = Some x -> assoc k d = Some x.
Proof.
  intros H Hn E. induction H as [|k' d s H IH|k' y d s Hy H IH]; [discriminate| |].
  - inversion Hn as [|? ? Hni Hn']; subst. specialize (IH Hn' E). cbn [assoc]. destruct (String.eqb_spec k k') as [->|]; [|exact IH]. elim Hni. apply assoc_In in IH. apply in_map_iff. exists (k', x). auto.
  - inversion Hn as [|? ? Hni Hn']; subst. cbn [assoc] in *. destruct (String.eqb k k'); [exact E | now apply IH].
Qed.
Lemma c85_run show sp k c raw m0 d0 name d l n i q words : wf (template c) ->
  snd (coll_run sp k c) = Ok raw -> In (actions_rule show) (k_all k) -> enabled (k_set k) (actions_rule show) = true -> c_tmpl c = MDict m0 d0 ->
  (forall name attrs, resource_of (template c) name "AWS::CodePipeline::Pipeline" attrs -> assoc "Properties" attrs = None \/ exists d, assoc "Properties" attrs = Some (VDict d)) ->
  (forall name d, pipeline (template c) name d -> d = [] \/ exists l, assoc "Stages" d = Some (VList l) /\ actions_shaped l) ->
  pipeline (template c) name d -> assoc "Stages" d = Some (VList l) -> action_fault l n i q words ->
  exists f, locate_match c "E2541" (mkRM (props_path name ++ [PKey "Stages"; PIdx n; PKey "Actions"; PIdx i] ++ q)%list words) = Ok f /\ In f raw.
Proof.
  intros Hw Hrun Hr He Hc Hs Hp Hpi Ev F. destruct (c85 show (template c) Hw Hs Hp) as [ms [E Hms]].
  refine (reported_match sp k c raw _ _ ms _ m0 d0 Hrun Hr He eq_refl Hc E _ _).
  - intros m Hm. apply Hms in Hm as [name' [d' [l' [n' [i' [q' [words' [Hpi' [Ev' [F' ->]]]]]]]]]]. cbn [rm_path]. split; [discriminate|].
    assert (Hin : exists a, action_in l' n' i' a) by (inversion F'; eauto). destruct Hin as [a [s [la [e [[ds [En [_ Hps]]] [El [Ei [_ Hpe]]]]]]]].
    pose proof (stages_at (template c) name' d' Hw Hpi') as Hat. rewrite Ev' in Hat. unfold stages_path in Hat.
    assert (Hd : NoDup (keys ds)). { pose proof (at_path_wf (props_path name' ++ [PKey "Stages"] ++ [PIdx n'])%list (template c) (VDict ds) Hw) as K. apply wf_dict in K; [apply K|]. rewrite app_assoc, at_path_app, Hat. cbn [at_path]. now rewrite En. }
    rewrite app_assoc. apply (indices_after _ _ _ (VDict e)).
    + change [PKey "Stages"; PIdx n'; PKey "Actions"; PIdx i'] with ([PKey "Stages"] ++ [PIdx n'; PKey "Actions"; PIdx i'])%list. rewrite app_assoc, at_path_app. change (erase (c_tmpl c)) with (template c). rewrite Hat. cbn [at_path]. rewrite En. cbn [at_path]. rewrite (pruned_assoc _ _ _ _ Hps Hd El). cbn [at_path]. now rewrite Ei.
    + intros t' _. apply keys_indices. intros x Hx. inversion F'; subst; cbn [In] in Hx; intuition (subst; eauto).
  - apply Hms. exists name, d, l, n, i, q, words. auto.
Qed.
