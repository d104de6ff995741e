(** E2540 over all pipelines of a template. *)
From Coq Require Import List Permutation Lia.
From Verif.Model Require Import Base Helpers Locate Node Conditions Search Resolve Rules Relationship Limits ConditionRules PropertyRules SubProps Pipelines.
From Verif.Spec Require Import Paths Branches ConditionUse References Required Walk Values Truth Resolved Groups Nested Pipelines.
From Verif.Proofs Require Import BaseFacts SearchProofs RelationRule ConditionUseProofs NestedProofs DeepProofs SubPropsProofs PropertyRuleProofs Places Says MatchRun StageProofs ClusterProofs.
Import Verif.Model.Rules.
Import ListNotations.
Local Open Scope string_scope.

(** * The properties of all resources of a type *)
Lemma props_all rt t : wf t -> (forall name attrs, resource_of t name rt attrs -> assoc "Properties" attrs = None \/ exists d, assoc "Properties" attrs = Some (VDict d)) ->
  says (get_resource_properties rt [] t) (fun qx => exists name attrs d, resource_of t name rt attrs /\ assoc "Properties" attrs = Some (VDict d) /\ d <> [] /\ qx = (props_path name, VDict d)).
Proof.
  intros Hw Hs. eapply says_ext; [apply says_concat with (P := fun nr qx => exists attrs d, snd nr = VDict attrs /\ assoc "Properties" attrs = Some (VDict d) /\ d <> [] /\ qx = (props_path (fst nr), VDict d))|].
  - intros [name x] Hi. cbn [fst snd]. apply in_resources_of in Hi as [rt' [attrs [[<-|[]] [-> Hres]]]]; [|exact Hw]. cbn [vget bind]. destruct (Hs _ _ Hres) as [E|[d E]]; rewrite E; cbn [bind].
    + eapply says_ext; [apply says_none|]. intros qx. split; [intros []|]. intros [a [d [[= <-] [E' _]]]]. congruence.
    + destruct d as [|kx d]; cbn [truthy].
      * eapply says_ext; [apply says_none|]. intros qx. split; [intros []|]. intros [a [d [[= <-] [E' [K _]]]]]. rewrite E in E'. injection E' as <-. now elim K.
      * cbn [sub_properties]. eapply says_ext; [apply says_one|]. intros qx. split; [intros ->; exists attrs, (kx :: d); split; [reflexivity|]; split; [exact E|]; split; [discriminate | reflexivity]|].
        intros [a [d' [[= <-] [E' [_ ->]]]]]. rewrite E in E'. injection E' as <-. reflexivity.
  - intros qx. split.
    + intros [[name x] [Hi [attrs [d [E K]]]]]. cbn [fst snd] in *. subst x. apply in_resources_of in Hi as [rt' [attrs' [[<-|[]] [[= <-] Hres]]]]; [|exact Hw]. exists name, attrs, d. tauto.
    + intros [name [attrs [d [Hres K]]]]. exists (name, VDict attrs). split; [apply in_resources_of; [exact Hw|]; exists rt, attrs; split; [now left | auto]|]. exists attrs, d. tauto.
Qed.

(** * One pipeline *)
Definition stages_path (name : string) : path := (props_path name ++ [PKey "Stages"])%list.
Lemma nowhere_below template globals p : wf template -> wf globals -> plain_path p -> at_path p template = None -> at_path p globals = None ->
  below_path template p false (map fst (search_deep_keys "Fn::If" template globals)) no_conds = Ok no_conds.
Proof.
  intros Hw Hg Hpl Ht Hgl. assert (H : forall q, In q (map fst (search_deep_keys "Fn::If" template globals)) -> path_prefix p q = false).
  { intros q Hq. destruct (path_prefix p q) eqn:E; [|reflexivity]. exfalso. apply in_map_iff in Hq as [[q' y] [<- Hi]]. cbn [fst] in E. apply in_search_deep in Hi as [q0 [-> Ho]]; [|exact Hw|exact Hg].
    assert (K : exists r, (q0 ++ [PKey "Fn::If"])%list = (p ++ r)%list).
    { clear -E. revert E. generalize (q0 ++ [PKey "Fn::If"])%list. intros q. revert q. induction p as [|x p IH]; intros [|y q] E; cbn [path_prefix] in E; try discriminate; try (exists q; reflexivity); try (exists []; reflexivity); try (now eexists).
      apply andb_true_iff in E as [E1 E2]. destruct (IH q E2) as [r ->]. exists r. cbn [app]. f_equal. destruct x, y; cbn in E1; try discriminate; f_equal; symmetry; [now apply String.eqb_eq | now apply Nat.eqb_eq]. }
    destruct K as [r K]. unfold occurs in Ho. rewrite K, !at_path_app, Ht, Hgl in Ho. destruct Ho; discriminate. }
  induction (map fst (search_deep_keys "Fn::If" template globals)) as [|q l IH]; [reflexivity|]. cbn [below_path]. rewrite (H q (or_introl eq_refl)). apply IH. intros q' Hq'. apply H. now right.
Qed.
Lemma no_scenarios order c : get_scenarios order c [] = Ok [].
Proof. unfold get_scenarios; destruct (cs_conditions c); reflexivity. Qed.
Lemma resting_container v n : rests_on v n -> is_dict v || is_list v = true /\ v <> no_value.
Proof. intros H. destruct H as [c t e|c t e n H|c t e n H|l x n Hi H|d k x n Hi Hk H]; split; try reflexivity; try discriminate. intros [= ->]. destruct Hi as [[= <- <-]|[]]. inversion H. Qed.
Lemma plain_stages p order c template globals v l : wf template -> wf globals -> plain_path p -> at_path p globals = None ->
  at_path p template = Some v -> tidy v -> (forall n, ~ rests_on v n) -> (forall l, v = VList l -> stages_shaped l) -> v = l ->
  says (do sets <- get_object_without_nested_conditions order c template globals l p; concat_res (check_stages p) sets)
    (fun m => exists l q words, v = VList l /\ stages_fault l q words /\ m = mkRM (p ++ q)%list words).
Proof.
  intros Hw Hg Hpl Hgp Hp Ht Hno Hsh <-. destruct v as [| | | | |l|d].
  1-5: unfold get_object_without_nested_conditions, get_condition_scenarios_below_path;
    destruct (names_below template globals p _ Hw Hg Hp Hpl Hgp Ht) as [cs [E [_ Hin]]]; rewrite E; cbn [bind fst snd];
    assert (K : keys cs = []) by (destruct (keys cs) as [|n l]; [reflexivity|]; elim (Hno n); apply Hin; now left); rewrite K, no_scenarios; cbn [bind is_dict is_list orb concat_res];
    (eapply says_ext; [apply says_none|]; intros m; split; [intros [] | intros [? [? [? [[=] _]]]]]).
  - rewrite (nested_plain template globals p (VList l) Hw Hg Hp Hpl Hgp Ht eq_refl) by (discriminate || exact Hno). cbn [bind concat_res].
    destruct (check_says p None l (Hsh l eq_refl)) as [ms [-> Hms]]. cbn [bind]. rewrite app_nil_r. exists ms. split; [reflexivity|]. intros m. rewrite Hms. split.
    + intros [q [words [F ->]]]. exists l, q, words. auto.
    + intros [l' [q [words [[= <-] [F ->]]]]]. exists q, words. auto.
  - assert (Hn : says (Ok []) (fun m : rulematch => exists l q words, VDict d = VList l /\ stages_fault l q words /\ m = mkRM (p ++ q)%list words)) by (eapply says_ext; [apply says_none|]; intros m; split; [intros [] | intros [l [q [words [[=] _]]]]]).
    destruct (is_no_value (VDict d)) as [E|Hnv].
    + unfold get_object_without_nested_conditions, get_condition_scenarios_below_path. destruct (names_below template globals p _ Hw Hg Hp Hpl Hgp Ht) as [cs [Ec [_ Hin]]]. rewrite Ec. cbn [bind fst snd].
      assert (K : keys cs = []) by (destruct (keys cs) as [|n l]; [reflexivity|]; elim (Hno n); apply Hin; now left). rewrite K, no_scenarios. injection E as ->. exact Hn.
    + rewrite (nested_plain template globals p (VDict d) Hw Hg Hp Hpl Hgp Ht eq_refl) by assumption. exact Hn.
Qed.
Lemma pipeline_at t name d : wf t -> pipeline t name d -> at_path (props_path name) t = Some (VDict d).
Proof.
  intros Hw [attrs [[top [rs [E [Hr [Hn _]]]]] Hp]]. rewrite E in *. cbn [props_path at_path]. rewrite Hr. cbn [at_path].
  assert (En : assoc name rs = Some (VDict attrs)). { apply assoc_NoDup; [|exact Hn]. apply wf_dict in Hw as [_ Hw]. apply assoc_In in Hr. apply Hw in Hr. now apply wf_dict in Hr as [Hr _]. }
  rewrite En. cbn [at_path]. now rewrite Hp.
Qed.
Lemma pipeline_fun t name d d' : wf t -> pipeline t name d -> pipeline t name d' -> d = d'.
Proof. intros Hw H H'. apply pipeline_at in H, H'; try exact Hw. congruence. Qed.
Lemma stages_at t name d : wf t -> pipeline t name d -> at_path (stages_path name) t = assoc "Stages" d.
Proof. intros Hw H. unfold stages_path. rewrite at_path_app, (pipeline_at t name d Hw H). cbn [at_path]. now destruct (assoc "Stages" d). Qed.
Lemma stages_plain_path name : ~ In name FUNCTIONS -> plain_path (stages_path name).
Proof.
  intros H k Hk. unfold stages_path, props_path in Hk. cbn [app In] in Hk.
  destruct Hk as [[= <-]|[[= <-]|[[= <-]|[[= <-]|[]]]]]; try exact H; intros K; apply smem_iff in K; discriminate K.
Qed.

(** * All pipelines *)
(** No conditions in the stages. *)
Lemma c84_plain order c template globals : wf template -> wf globals ->
  (forall name attrs, resource_of template name "AWS::CodePipeline::Pipeline" attrs -> assoc "Properties" attrs = None \/ exists d, assoc "Properties" attrs = Some (VDict d)) ->
  (forall name d, pipeline template name d -> ~ In name FUNCTIONS /\ at_path (props_path name ++ [PKey "Stages"])%list globals = None /\
     forall v, assoc "Stages" d = Some v -> tidy v /\ (forall n, ~ rests_on v n) /\ forall l, v = VList l -> stages_shaped l) ->
  exists ms, stages_match order c template globals = Ok ms /\
  forall m, In m ms <-> exists name d l q words, pipeline template name d /\ assoc "Stages" d = Some (VList l) /\ stages_fault l q words /\
    m = mkRM (props_path name ++ [PKey "Stages"] ++ q)%list words.
Proof.
  intros Hw Hg Hs Hp. unfold stages_match. destruct (props_all _ template Hw Hs) as [l [-> Hl]]. cbn [bind].
  eapply says_ext; [apply says_concat with (P := fun qx m => exists name d l q words, pipeline template name d /\ qx = (props_path name, VDict d) /\ assoc "Stages" d = Some (VList l) /\ stages_fault l q words /\ m = mkRM (stages_path name ++ q)%list words)|].
  - intros qx Hq. apply Hl in Hq as [name [attrs [d [Hres [Ea [_ ->]]]]]]. cbn [fst snd vget bind]. assert (Hpi : pipeline template name d) by (exists attrs; auto).
    destruct (Hp _ _ Hpi) as [Hnf [Hgp Hst]]. pose proof (stages_at template name d Hw Hpi) as Hat. pose proof (stages_plain_path name Hnf) as Hpl.
    destruct (assoc "Stages" d) as [v|] eqn:Ev.
    + destruct (Hst v eq_refl) as [Ht [Hno Hsh]]. eapply says_ext; [exact (plain_stages (stages_path name) order c template globals v v Hw Hg Hpl Hgp Hat Ht Hno Hsh eq_refl)|]. intros m. cbv beta. split.
      * intros [l' [q [words [-> [F ->]]]]]. exists name, d, l', q, words. auto 6.
      * intros [name' [d' [l' [q [words [Hpi' [[= E1 E2] [E3 [F ->]]]]]]]]]. subst. rewrite Ev in E3. injection E3 as ->. exists l', q, words. auto.
    + unfold get_object_without_nested_conditions, get_condition_scenarios_below_path. change (fst (props_path name, VDict d) ++ [PKey "Stages"])%list with (stages_path name).
      change (props_path name ++ [PKey "Stages"])%list with (stages_path name). rewrite (nowhere_below template globals (stages_path name) Hw Hg Hpl Hat Hgp). cbn [bind]. destruct (snd no_conds); cbn [fst no_conds keys map]; [rewrite no_scenarios|]; cbn [bind is_dict is_list orb concat_res];
        (eapply says_ext; [apply says_none|]; intros m; split; [intros []|]; intros [name' [d' [l' [q [words [Hpi' [[= E1 E2] [E3 _]]]]]]]]; subst; congruence).
  - intros m. cbv beta. split.
    + intros [qx [_ [name [d [l' [q [words [Hpi [_ [Ev [F ->]]]]]]]]]]]. exists name, d, l', q, words. split; [exact Hpi|]. split; [exact Ev|]. split; [exact F|]. unfold stages_path. now rewrite <- app_assoc.
    + intros [name [d [l' [q [words [Hpi [Ev [F ->]]]]]]]]. exists (props_path name, VDict d). split.
      * apply Hl. destruct Hpi as [attrs [Hres Ea]]. exists name, attrs, d. split; [exact Hres|]. split; [exact Ea|]. split; [|reflexivity]. intros ->. discriminate Ev.
      * exists name, d, l', q, words. unfold stages_path. rewrite <- app_assoc. auto 6.
Qed.
Lemma fault_indices t name d l q words : wf (erase t) -> pipeline (erase t) name d -> assoc "Stages" d = Some (VList l) -> stages_fault l q words -> indices_ok t (props_path name ++ [PKey "Stages"] ++ q)%list.
Proof.
  intros Hw Hpi Ev F. assert (Hat : at_path (stages_path name) (erase t) = Some (VList l)) by (rewrite (stages_at _ name d Hw Hpi); exact Ev).
  assert (H0 : forall s n, stage_at l n s -> indices_ok t (stages_path name ++ [PIdx n; PKey "Name"])%list).
  { intros s n Hn. change [PIdx n; PKey "Name"] with ([PIdx n] ++ [PKey "Name"])%list. rewrite app_assoc. apply (indices_after _ _ _ (VDict s)); [|intros t' _; apply indices_key]. rewrite at_path_app, Hat. cbn [at_path]. now rewrite Hn. }
  rewrite app_assoc. fold (stages_path name).
  inversion F as [H1 E1 E2|s i a H1 H2 H3 E1 E2|s H1 H2 E1 E2|s i a c j b c' H1 H2 H3 H4 H5 H6 E1 E2|n s i a H1 H2 [la [H3 H3']] H4 E1 E2|H1 H2 E1 E2|m n s s' x H1 H2 H3 H4 H5 E1 E2]; subst;
    try (rewrite app_nil_r; exact (at_path_indices _ _ _ Hat)); try (eapply H0; eassumption).
  apply (at_path_indices _ _ (VDict a)). rewrite at_path_app, Hat. cbn [at_path]. rewrite H1. cbn [at_path]. rewrite H3. cbn [at_path]. now rewrite H3'.
Qed.
Lemma c84_run hash order fuel globals sp k c raw m0 d0 name d l q words : wf (template c) -> wf globals ->
  snd (coll_run sp k c) = Ok raw -> In (stages_rule hash order fuel globals) (k_all k) -> enabled (k_set k) (stages_rule hash order fuel globals) = true -> c_tmpl c = MDict m0 d0 ->
  (forall name attrs, resource_of (template c) name "AWS::CodePipeline::Pipeline" attrs -> assoc "Properties" attrs = None \/ exists d, assoc "Properties" attrs = Some (VDict d)) ->
  (forall name d, pipeline (template c) name d -> ~ In name FUNCTIONS /\ at_path (props_path name ++ [PKey "Stages"])%list globals = None /\
     forall v, assoc "Stages" d = Some v -> tidy v /\ (forall n, ~ rests_on v n) /\ forall l, v = VList l -> stages_shaped l) ->
  pipeline (template c) name d -> assoc "Stages" d = Some (VList l) -> stages_fault l q words ->
  exists f, locate_match c "E2540" (mkRM (props_path name ++ [PKey "Stages"] ++ q)%list words) = Ok f /\ In f raw.
Proof.
  intros Hw Hg Hrun Hr He Hc Hs Hp Hpi Ev F. destruct (c84_plain order (load hash fuel (template c)) (template c) globals Hw Hg Hs Hp) as [ms [E Hms]].
  refine (reported_match sp k c raw _ _ ms _ m0 d0 Hrun Hr He eq_refl Hc E _ _).
  - intros m Hm. apply Hms in Hm as [name' [d' [l' [q' [words' [Hpi' [Ev' [F' ->]]]]]]]]. cbn [rm_path]. split; [discriminate|]. eapply fault_indices; eassumption.
  - apply Hms. exists name, d, l, q, words. auto.
Qed.
Lemma c84_conditional hash order template globals defs parameters (names : string -> list string) :
  (forall v, digest (hash v)) -> (forall l, Permutation (order l) l) ->
  section_of "Conditions" template defs -> section_of "Parameters" template parameters ->
  NoDup (keys defs) -> (forall n v, In (n, v) defs -> well_formed defs v) ->
  NoDup (keys parameters) -> (forall n p, In (n, p) parameters -> plain_parameter p) -> told_apart hash parameters ->
  wf template -> wf globals ->
  (forall name attrs, resource_of template name "AWS::CodePipeline::Pipeline" attrs -> assoc "Properties" attrs = None \/ exists d, assoc "Properties" attrs = Some (VDict d)) ->
  (forall name d, pipeline template name d -> ~ In name FUNCTIONS /\ at_path (props_path name ++ [PKey "Stages"])%list globals = None /\
     forall v, assoc "Stages" d = Some v -> tidy v /\ NoDup (names name) /\ (forall n, In n (names name) <-> rests_on v n) /\ (forall n, In n (names name) -> In n (keys defs)) /\
       (List.length (names name) <= 4 \/ some_related defs (names name)) /\ (exists w b, deployment hash parameters w /\ gives defs w (names name) b) /\
       forall b l, stages_left (names name) b v l -> stages_shaped l) ->
  exists limit, forall fuel, limit <= fuel ->
  exists ms, stages_match order (load hash fuel template) template globals = Ok ms /\
    (forall name d v w b l q words, pipeline template name d -> assoc "Stages" d = Some v -> deployment hash parameters w -> gives defs w (names name) b ->
       stages_left (names name) b v l -> stages_fault l q words ->
       exists sc, Permutation sc (scenario_of (names name) b) /\ In (mkRM (props_path name ++ [PKey "Stages"] ++ q)%list (stage_message words (Some sc))) ms) /\
    (forall m, In m ms -> exists name d v b sc l q words, pipeline template name d /\ assoc "Stages" d = Some v /\ Permutation sc (scenario_of (names name) b) /\
       stages_left (names name) b v l /\ stages_fault l q words /\ m = mkRM (props_path name ++ [PKey "Stages"] ++ q)%list (stage_message words (Some sc)) /\
       ((some_related defs (names name) \/ forall n, In n (names name) -> exists w, deployment hash parameters w /\ gives defs w [n] b) ->
        exists w, deployment hash parameters w /\ gives defs w (names name) b)).
Proof.
  intros Hh Ho Hc Hpar Hcn Hcw Hpan Hpp Hta Hw Hg Hs Hp. unfold stages_match. destruct (props_all _ template Hw Hs) as [l [El Hl]]. rewrite El. cbn [bind]. clear El.
  set (found_here := fun name v (ms : list rulematch) => forall w b l q words, deployment hash parameters w -> gives defs w (names name) b -> stages_left (names name) b v l -> stages_fault l q words ->
       exists sc, Permutation sc (scenario_of (names name) b) /\ In (mkRM (stages_path name ++ q)%list (stage_message words (Some sc))) ms).
  set (real_here := fun name v (ms : list rulematch) => forall m, In m ms -> exists b sc l q words, Permutation sc (scenario_of (names name) b) /\
       stages_left (names name) b v l /\ stages_fault l q words /\ m = mkRM (stages_path name ++ q)%list (stage_message words (Some sc)) /\
       ((some_related defs (names name) \/ forall n, In n (names name) -> exists w, deployment hash parameters w /\ gives defs w [n] b) ->
        exists w, deployment hash parameters w /\ gives defs w (names name) b)).
  set (body := fun fuel (pv : path * val) => let p := (fst pv ++ [PKey "Stages"])%list in
    do stages <- vget "Stages" (snd pv); do sets <- get_object_without_nested_conditions order (load hash fuel template) template globals stages p; concat_res (check_stages p) sets).
  destruct (bounded_all l (fun x fuel => exists ms, body fuel x = Ok ms /\ forall name d, x = (props_path name, VDict d) -> pipeline template name d ->
      (forall v, assoc "Stages" d = Some v -> found_here name v ms /\ real_here name v ms) /\ (assoc "Stages" d = None -> ms = []))) as [limit Hlim].
  { intros qx Hq. apply Hl in Hq as [name [attrs [d [Hres [Ea [_ ->]]]]]]. assert (Hpi : pipeline template name d) by (exists attrs; auto).
    destruct (Hp _ _ Hpi) as [Hnf [Hgp Hst]]. pose proof (stages_at template name d Hw Hpi) as Hat. pose proof (stages_plain_path name Hnf) as Hpl.
    assert (Hsame : forall name' d' (P : string -> list (string * val) -> Prop), P name d -> (props_path name, VDict d) = (props_path name', VDict d') -> P name' d') by (intros name' d' P HP [= <- <-]; exact HP).
    destruct (assoc "Stages" d) as [v|] eqn:Ev.
    - destruct (Hst v eq_refl) as [Ht [Hnd [Hn [Hdef [Hsz [[w0 [b0 [Hw0 Hg0]]] Hshape]]]]]]. destruct (names name) as [|n0 ns] eqn:En.
      + exists 0. intros fuel _. assert (Hno : forall n, ~ rests_on v n) by (intros n K; apply Hn in K; destruct K).
        destruct (plain_stages (stages_path name) order (load hash fuel template) template globals v v Hw Hg Hpl Hgp Hat Ht Hno (fun l E => Hshape b0 l E) eq_refl) as [ms [Ems Hms]].
        exists ms. split; [unfold body; cbn [fst snd vget bind]; rewrite Ev; exact Ems|]. intros name' d' E _. refine (Hsame name' d' (fun name d => (forall v, assoc "Stages" d = Some v -> found_here name v ms /\ real_here name v ms) /\ (assoc "Stages" d = None -> ms = [])) _ E). clear E.
        split; [|congruence]. intros v' Ev'. rewrite Ev in Ev'. injection Ev' as <-. split.
        * intros w b l' q words _ _ Hleft F. rewrite En in *. cbn [stages_left scenario_of map] in *. exists []. split; [constructor|]. apply Hms. exists l', q, words. auto.
        * intros m Hm. apply Hms in Hm as [l' [q [words [-> [F ->]]]]]. exists b0, [], l', q, words. rewrite En. split; [constructor|]. split; [reflexivity|]. split; [exact F|]. split; [reflexivity|]. intros _. exists w0. auto.
      + assert (Hro : rests_on v n0) by (apply Hn; now left). destruct (resting_container v n0 Hro) as [Hv Hnv].
        destruct (nested_both template globals (stages_path name) v Hw Hg Hat Hpl Hgp Ht Hv Hnv hash order defs parameters (n0 :: ns) w0 b0) as [limit Hlim]; auto; [discriminate|].
        exists limit. intros fuel Hfu. destruct (Hlim fuel Hfu) as [out [Eout [Hsound Hcomp]]].
        assert (Hshaped : forall s o, In (s, o) out -> exists sc b, s = Some sc /\ Permutation sc (scenario_of (n0 :: ns) b) /\ ((forall l, o <> VList l) \/ exists l, o = VList l /\ stages_left (n0 :: ns) b v l) /\
            ((some_related defs (n0 :: ns) \/ forall n, In n (n0 :: ns) -> exists w, deployment hash parameters w /\ gives defs w [n] b) -> exists w, deployment hash parameters w /\ gives defs w (n0 :: ns) b)).
        { intros s o Hi. destruct (Hsound s o Hi) as [sc [b [r [-> [Hsc [Hd [-> Hpos]]]]]]]. exists sc, b. split; [reflexivity|]. split; [exact Hsc|]. split; [|exact Hpos].
          destruct r as [[| | | | |l'|]|]; try (left; intros l' [=]; fail). right. exists l'. split; [reflexivity | exact Hd]. }
        destruct (concat_res_total (check_stages (stages_path name)) out) as [ms Ems].
        { intros [s o] Hi. destruct (Hshaped s o Hi) as [sc [b [-> [_ [[Hno|[l' [-> Hleft]]] _]]]]].
          - exists []. unfold check_stages. cbn [snd]. destruct o as [| | | | |l'|]; try reflexivity. now elim (Hno l').
          - destruct (check_says (stages_path name) (Some sc) l' (Hshape _ _ Hleft)) as [ms [E _]]. eauto. }
        exists ms. split; [unfold body; cbn [fst snd vget bind]; rewrite Ev; cbn [bind]; change (props_path name ++ [PKey "Stages"])%list with (stages_path name); rewrite Eout; exact Ems|].
        intros name' d' E _. refine (Hsame name' d' (fun name d => (forall v, assoc "Stages" d = Some v -> found_here name v ms /\ real_here name v ms) /\ (assoc "Stages" d = None -> ms = [])) _ E). clear E.
        split; [|congruence]. intros v' Ev'. rewrite Ev in Ev'. injection Ev' as <-. split.
        * intros w b l' q words Hdw Hgw Hleft F. rewrite En in *. destruct (Hcomp w b (Some (VList l')) Hdw Hgw Hleft) as [sc [Hi Hsc]]. exists sc. split; [exact Hsc|].
          destruct (check_says (stages_path name) (Some sc) l' (Hshape _ _ Hleft)) as [o [Eo Ho']]. apply (concat_res_in _ _ _ _ Ems). exists (Some sc, VList l'), o. split; [exact Hi|]. split; [exact Eo|]. apply Ho'. exists q, words. auto.
        * intros m Hm. apply (concat_res_in _ _ _ _ Ems) in Hm as [[s o] [o' [Hi [Eo Hm]]]]. destruct (Hshaped s o Hi) as [sc [b [-> [Hsc [[Hno|[l' [-> Hleft]]] Hpos]]]]].
          -- unfold check_stages in Eo. cbn [snd] in Eo. destruct o as [| | | | |l'|]; try (injection Eo as <-; destruct Hm). now elim (Hno l').
          -- destruct (check_says (stages_path name) (Some sc) l' (Hshape _ _ Hleft)) as [o2 [Eo2 Ho']]. rewrite Eo in Eo2. injection Eo2 as <-. apply Ho' in Hm as [q [words [F ->]]]. exists b, sc, l', q, words. rewrite En. auto 8.
    - exists 0. intros fuel _. exists []. split.
      + unfold body. cbn [fst snd vget bind]. rewrite Ev. cbn [bind]. unfold get_object_without_nested_conditions, get_condition_scenarios_below_path. change (props_path name ++ [PKey "Stages"])%list with (stages_path name).
        rewrite (nowhere_below template globals (stages_path name) Hw Hg Hpl Hat Hgp). cbn [bind]. destruct (snd no_conds); cbn [fst no_conds keys map]; [rewrite no_scenarios|]; reflexivity.
      + intros name' d' [= <- <-] _. split; [congruence | reflexivity]. }
  exists limit. intros fuel Hfu. specialize (Hlim fuel Hfu).
  destruct (concat_res_total (body fuel) l) as [ms Ems]; [intros x Hx; destruct (Hlim x Hx) as [o [Eo _]]; eauto|].
  exists ms. split; [exact Ems|]. split.
  - intros name d v w b l' q words Hpi Ev Hdw Hgw Hleft F. assert (Hi : In (props_path name, VDict d) l).
    { apply Hl. destruct Hpi as [attrs [Hres Ea]]. exists name, attrs, d. split; [exact Hres|]. split; [exact Ea|]. split; [|reflexivity]. intros ->. discriminate Ev. }
    destruct (Hlim _ Hi) as [o [Eo K]]. destruct (K name d eq_refl Hpi) as [K1 _]. destruct (K1 v Ev) as [Kf _]. destruct (Kf w b l' q words Hdw Hgw Hleft F) as [sc [Hsc Hm]]. exists sc. split; [exact Hsc|].
    apply (concat_res_in _ _ _ _ Ems). exists (props_path name, VDict d), o. split; [exact Hi|]. split; [exact Eo|]. rewrite app_assoc. exact Hm.
  - intros m Hm. apply (concat_res_in _ _ _ _ Ems) in Hm as [x [o [Hi [Eo Hm]]]]. destruct (Hlim _ Hi) as [o' [Eo' K]]. rewrite Eo in Eo'. injection Eo' as <-.
    apply Hl in Hi as [name [attrs [d [Hres [Ea [_ ->]]]]]]. assert (Hpi : pipeline template name d) by (exists attrs; auto). destruct (K name d eq_refl Hpi) as [K1 K2].
    destruct (assoc "Stages" d) as [v|] eqn:Ev; [|rewrite (K2 eq_refl) in Hm; destruct Hm]. destruct (K1 v eq_refl) as [_ Kr]. destruct (Kr m Hm) as [b [sc [l' [q [words [H1 [H2 [H3 [-> H4]]]]]]]]].
    exists name, d, v, b, sc, l', q, words. unfold stages_path. rewrite <- app_assoc. auto 8.
Qed.
