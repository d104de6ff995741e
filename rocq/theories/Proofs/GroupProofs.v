(** C28: groups of properties. *)
From Coq Require Import Permutation Lia.
From Verif.Model Require Import Base Helpers Node Conditions Search Resolve Rules Relationship Parameters PropertyRules.
From Verif.Spec Require Import Paths Branches Required Truth Resolved Groups.
From Verif.Proofs Require Import BaseFacts BranchProofs SearchProofs ConditionProofs ResolveProofs ScenarioMain SetProofs PropertyRuleProofs.
Import ListNotations.
Local Open Scope string_scope.

(** * Counting *)
Lemma count_in_dict group d : count_in group (VDict d) = Ok (List.length (filter (fun k => mem_assoc k d) group)).
Proof. induction group as [|k g IH]; [reflexivity|]. cbn [count_in py_member bind]. rewrite IH. cbn [bind filter]. now destruct (mem_assoc k d). Qed.
Lemma mem_keys {A} k (d : list (string * A)) : mem_assoc k d = true <-> In k (keys d).
Proof. unfold mem_assoc. destruct (assoc k d) as [x|] eqn:E; [apply assoc_In in E; split; auto; intros _; apply in_map_iff; now exists (k, x) | apply assoc_None in E; split; [discriminate | contradiction]]. Qed.
Lemma count_one group (d : list (string * val)) : NoDup group ->
  negb (Nat.eqb (List.length (filter (fun k => mem_assoc k d) group)) 1) = true <-> ~ exactly_one group (keys d).
Proof.
  intros Hn. rewrite negb_true_iff, Nat.eqb_neq. enough (List.length (filter (fun k => mem_assoc k d) group) = 1 <-> exactly_one group (keys d)) by tauto.
  assert (Hf : forall k, In k (filter (fun k => mem_assoc k d) group) <-> In k group /\ In k (keys d)) by (intros k; now rewrite filter_In, mem_keys).
  assert (Hnf : NoDup (filter (fun k => mem_assoc k d) group)) by now apply NoDup_filter.
  destruct (filter (fun k => mem_assoc k d) group) as [|k [|k' l]]; split; intros H; try discriminate.
  - destruct H as [k [H1 [H2 _]]]. now destruct (proj2 (Hf k)).
  - exists k. destruct (proj1 (Hf k) (or_introl eq_refl)) as [H1 H2]. split; [exact H1|]. split; [exact H2|]. intros k' H3 H4. now destruct (proj2 (Hf k') (conj H3 H4)) as [->|[]].
  - reflexivity.
  - exfalso. destruct H as [x [_ [_ Hx]]]. assert (k = x) by (apply Hx; apply Hf; now left). assert (k' = x) by (apply Hx; apply Hf; right; now left). subst. inversion Hnf; subst. apply H1. now left.
Qed.
Lemma count_none group (d : list (string * val)) :
  Nat.eqb (List.length (filter (fun k => mem_assoc k d) group)) 0 = true <-> none_of group (keys d).
Proof.
  rewrite Nat.eqb_eq, length_zero_iff_nil. unfold none_of. split.
  - intros H k Hk Hd. apply mem_keys in Hd. assert (In k (filter (fun k => mem_assoc k d) group)) by (apply filter_In; auto). rewrite H in H0. destruct H0.
  - intros H. destruct (filter (fun k => mem_assoc k d) group) as [|k l] eqn:E; [reflexivity|]. assert (K : In k (filter (fun k => mem_assoc k d) group)) by (rewrite E; now left).
    apply filter_In in K as [K1 K2]. apply mem_keys in K2. now destruct (H k).
Qed.
Lemma part_group d group n : group <> [] -> (part_looks_at d group n <-> group_looks_at d group n).
Proof. intros Hg. unfold part_looks_at, group_looks_at, in_part. split; intros [k [x [H1 [H2 H3]]]]; exists k, x; intuition. Qed.
Lemma part_all d n : part_looks_at d [] n <-> members_look_at d n.
Proof. unfold part_looks_at, members_look_at, in_part. split; [intros [k [x [H1 [H2 H3]]]]; exists k, x; auto | intros [k [x [H1 H2]]]; exists k, x; auto]. Qed.

(** * The check of one kind of group *)
Lemma concat_res_each {A B} (f : A -> res (list B)) l out : concat_res f l = Ok out -> forall x, In x l -> exists o, f x = Ok o.
Proof. intros H x Hx. destruct (concat_res_inv _ _ _ H) as [g [Hg _]]. eauto. Qed.
Section Kind.
Variable words : string.
Variable bad : nat -> bool.
Variable P : list string -> list string -> Prop.
Hypothesis HP : forall group d, NoDup group -> (bad (List.length (filter (fun k => @mem_assoc val k d) group)) = true <-> P group (keys d)).
Hypothesis HPe : forall group l l', (forall k, In k group -> In k l <-> In k l') -> P group l -> P group l'.

Lemma group_in order c props groups p ms : group_check order c words bad (VDict props) groups p = Ok ms ->
  forall m, In m ms <-> exists group w q sets s o n, In group groups /\ branch (VDict props) p w q /\
    get_object_without_conditions order c w group = Ok sets /\ In (s, o) sets /\ count_in group o = Ok n /\ bad n = true /\ m = group_match words group p q s.
Proof.
  intros H m. unfold group_check in H. rewrite (concat_res_ok_iff _ _ _ H). split.
  - intros [group [o [Hg [E Hm]]]]. cbn [obj_items_safe bind] in E. apply (concat_res_ok_iff _ _ _ E) in Hm as [[w q] [o' [Hi [E' Hm]]]]. cbn [fst snd] in E'.
    destruct (get_object_without_conditions order c w group) as [sets|] eqn:Es; cbn [bind] in E'; [|discriminate].
    apply (concat_res_ok_iff _ _ _ E') in Hm as [[s x] [o2 [Hx [E2 Hm]]]]. unfold group_set in E2. cbn [fst snd] in E2.
    destruct (count_in group x) as [n|] eqn:En; cbn [bind] in E2; [|discriminate]. injection E2 as <-. destruct (bad n) eqn:Eb; [|destruct Hm]. destruct Hm as [<-|[]].
    apply items_safe_spec in Hi. exists group, w, q, sets, s, x, n. auto 10.
  - intros [group [w [q [sets [s [x [n [Hg [Hb [Es [Hx [En [Eb ->]]]]]]]]]]]]]. apply items_safe_spec in Hb.
    destruct (concat_res_each _ _ _ H group Hg) as [o E]. exists group, o. split; [exact Hg|]. split; [exact E|].
    cbn [obj_items_safe bind] in E. apply (concat_res_ok_iff _ _ _ E). destruct (concat_res_each _ _ _ E _ Hb) as [o' E']. exists (w, q), o'. split; [exact Hb|]. split; [exact E'|].
    cbn [fst snd] in E'. rewrite Es in E'. cbn [bind] in E'. apply (concat_res_ok_iff _ _ _ E'). exists (s, x), [group_match words group p q s].
    split; [exact Hx|]. split; [|now left]. unfold group_set. cbn [fst snd]. rewrite En. cbn [bind]. now rewrite Eb.
Qed.
Lemma group_total order c props groups p :
  (forall group w q, In group groups -> branch (VDict props) p w q -> exists sets, get_object_without_conditions order c w group = Ok sets /\
     forall s o, In (s, o) sets -> exists d, o = VDict d) ->
  exists ms, group_check order c words bad (VDict props) groups p = Ok ms.
Proof.
  intros H. unfold group_check. apply concat_res_total. intros group Hg. cbn [obj_items_safe bind]. apply concat_res_total. intros [w q] Hi. apply items_safe_spec in Hi.
  destruct (H group w q Hg Hi) as [sets [E Hd]]. cbn [fst snd]. rewrite E. cbn [bind]. apply concat_res_total. intros [s o] Ho. destruct (Hd s o Ho) as [d ->].
  unfold group_set. cbn [fst snd]. rewrite count_in_dict. cbn [bind]. eauto.
Qed.

(** Without conditions. *)
Lemma group_plain order c props groups p : (forall l, Permutation (order l) l) ->
  all_objects (VDict props) p -> (forall group, In group groups -> proper_group group) ->
  (forall d q, branch (VDict props) p (VDict d) q -> plain_object d /\ VDict d <> no_value /\ forall group n, In group groups -> ~ group_looks_at d group n) ->
  exists ms, group_check order c words bad (VDict props) groups p = Ok ms /\
    forall m, In m ms <-> exists d q group, branch (VDict props) p (VDict d) q /\ In group groups /\ P group (keys d) /\
      m = mkRM p (words ++ " of [" ++ join_str ", " group ++ "] should be specified for " ++ path_text q).
Proof.
  intros Ho Ha Hgr Hd.
  assert (Hs : forall group d q, In group groups -> branch (VDict props) p (VDict d) q -> get_object_without_conditions order c (VDict d) group = Ok [(None, VDict d)]).
  { intros group d q Hg Hb. destruct (Hd d q Hb) as [H1 [H2 H3]]. destruct (Hgr group Hg) as [G1 [G2 G3]]. apply sets_plain; auto.
    intros n Hn. apply part_group in Hn; [|exact G1]. now apply (H3 group n). }
  destruct (group_total order c props groups p) as [ms E].
  { intros group w q Hg Hb. destruct (Ha _ _ Hb) as [d ->]. exists [(None, VDict d)]. split; [now apply (Hs group d q)|]. intros s o [[= _ <-]|[]]. eauto. }
  exists ms. split; [exact E|]. intros m. rewrite (group_in _ _ _ _ _ _ E). split.
  - intros [group [w [q [sets [s [x [n [Hg [Hb [Es [Hx [En [Eb ->]]]]]]]]]]]]]. destruct (Ha _ _ Hb) as [d ->]. rewrite (Hs group d q Hg Hb) in Es. injection Es as <-.
    destruct Hx as [[= <- <-]|[]]. rewrite count_in_dict in En. injection En as <-. exists d, q, group. split; [exact Hb|]. split; [exact Hg|]. split; [|reflexivity].
    apply HP; [apply Hgr, Hg | exact Eb].
  - intros [d [q [group [Hb [Hg [Hp ->]]]]]]. exists group, (VDict d), q, [(None, VDict d)], None, (VDict d), (List.length (filter (fun k => mem_assoc k d) group)).
    rewrite count_in_dict, (Hs group d q Hg Hb). apply HP in Hp; [|apply Hgr, Hg]. split; [exact Hg|]. split; [exact Hb|]. split; [reflexivity|]. split; [now left|]. auto.
Qed.

(** In each deployment. *)
Lemma agree_keys (d d' : list (string * val)) pn : (forall k, in_part pn k -> assoc k d = assoc k d') -> forall k, in_part pn k -> In k (keys d) <-> In k (keys d').
Proof. intros H k Hk. rewrite <- !mem_keys. unfold mem_assoc. now rewrite H. Qed.
Lemma group_found hash order template defs parameters fuel w b props p d q groups group names d' ms :
  (forall v, digest (hash v)) -> (forall l, Permutation (order l) l) ->
  section_of "Conditions" template defs -> section_of "Parameters" template parameters ->
  branch (VDict props) p (VDict d) q -> plain_object d -> In group groups -> proper_group group ->
  NoDup names -> names <> [] -> (forall n, In n names <-> group_looks_at d group n) ->
  (forall n, In n names -> mem_assoc n (cs_conditions (load hash fuel template)) = true) ->
  (List.length names <= 4 \/ some_related defs names) ->
  deployment hash parameters w -> gives defs w names b ->
  deployed b d d' -> d' <> [] -> P group (keys d') ->
  group_check order (load hash fuel template) words bad (VDict props) groups p = Ok ms ->
  exists sc, Permutation sc (scenario_of names b) /\
    In (mkRM p (words ++ " of [" ++ join_str ", " group ++ "] should be specified " ++ scenario_text sc ++ " at " ++ path_text q)) ms.
Proof.
  intros Hh Ho Hc Hp Hb Hd Hg [G1 [G2 G3]] Hnd Hne Hn Hl Hs Hw Hgv Hdep Hd' HPd E.
  destruct (sets_found hash order template defs parameters fuel w b d group names) as [out [Eo Hout]]; auto.
  { intros n. rewrite Hn. symmetry. now apply part_group. }
  destruct (Hout d' Hdep Hd') as [sc [d'' [Hi [Hperm Hag]]]]. exists sc. split; [exact Hperm|]. apply (group_in _ _ _ _ _ _ E).
  exists group, (VDict d), q, out, (Some sc), (VDict d''), (List.length (filter (fun k => mem_assoc k d'') group)). rewrite count_in_dict.
  split; [exact Hg|]. split; [exact Hb|]. split; [exact Eo|]. split; [exact Hi|]. split; [reflexivity|]. split; [|unfold group_match; now rewrite !append_assoc].
  apply HP; [exact G2|]. eapply HPe; [|exact HPd]. intros k Hk. symmetry. apply (agree_keys d'' d' group Hag). now right.
Qed.

(** Nothing else. *)
Lemma group_real hash order template defs parameters props p groups w0 b0 :
  (forall v, digest (hash v)) -> (forall l, Permutation (order l) l) ->
  section_of "Conditions" template defs -> section_of "Parameters" template parameters ->
  NoDup (keys defs) -> (forall n v, In (n, v) defs -> well_formed defs v) ->
  NoDup (keys parameters) -> (forall n p, In (n, p) parameters -> plain_parameter p) -> told_apart hash parameters ->
  all_objects (VDict props) p -> (forall group, In group groups -> proper_group group) ->
  deployment hash parameters w0 -> gives defs w0 (keys defs) b0 ->
  (forall d q, branch (VDict props) p (VDict d) q -> plain_object d /\ VDict d <> no_value /\
     forall group, In group groups -> exists names, NoDup names /\ (forall n, In n names <-> group_looks_at d group n) /\
       (forall n, In n names -> In n (keys defs)) /\ (List.length names <= 4 \/ some_related defs names)) ->
  exists limit, forall fuel, limit <= fuel ->
  exists ms, group_check order (load hash fuel template) words bad (VDict props) groups p = Ok ms /\
    forall m, In m ms -> exists d q group, branch (VDict props) p (VDict d) q /\ In group groups /\
      ((forall n, ~ group_looks_at d group n) /\ P group (keys d) /\
         m = mkRM p (words ++ " of [" ++ join_str ", " group ++ "] should be specified for " ++ path_text q) \/
       exists names b sc, NoDup names /\ names <> [] /\ (forall n, In n names <-> group_looks_at d group n) /\ Permutation sc (scenario_of names b) /\
         (forall d', deployed b d d' -> P group (keys d')) /\
         m = mkRM p (words ++ " of [" ++ join_str ", " group ++ "] should be specified " ++ scenario_text sc ++ " at " ++ path_text q) /\
         ((some_related defs names \/ forall n, In n names -> exists w, deployment hash parameters w /\ gives defs w [n] b) ->
          exists w, deployment hash parameters w /\ gives defs w names b)).
Proof.
  intros Hh Ho Hc Hp Hcn Hcw Hpn Hpp Hta Ha Hgr Hw0 Hg0 Hd.
  pose (ok := fun (gi : list string * (val * path)) fuel sets => get_object_without_conditions order (load hash fuel template) (fst (snd gi)) (fst gi) = Ok sets /\
    forall s o, In (s, o) sets -> exists d, fst (snd gi) = VDict d /\
      ((forall n, ~ group_looks_at d (fst gi) n) /\ s = None /\ o = VDict d \/
       exists names b sc d'', NoDup names /\ names <> [] /\ (forall n, In n names <-> group_looks_at d (fst gi) n) /\ s = Some sc /\ Permutation sc (scenario_of names b) /\
         o = VDict d'' /\ (forall d', deployed b d d' -> forall k, in_part (fst gi) k -> assoc k d'' = assoc k d') /\
         ((some_related defs names \/ forall n, In n names -> exists w, deployment hash parameters w /\ gives defs w [n] b) ->
          exists w, deployment hash parameters w /\ gives defs w names b))).
  assert (Hall : forall l, (forall gi, In gi l -> In (fst gi) groups /\ branch (VDict props) p (fst (snd gi)) (snd (snd gi))) ->
    exists limit, forall fuel, limit <= fuel -> forall gi, In gi l -> exists sets, ok gi fuel sets).
  { induction l as [|gi l IH]; intros Hl; [exists 0; intros ? _ ? []|].
    destruct IH as [lim1 H1]; [intros gi' Hi; apply Hl; now right|]. enough (exists lim, forall fuel, lim <= fuel -> exists sets, ok gi fuel sets) as [lim2 H2].
    { exists (Nat.max lim1 lim2). intros fuel Hf gi' [<-|Hi]; [apply H2; lia | apply H1; [lia | exact Hi]]. }
    destruct (Hl gi (or_introl eq_refl)) as [Hg Hb]. destruct (Ha _ _ Hb) as [d Ed]. destruct gi as [group [x q]]. cbn [fst snd] in *. subst x.
    destruct (Hd d q Hb) as [Hpo [Hnv Hcov]]. destruct (Hcov group Hg) as [names [N1 [N2 [N3 N4]]]]. destruct (Hgr group Hg) as [G1 [G2 G3]].
    destruct names as [|n0 names].
    - exists 0. intros fuel _. assert (Hno : forall n, ~ group_looks_at d group n) by (intros n K; now apply N2 in K). exists [(None, VDict d)]. split; cbn [fst snd].
      + apply sets_plain; auto. intros n K. apply part_group in K; [|exact G1]. now apply (Hno n).
      + intros s o [[= <- <-]|[]]. exists d. auto.
    - destruct (sets_real hash order template defs parameters d group (n0 :: names) w0 b0) as [lim H]; auto; try discriminate.
      { intros n. rewrite N2. symmetry. now apply part_group. }
      { intros n Hi. now apply Hg0, N3. }
      exists lim. intros fuel Hf. destruct (H fuel Hf) as [out [E Hout]]. exists out. split; [exact E|]. cbn [fst snd]. intros s o Hi. exists d. split; [reflexivity|]. right.
      destruct (Hout s o Hi) as [sc [b [d'' [H3 [H4 [H5 [H6 H7]]]]]]]. exists (n0 :: names), b, sc, d''. repeat split; auto; try apply N2; discriminate. }
  destruct (Hall (list_prod groups (items_safe (VDict props) p))) as [limit Hlim].
  { intros [g [x q]] Hi. apply in_prod_iff in Hi as [H1 H2]. cbn [fst snd]. split; [exact H1 | now apply items_safe_spec]. }
  exists limit. intros fuel Hf.
  assert (Hget : forall group w q, In group groups -> branch (VDict props) p w q -> exists sets, ok (group, (w, q)) fuel sets).
  { intros group w q Hg Hb. apply (Hlim fuel Hf). apply in_prod_iff. split; [exact Hg | now apply items_safe_spec]. }
  destruct (group_total order (load hash fuel template) props groups p) as [ms E].
  { intros group w q Hg Hb. destruct (Hget group w q Hg Hb) as [sets [E Hs]]. exists sets. split; [exact E|]. intros s o Hi.
    destruct (Hs s o Hi) as [d [_ [[_ [_ ->]]|[names [b [sc [d'' [_ [_ [_ [_ [_ [-> _]]]]]]]]]]]]]; eauto. }
  exists ms. split; [exact E|]. intros m Hm. apply (group_in _ _ _ _ _ _ E) in Hm as [group [w [q [sets [s [x [n [Hg [Hb [Es [Hx [En [Eb ->]]]]]]]]]]]]].
  destruct (Hget group w q Hg Hb) as [sets' [E' Hs]]. cbn [fst snd] in E', Hs. rewrite E' in Es. injection Es as ->. destruct (Hgr group Hg) as [G1 [G2 G3]].
  destruct (Hs s x Hx) as [d [-> [[H1 [-> ->]]|[names [b [sc [d'' [H1 [H2 [H3 [-> [H4 [-> [H5 H6]]]]]]]]]]]]]]; rewrite count_in_dict in En; injection En as <-; exists d, q, group; (split; [exact Hb|]); (split; [exact Hg|]).
  - left. split; [exact H1|]. split; [now apply HP | reflexivity].
  - right. exists names, b, sc. split; [exact H1|]. split; [exact H2|]. split; [exact H3|]. split; [exact H4|]. split; [|split; [unfold group_match; now rewrite !append_assoc | exact H6]].
    intros d' Hd'. apply HP in Eb; [|exact G2]. eapply HPe; [|exact Eb]. intros k Hk. apply (agree_keys d'' d' group); [now apply H5 | now right].
Qed.
End Kind.

Lemma only_one_kind group (d : list (string * val)) : NoDup group ->
  negb (Nat.eqb (List.length (filter (fun k => mem_assoc k d) group)) 1) = true <-> ~ exactly_one group (keys d).
Proof. apply count_one. Qed.
Lemma only_one_ext group l l' : (forall k, In k group -> In k l <-> In k l') -> ~ exactly_one group l -> ~ exactly_one group l'.
Proof.
  intros H Hn [k [H1 [H2 H3]]]. apply Hn. exists k. split; [exact H1|]. split; [now apply H|]. intros k' H4 H5. apply H3; [exact H4 | now apply H].
Qed.
Lemma none_of_ext group l l' : (forall k, In k group -> In k l <-> In k l') -> none_of group l -> none_of group l'.
Proof. intros H Hn k Hk Hk'. apply (Hn k Hk). now apply H. Qed.

Definition not_one group names := ~ exactly_one group names.
Definition c28_only_one_plain := group_plain "Only one" (fun n => negb (Nat.eqb n 1)) not_one count_one.
Definition c28_only_one_found := group_found "Only one" (fun n => negb (Nat.eqb n 1)) not_one count_one only_one_ext.
Definition c28_only_one_real := group_real "Only one" (fun n => negb (Nat.eqb n 1)) not_one count_one only_one_ext.
Definition c28_at_least_plain := group_plain "At least one" (fun n => Nat.eqb n 0) none_of (fun g d _ => count_none g d).
Definition c28_at_least_found := group_found "At least one" (fun n => Nat.eqb n 0) none_of (fun g d _ => count_none g d) none_of_ext.
Definition c28_at_least_real := group_real "At least one" (fun n => Nat.eqb n 0) none_of (fun g d _ => count_none g d) none_of_ext.

(** * Pairs of properties *)
Lemma resolved_kept b v y : resolved (fun n => Some (b n)) v (Some y) -> y <> no_value.
Proof.
  intros H. remember (Some y) as r eqn:Er. assert (Hm := resolved_mut (fun n => Some (b n)) (fun _ r _ => r <> Some no_value) (fun _ _ _ => True)).
  intros ->. revert Er. apply Hm with (v := v); auto; try discriminate. intros d _ Hn [= E]. now subst.
Qed.
Section Pairs.
Variable sel : bool -> bool.
Variable mk : path -> option scenario -> string -> string -> rulematch.
Definition pair_set (table : list (string * list string)) (p : path) (so : option scenario * val) : res (list rulematch) :=
  do obj <- cleaned (snd so);
  Ok (flat_map (fun kv => match assoc (fst kv) table with
                          | Some l => flat_map (fun e => if sel (mem_assoc e obj) then [mk p (fst so) (fst kv) e] else []) l
                          | None => [] end) obj).
Definition related (names : list string) (k e : string) : Prop := In k names /\ (if sel true then In e names else ~ In e names).
Hypothesis Hsel : sel false = negb (sel true).
Lemma sel_iff e (d : list (string * val)) : sel (mem_assoc e d) = true <-> if sel true then In e (keys d) else ~ In e (keys d).
Proof.
  pose proof (mem_keys e d) as K. destruct (mem_assoc e d); [destruct (sel true) | rewrite Hsel; destruct (sel true)]; cbn [negb]; split; intros H; auto; try discriminate;
    try (now apply K); try (now destruct H; apply K); try (now apply K in H); intros H'; now apply K in H'.
Qed.
Lemma pair_set_in table p s d ms : pair_set table p (s, VDict d) = Ok ms ->
  forall m, In m ms <-> exists k e, lists table k e /\ related (keys (clean d)) k e /\ m = mk p s k e.
Proof.
  unfold pair_set. cbn [fst snd cleaned bind]. intros [= <-] m. rewrite in_flat_map. unfold lists, related. split.
  - intros [[k x] [Hk Hm]]. cbn [fst] in Hm. destruct (assoc k table) as [l|] eqn:El; [|destruct Hm]. apply in_flat_map in Hm as [e [He Hm]].
    destruct (sel (mem_assoc e (clean d))) eqn:Es; [|destruct Hm]. destruct Hm as [<-|[]]. exists k, e. split; [eauto|]. split; [|reflexivity]. split; [apply in_map_iff; now exists (k, x) | now apply sel_iff].
  - intros [k [e [[l [El He]] [[Hk Hs] ->]]]]. apply in_map_iff in Hk as [[k' x] [E Hk]]. cbn in E. subst k'. exists (k, x). split; [exact Hk|]. cbn [fst]. rewrite El.
    apply in_flat_map. exists e. split; [exact He|]. apply sel_iff in Hs. rewrite Hs. now left.
Qed.
Definition pair_check order c (v : val) table p := do sets <- get_object_without_conditions order c v []; concat_res (pair_set table p) sets.
Lemma pair_total order c v table p : (exists sets, get_object_without_conditions order c v [] = Ok sets /\ forall s o, In (s, o) sets -> exists d, o = VDict d) ->
  exists ms, pair_check order c v table p = Ok ms.
Proof.
  intros [sets [E H]]. unfold pair_check. rewrite E. cbn [bind]. apply concat_res_total. intros [s o] Hi. destruct (H s o Hi) as [d ->]. unfold pair_set. cbn [fst snd cleaned bind]. eauto.
Qed.
Lemma pair_in order c v table p ms sets : pair_check order c v table p = Ok ms -> get_object_without_conditions order c v [] = Ok sets ->
  (forall s o, In (s, o) sets -> exists d, o = VDict d) ->
  forall m, In m ms <-> exists s d k e, In (s, VDict d) sets /\ lists table k e /\ related (keys (clean d)) k e /\ m = mk p s k e.
Proof.
  intros E Es Hd m. unfold pair_check in E. rewrite Es in E. cbn [bind] in E. rewrite (concat_res_ok_iff _ _ _ E). split.
  - intros [[s o] [out [Hi [Eo Hm]]]]. destruct (Hd s o Hi) as [d ->]. apply (pair_set_in _ _ _ _ _ Eo) in Hm as [k [e [H1 [H2 ->]]]]. exists s, d, k, e. auto.
  - intros [s [d [k [e [Hi [H1 [H2 ->]]]]]]]. destruct (concat_res_each _ _ _ E _ Hi) as [out Eo]. exists (s, VDict d), out. split; [exact Hi|]. split; [exact Eo|].
    apply (pair_set_in _ _ _ _ _ Eo). eauto.
Qed.
Lemma pair_plain order c d d' table p : (forall l, Permutation (order l) l) ->
  plain_object d -> VDict d <> no_value -> (forall n, ~ members_look_at d n) -> pruned d d' ->
  exists ms, pair_check order c (VDict d) table p = Ok ms /\
    forall m, In m ms <-> exists k e, lists table k e /\ related (keys d') k e /\ m = mk p None k e.
Proof.
  intros Ho Hd Hn Hno Hpr. assert (E : get_object_without_conditions order c (VDict d) [] = Ok [(None, VDict d)]).
  { apply sets_plain; auto. intros n K. apply part_all in K. now apply (Hno n). }
  assert (Hdict : forall s o, In (s, o) [(@None scenario, VDict d)] -> exists d, o = VDict d) by (intros s o [[= _ <-]|[]]; eauto).
  destruct (pair_total order c (VDict d) table p) as [ms Em]; [eauto|]. exists ms. split; [exact Em|]. intros m. rewrite (pair_in _ _ _ _ _ _ _ Em E Hdict).
  apply clean_pruned in Hpr. subst d'. split.
  - intros [s [d0 [k [e [Hi H]]]]]. destruct Hi as [Hi|[]]. injection Hi as <- <-. eauto.
  - intros [k [e H]]. exists None, d, k, e. split; [now left | exact H].
Qed.
Lemma deployed_clean b d d' d'' : deployed b d d' -> (forall k, assoc k d'' = assoc k d') -> NoDup (keys d'') -> forall k, In k (keys (clean d'')) <-> In k (keys d').
Proof.
  intros Hd Ha Hn k. unfold clean. split.
  - intros H. apply in_map_iff in H as [[k' x] [E H]]. cbn in E. subst k'. apply filter_In in H as [H _]. apply (assoc_NoDup k x) in H; [|exact Hn]. rewrite Ha in H. apply assoc_In in H. apply in_map_iff. now exists (k, x).
  - intros H. apply mem_keys in H. unfold mem_assoc in H. destruct (assoc k d') as [x|] eqn:E; [|discriminate]. rewrite <- Ha in E. apply in_map_iff. exists (k, x). split; [reflexivity|].
    apply filter_In. split; [now apply assoc_In|]. cbn [snd]. rewrite Ha in E. apply assoc_In in E. apply negb_true_iff, is_novalue_false. intros ->.
    clear Ha. induction Hd as [|k0 x0 y0 d d' Hx Hd IH|k0 x0 d d' Hx Hd IH]; [destruct E | destruct E as [[= <- ->]|E]; [now apply resolved_kept in Hx | auto] | auto].
Qed.
Lemma members_NoDup decide d d' : resolved_members decide d d' -> NoDup (keys d) -> NoDup (keys d').
Proof.
  induction 1 as [|k x y d d' Hx Hd IH|k x d d' Hx Hd IH]; cbn [keys map fst]; intros Hn; [constructor | | inversion Hn; auto].
  inversion Hn; subst. constructor; [|now apply IH]. intros K. apply (resolved_members_keys _ _ _ Hd) in K. contradiction.
Qed.
Lemma set_NoDup order c d out s d'' : plain_object d -> get_object_without_conditions order c (VDict d) [] = Ok out -> In (s, VDict d'') out -> NoDup (keys d'').
Proof.
  intros [Hk [Hif Hpl]] E Hi. destruct (c18_only order c d [] out s (VDict d'') Hk Hif Hpl E Hi) as [[_ [= ->]]|[sc [d0 [_ [Hr [= ->]]]]]]; [exact Hk | now apply (members_NoDup _ _ _ Hr)].
Qed.
Lemma sets_objects order c d out : plain_object d -> get_object_without_conditions order c (VDict d) [] = Ok out -> forall s o, In (s, o) out -> exists d, o = VDict d.
Proof.
  intros [Hk [Hif Hpl]] E s o Hi. destruct (c18_only order c d [] out s o Hk Hif Hpl E Hi) as [[_ ->]|[sc [d0 [_ [_ ->]]]]]; eauto.
Qed.
Lemma related_ext names names' k e : (forall x, In x names <-> In x names') -> related names k e -> related names' k e.
Proof. intros H [H1 H2]. split; [now apply H|]. destruct (sel true); [now apply H | intros K; apply H2, H, K]. Qed.

Lemma pair_found hash order template defs parameters fuel w b d names table p d' k e ms :
  (forall v, digest (hash v)) -> (forall l, Permutation (order l) l) ->
  section_of "Conditions" template defs -> section_of "Parameters" template parameters ->
  plain_object d -> NoDup names -> names <> [] -> (forall n, In n names <-> members_look_at d n) ->
  (forall n, In n names -> mem_assoc n (cs_conditions (load hash fuel template)) = true) ->
  (List.length names <= 4 \/ some_related defs names) ->
  deployment hash parameters w -> gives defs w names b ->
  deployed b d d' -> lists table k e -> related (keys d') k e ->
  pair_check order (load hash fuel template) (VDict d) table p = Ok ms ->
  exists sc, Permutation sc (scenario_of names b) /\ In (mk p (Some sc) k e) ms.
Proof.
  intros Hh Ho Hc Hp Hd Hnd Hne Hn Hl Hs Hw Hgv Hdep Ht Hr E.
  destruct (sets_found hash order template defs parameters fuel w b d [] names) as [out [Eo Hout]]; auto.
  { intros n. rewrite Hn. symmetry. apply part_all. }
  assert (Hd' : d' <> []) by (intros ->; destruct Hr as [[] _]).
  destruct (Hout d' Hdep Hd') as [sc [d'' [Hi [Hperm Hag]]]]. exists sc. split; [exact Hperm|].
  apply (pair_in _ _ _ _ _ _ _ E Eo (sets_objects _ _ _ _ Hd Eo)). exists (Some sc), d'', k, e. split; [exact Hi|]. split; [exact Ht|]. split; [|reflexivity].
  apply (related_ext (keys d')); [|exact Hr]. intros x. symmetry. apply (deployed_clean b d); [exact Hdep | intros k'; apply Hag; now left | now apply (set_NoDup _ _ _ _ _ _ Hd Eo Hi)].
Qed.
Lemma pair_real hash order template defs parameters d names table p w0 b0 :
  (forall v, digest (hash v)) -> (forall l, Permutation (order l) l) ->
  section_of "Conditions" template defs -> section_of "Parameters" template parameters ->
  NoDup (keys defs) -> (forall n v, In (n, v) defs -> well_formed defs v) ->
  NoDup (keys parameters) -> (forall n p, In (n, p) parameters -> plain_parameter p) -> told_apart hash parameters ->
  plain_object d -> NoDup names -> names <> [] -> (forall n, In n names <-> members_look_at d n) -> (forall n, In n names -> In n (keys defs)) ->
  (List.length names <= 4 \/ some_related defs names) -> deployment hash parameters w0 -> gives defs w0 names b0 ->
  exists limit, forall fuel, limit <= fuel ->
  exists ms, pair_check order (load hash fuel template) (VDict d) table p = Ok ms /\
    forall m, In m ms -> exists sc b k e, Permutation sc (scenario_of names b) /\ lists table k e /\
      (forall d', deployed b d d' -> related (keys d') k e) /\ m = mk p (Some sc) k e /\
      ((some_related defs names \/ forall n, In n names -> exists w, deployment hash parameters w /\ gives defs w [n] b) ->
       exists w, deployment hash parameters w /\ gives defs w names b).
Proof.
  intros Hh Ho Hc Hp Hcn Hcw Hpn Hpp Hta Hd Hnd Hne Hn Hdef Hsz Hw0 Hg0.
  destruct (sets_real hash order template defs parameters d [] names w0 b0) as [limit H]; auto.
  { intros n. rewrite Hn. symmetry. apply part_all. }
  exists limit. intros fuel Hf. destruct (H fuel Hf) as [out [Eo Hout]]. pose proof (sets_objects _ _ _ _ Hd Eo) as Hob.
  destruct (pair_total order (load hash fuel template) (VDict d) table p) as [ms E]; [eauto|]. exists ms. split; [exact E|].
  intros m Hm. apply (pair_in _ _ _ _ _ _ _ E Eo Hob) in Hm as [s [d'' [k [e [Hi [Ht [Hr ->]]]]]]].
  destruct (Hout s _ Hi) as [sc [b [d2 [-> [H1 [[= <-] [H2 H3]]]]]]]. exists sc, b, k, e. split; [exact H1|]. split; [exact Ht|]. split; [|auto].
  intros d' Hd'. apply (related_ext (keys (clean d''))); [|exact Hr]. intros x. apply (deployed_clean b d); [exact Hd' | intros k'; apply H2; auto; now left | now apply (set_NoDup _ _ _ _ _ _ Hd Eo Hi)].
Qed.
End Pairs.

Lemma exclusive_pairs order c v table p : exclusive_check order c v table p = pair_check (fun b => b) exclusive_match order c v table p.
Proof. reflexivity. Qed.
Lemma inclusive_pairs order c d table p : d <> [] -> inclusive_check order c (VDict d) table p = pair_check negb inclusive_match order c (VDict d) table p.
Proof.
  intros Hd. unfold inclusive_check. destruct d as [|kv d]; [congruence|]. cbn [truthy]. unfold pair_check. destruct (get_object_without_conditions order c (VDict (kv :: d)) []) as [sets|]; cbn [bind]; [|reflexivity].
  apply concat_res_ext. intros [s o] _. unfold inclusive_set, pair_set. cbn [fst snd]. destruct (cleaned o) as [obj|]; cbn [bind]; [|reflexivity]. f_equal. apply flat_map_ext. intros [k x]. cbn [fst].
  destruct (assoc k table) as [l|]; [|reflexivity]. apply flat_map_ext. intros e. now destruct (mem_assoc e obj).
Qed.
