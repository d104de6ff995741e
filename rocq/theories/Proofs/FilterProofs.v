(** C74: subscription filters. *)
From Coq Require Import List QArith Lia Permutation.
From Verif.Model Require Import Base Locate Helpers Node Search Rules JsonDump PropertyRules Lambda.
From Verif.Spec Require Import Paths Branches References SameJson Required Walk Values Events Lambda.
From Verif.Proofs Require Import BaseFacts SearchProofs DumpProofs ConditionUseProofs PropertyRuleProofs MatchRun PermissionProofs TargetProofs.
Import Verif.Model.Rules.
Import ListNotations.
Local Open Scope string_scope.

Section Filters.
Variable float_text : Q -> string.
Hypothesis Hft : float_texts float_text.
Lemma small_dumps v : small v -> dumps_as_is float_text v = dumps float_text v.
Proof.
  intros H. induction H as [| | | | |l Hl IH| |k x Hx IH]; try reflexivity.
  - cbn [dumps_as_is dumps]. do 3 f_equal. apply map_ext_in. exact IH.
  - cbn [dumps_as_is dumps map fst snd sort_members fold_right insert_member]. now rewrite IH.
Qed.
(** The groups made of the filters [l]. *)
Definition grouped (l : list (string * val)) (groups : list (string * list string)) : Prop :=
  NoDup (keys groups) /\ forall k ns, In (k, ns) groups <-> ns <> [] /\ ns = map fst (filter (fun ng => String.eqb (dumps_as_is float_text (snd ng)) k) l).
Lemma add_to_keys k n groups : forall k', In k' (keys (add_to k n groups)) <-> k' = k \/ In k' (keys groups).
Proof.
  induction groups as [|[k0 l] r IH]; intros k'; [cbn; intuition|]. cbn [add_to]. destruct (String.eqb_spec k k0) as [<-|Hn]; cbn [keys map fst In] in *; [intuition|]. fold (keys (add_to k n r)). rewrite IH. unfold keys. tauto.
Qed.
Lemma add_to_NoDup k n groups : NoDup (keys groups) -> NoDup (keys (add_to k n groups)).
Proof.
  induction groups as [|[k0 l] r IH]; intros H; cbn [add_to]; [repeat constructor; intros []|]. inversion H as [|? ? H1 H2]; subst. destruct (String.eqb_spec k k0) as [<-|Hn]; [exact H|].
  constructor; [|now apply IH]. fold (keys (add_to k n r)). rewrite add_to_keys. intros [E|K]; [cbn in E; congruence | auto].
Qed.
Lemma add_to_in k n groups k' ns : NoDup (keys groups) -> In (k', ns) (add_to k n groups) <->
  (k' <> k /\ In (k', ns) groups) \/ (k' = k /\ exists l, ns = (l ++ [n])%list /\ (In (k, l) groups \/ (l = [] /\ ~ In k (keys groups)))).
Proof.
  induction groups as [|[k0 l] r IH]; intros H; cbn [add_to].
  - split; [intros [[= <- <-]|[]]; right; split; [reflexivity|]; exists []; auto | intros [[_ []]|[-> [l [-> [[]|[-> _]]]]]]; now left].
  - inversion H as [|? ? H1 H2]; subst. destruct (String.eqb_spec k k0) as [<-|Hn].
    + split.
      * intros [[= <- <-]|K]; [right; split; [reflexivity|]; exists l; split; [reflexivity|]; left; now left|].
        left. split; [intros ->; apply H1; apply (in_map fst) in K; exact K | now right].
      * intros [[Hk [[= -> ->]|K]]|[-> [l' [-> [[[= ->]|K]|[-> K]]]]]]; [now elim Hk | now right | now left | elim H1; apply (in_map fst) in K; exact K | elim K; now left].
    + cbn [In]. rewrite (IH H2). split.
      * intros [[= <- <-]|[[Hk K]|[-> [l' [-> [K|[-> K]]]]]]].
        -- left. split; [congruence | now left].
        -- left. split; [exact Hk | now right].
        -- right. split; [reflexivity|]. exists l'. split; [reflexivity|]. left. now right.
        -- right. split; [reflexivity|]. exists []. split; [reflexivity|]. right. split; [reflexivity|]. cbn [keys map fst]. intros [->|K']; auto.
      * intros [[Hk [[= -> ->]|K]]|[-> [l' [-> [[[= -> ->]|K]|[-> K]]]]]].
        -- now left.
        -- right. left. auto.
        -- congruence.
        -- right. right. split; [reflexivity|]. exists l'. auto.
        -- right. right. split; [reflexivity|]. exists []. split; [reflexivity|]. right. split; [reflexivity|]. intros K'. apply K. now right.
Qed.
Lemma grouped_nil : grouped [] [].
Proof. split; [constructor|]. intros k ns. split; [intros [] | intros [H ->]; now elim H]. Qed.
Lemma grouped_add l groups n g : grouped l groups -> grouped (l ++ [(n, g)])%list (add_to (dumps_as_is float_text g) n groups).
Proof.
  intros [Hnd Hin]. split; [now apply add_to_NoDup|]. intros k ns. rewrite (add_to_in _ _ _ _ _ Hnd), filter_app, map_app. cbn [filter snd].
  destruct (String.eqb_spec (dumps_as_is float_text g) k) as [<-|Hk]; cbn [map fst].
  - split.
    + intros [[H _]|[_ [l' [-> [H|[-> H]]]]]]; [now elim H | | ]; (split; [intros K; apply (f_equal (@List.length string)) in K; rewrite app_length in K; cbn in K; lia|]).
      * apply Hin in H as [_ ->]. reflexivity.
      * destruct (map fst (filter (fun ng => String.eqb (dumps_as_is float_text (snd ng)) (dumps_as_is float_text g)) l)) as [|y ys] eqn:E; [reflexivity|].
        exfalso. apply H. apply (in_map fst _ (dumps_as_is float_text g, y :: ys)). apply Hin. split; [discriminate | now symmetry].
    + intros [_ ->]. right. split; [reflexivity|]. exists (map fst (filter (fun ng => String.eqb (dumps_as_is float_text (snd ng)) (dumps_as_is float_text g)) l)). split; [reflexivity|].
      destruct (map fst (filter (fun ng => String.eqb (dumps_as_is float_text (snd ng)) (dumps_as_is float_text g)) l)) as [|y ys] eqn:E.
      * right. split; [reflexivity|]. intros K. apply in_map_iff in K as [[k' ns'] [Ek K]]. cbn [fst] in Ek. subst k'. apply Hin in K as [K1 K2]. congruence.
      * left. apply Hin. split; [discriminate | now symmetry].
  - rewrite app_nil_r. split.
    + intros [[_ H]|[-> _]]; [now apply Hin | now elim Hk].
    + intros H. left. split; [congruence | now apply Hin].
Qed.
Lemma log_groups_spec fs l : Forall2 (fun nr ng => fst nr = fst ng /\ exists attrs, snd nr = VDict attrs /\ group_of attrs (snd ng)) fs l ->
  forall before groups, grouped before groups -> exists groups', log_groups float_text fs groups = Ok groups' /\ grouped (before ++ l)%list groups'.
Proof.
  induction 1 as [|[n r] [n' g] fs l [E [attrs [Er [pd [Hp Hg]]]]] H IH]; intros before groups Hb.
  - exists groups. split; [reflexivity|]. now rewrite app_nil_r.
  - cbn [fst snd] in *. subst n' r. cbn [log_groups vget bind]. rewrite Hp. cbn [vget bind].
    assert (Hv : match assoc "LogGroupName" pd with Some x => x | None => VNull end = g) by (destruct Hg as [->|[-> ->]]; reflexivity). rewrite Hv.
    destruct (IH (before ++ [(n, g)])%list (add_to (dumps_as_is float_text g) n groups) (grouped_add _ _ _ _ Hb)) as [gs [E1 E2]]. exists gs. split; [exact E1|]. now rewrite <- app_assoc in E2.
Qed.
Lemma only_filter {A} (P : A -> Prop) (b : A -> bool) l : (forall x, In x l -> b x = true <-> P x) -> only P l (filter b l).
Proof.
  induction l as [|x l IH]; intros H; [constructor|]. cbn [filter]. pose proof (H x (or_introl eq_refl)) as Hx. destruct (b x).
  - apply on_take; [now apply Hx | apply IH; intros y Hy; apply H; now right].
  - apply on_skip; [intros K; apply Hx in K; discriminate K | apply IH; intros y Hy; apply H; now right].
Qed.
Lemma filter_third {A} (b : A -> bool) l x : nth_error (filter b l) 2 = Some x <-> exists before after y z, l = (before ++ x :: after)%list /\ b x = true /\ filter b before = [y; z].
Proof.
  assert (G : forall n l x, nth_error (filter b l) n = Some x <-> exists before after, l = (before ++ x :: after)%list /\ b x = true /\ List.length (filter b before) = n).
  { clear. intros n l. revert n. induction l as [|a l IH]; intros n x.
    - split; [destruct n; discriminate | intros [[|? ?] [after [E _]]]; discriminate E].
    - cbn [filter]. destruct (b a) eqn:Ea.
      + destruct n as [|n]; cbn [nth_error].
        * split; [intros [= <-]; exists [], l; auto|]. intros [[|a' before] [after [[= <- ->] [Hx Hn]]]]; [reflexivity|]. cbn [filter] in Hn. rewrite Ea in Hn. discriminate Hn.
        * rewrite IH. split.
          -- intros [before [after [-> [Hx Hn]]]]. exists (a :: before), after. split; [reflexivity|]. split; [exact Hx|]. cbn [filter]. rewrite Ea. cbn. now f_equal.
          -- intros [[|a' before] [after [[= <- ->] [Hx Hn]]]]; [discriminate Hn|]. cbn [filter] in Hn. rewrite Ea in Hn. injection Hn as Hn. exists before, after. auto.
      + rewrite IH. split.
        * intros [before [after [-> [Hx Hn]]]]. exists (a :: before), after. split; [reflexivity|]. split; [exact Hx|]. cbn [filter]. now rewrite Ea.
        * intros [[|a' before] [after [[= <- ->] [Hx Hn]]]]; [congruence|]. cbn [filter] in Hn. rewrite Ea in Hn. exists before, after. auto. }
  rewrite G. split.
  - intros [before [after [-> [Hx Hn]]]]. exists before, after. destruct (filter b before) as [|y [|z [|? ?]]]; try discriminate Hn. exists y, z. auto.
  - intros [before [after [y [z [-> [Hx Hf]]]]]]. exists before, after. rewrite Hf. auto.
Qed.
Definition filter_words : string := "You can only have 2 Subscription Filters per CloudWatch Log Group".
Lemma c74_filters t l : wf t -> filters t l -> (forall n g, In (n, g) l -> small g) ->
  exists ms, filters_match float_text t = Ok ms /\ forall m, In m ms <-> exists n, third l n /\ m = mkRM [PKey "Resources"; PKey n] filter_words.
Proof.
  intros Hw [top [rs [fs [-> [Ers [Hfs Hl]]]]]] Hsm. unfold filters_match.
  assert (Hfs' : filters_of (VDict top) = fs).
  { unfold filters_of, get_resources. cbn [vget_def]. rewrite Ers. clear - Hfs. induction Hfs as [|[n r] rs fs [attrs [E Ht]] H IH|[n r] rs fs Hn H IH]; [reflexivity | |].
    - cbn [snd] in E. subst r. cbn [filter snd]. rewrite Ht. cbn [filter dict_of snd]. rewrite Ht. cbn [eq_str]. change (String.eqb "AWS::Logs::SubscriptionFilter" "AWS::Logs::SubscriptionFilter") with true. cbv iota. f_equal. exact IH.
    - cbn [filter snd]. destruct r as [| | | | | |attrs]; try exact IH. destruct (assoc "Type" attrs) as [ty|] eqn:Et; [|exact IH]. destruct (is_null ty) eqn:Enull; [destruct ty; try discriminate Enull; exact IH|].
      replace (match ty with VNull => false | _ => true end) with true by (destruct ty; [discriminate Enull | | | | | |]; reflexivity). cbn [filter dict_of snd]. rewrite Et.
      destruct (eq_str "AWS::Logs::SubscriptionFilter" ty) eqn:Eq; [|exact IH]. apply eq_str_iff in Eq. subst ty. exfalso. apply Hn. now exists attrs. }
  rewrite Hfs'. destruct (log_groups_spec fs l Hl [] [] grouped_nil) as [gs [E [_ Hin]]]. rewrite E. cbn [bind app] in *. exists (flat_map group_match gs). split; [reflexivity|]. intros m. rewrite in_flat_map.
  assert (Hwl : forall n g, In (n, g) l -> wf g).
  { intros n g Hi. assert (Hrs : wf (VDict rs)) by (apply wf_dict in Hw as [_ Hw]; apply assoc_In in Ers; exact (Hw _ _ Ers)).
    assert (Hof : exists attrs, In (n, VDict attrs) fs /\ group_of attrs g).
    { clear - Hl Hi. induction Hl as [|[n1 r1] [n2 g2] fs l [E1 [attrs [E2 Hg]]] H IH]; [destruct Hi|]. cbn [fst snd] in *. subst. destruct Hi as [[= -> ->]|Hi]; [exists attrs; split; [now left | exact Hg]|]. destruct (IH Hi) as [a [Ha Hga]]. exists a. split; [now right | exact Hga]. }
    destruct Hof as [attrs [Ha [pd [Hp Hg]]]]. assert (Har : In (n, VDict attrs) rs).
    { clear - Hfs Ha. induction Hfs as [|x l l' Hx H IH|x l l' Hx H IH]; [destruct Ha | destruct Ha as [->|Ha]; [now left | right; auto] | right; auto]. }
    apply wf_dict in Hrs as [_ Hrs]. apply Hrs in Har. apply wf_dict in Har as [_ Har]. apply assoc_In in Hp. apply Har in Hp. apply wf_dict in Hp as [_ Hp]. destruct Hg as [Hg|[_ ->]]; [apply assoc_In in Hg; exact (Hp _ _ Hg) | constructor]. }
  assert (Hsame : forall n g n' g', In (n, g) l -> In (n', g') l -> (String.eqb (dumps_as_is float_text g) (dumps_as_is float_text g') = true <-> same_json g g')).
  { intros n g n' g' Hi Hi'. rewrite (small_dumps g (Hsm _ _ Hi)), (small_dumps g' (Hsm _ _ Hi')), String.eqb_eq. split.
    - apply dumps_told; eauto.
    - apply same_dumps; eauto. }
  split.
  - intros [[k ns] [Hk Hm]]. apply Hin in Hk as [_ ->]. unfold group_match in Hm. cbn [snd] in Hm. destruct (Nat.ltb filter_limit _); [|destruct Hm].
    rewrite nth_error_map in Hm. destruct (nth_error (filter (fun ng => String.eqb (dumps_as_is float_text (snd ng)) k) l) 2) as [[n g]|] eqn:En; [|destruct Hm]. destruct Hm as [<-|[]]. cbn [option_map fst].
    apply filter_third in En as [before [after [y [z [El [Hg Hb]]]]]]. exists n. split; [|reflexivity]. exists before, g, after, y, z. split; [exact El|]. rewrite <- Hb. cbn [snd] in Hg. apply String.eqb_eq in Hg. subst k. apply only_filter.
    intros [n' g'] Hi. cbn [snd]. apply (Hsame n' g' n g); rewrite El; apply in_or_app; [now left | right; now left].
  - intros [n [[before [g [after [y [z [El Ho]]]]]] ->]]. set (k := dumps_as_is float_text g). set (b := fun ng : string * val => String.eqb (dumps_as_is float_text (snd ng)) k).
    assert (Hb : filter b before = [y; z]).
    { apply (only_unique (fun ng => same_json (snd ng) g) before); [|exact Ho]. apply only_filter. intros [n' g'] Hi. unfold b, k. cbn [snd]. apply (Hsame n' g' n g); rewrite El; apply in_or_app; [now left | right; now left]. }
    assert (Hn : nth_error (filter b l) 2 = Some (n, g)) by (apply filter_third; exists before, after, y, z; split; [exact El|]; split; [apply String.eqb_refl | exact Hb]).
    exists (k, map fst (filter b l)). split; [apply Hin; split; [|reflexivity]; intros K; apply map_eq_nil in K; rewrite K in Hn; discriminate Hn|].
    unfold group_match. cbn [snd]. rewrite nth_error_map, Hn. cbn [option_map fst]. assert (Hlen : Nat.ltb filter_limit (List.length (map fst (filter b l))) = true).
    { apply PeanoNat.Nat.ltb_lt. unfold filter_limit. rewrite map_length. apply nth_error_Some. rewrite Hn. discriminate. }
    rewrite Hlen. now left.
Qed.
Lemma third_at t l n : wf t -> filters t l -> third l n -> exists x, at_path [PKey "Resources"; PKey n] t = Some x.
Proof.
  intros Hw [top [rs [fs [-> [Ers [Hfs Hl]]]]]] [before [g [after [y [z [El _]]]]]]. cbn [at_path]. rewrite Ers. cbn [at_path].
  assert (Hi : In (n, g) l) by (rewrite El; apply in_or_app; right; now left).
  assert (Hof : exists r, In (n, r) fs).
  { clear - Hl Hi. induction Hl as [|[n1 r1] [n2 g2] fs l [E1 _] H IH]; [destruct Hi|]. cbn [fst] in E1. subst. destruct Hi as [[= -> ->]|Hi]; [exists r1; now left|]. destruct (IH Hi) as [r Hr]. exists r. now right. }
  destruct Hof as [r Hr]. assert (Har : In (n, r) rs).
  { clear - Hfs Hr. induction Hfs as [|x l l' Hx H IH|x l l' Hx H IH]; [destruct Hr | destruct Hr as [->|Hr]; [now left | right; auto] | right; auto]. }
  apply wf_dict in Hw as [_ Hw]. apply assoc_In in Ers. apply Hw in Ers. apply wf_dict in Ers as [Hk _]. apply (assoc_NoDup n r rs Hk) in Har. rewrite Har. eauto.
Qed.
Lemma c74_filters_run sp k c raw m0 d0 l n :
  snd (coll_run sp k c) = Ok raw -> In (filters_rule float_text) (k_all k) -> enabled (k_set k) (filters_rule float_text) = true ->
  wf (template c) -> c_tmpl c = MDict m0 d0 -> filters (template c) l -> (forall n g, In (n, g) l -> small g) -> third l n ->
  exists f, locate_match c "E2529" (mkRM [PKey "Resources"; PKey n] filter_words) = Ok f /\ In f raw.
Proof.
  intros Hrun Hr He Hw Hc Hf Hs Ht. destruct (c74_filters (template c) l Hw Hf Hs) as [ms [Hms Hin]].
  apply (reported_match_at sp k c raw (filters_rule float_text) _ ms (mkRM [PKey "Resources"; PKey n] filter_words) m0 d0 Hrun Hr He eq_refl Hc Hms).
  - intros m Hm. destruct (proj1 (Hin m) Hm) as [n' [Hn' ->]]. split; [discriminate|]. exact (third_at (template c) l n' Hw Hf Hn').
  - apply Hin. eauto.
Qed.
End Filters.
