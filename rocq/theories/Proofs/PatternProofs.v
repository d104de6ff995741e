(** C34: override specifications. *)
From Coq Require Import Lia.
From Verif.Model Require Import Base Helpers.
From Verif.Spec Require Import Patterns Paths Options.
From Verif.Proofs Require Import BaseFacts OptionProofs SearchProofs.

Lemma wild_star p s : wild_match (String "*" p) s = true <-> exists t r, s = (t ++ r)%string /\ wild_match p r = true.
Proof.
  cbn [wild_match]. change (char_eqb "*" "*") with true. cbv iota.
  induction s as [|a s IH].
  - rewrite orb_false_r. split.
    + intros H. exists "", "". auto.
    + intros [t [r [E H]]]. destruct t; [|discriminate]. cbn in E. now subst.
  - rewrite orb_true_iff, IH. split.
    + intros [H|[t [r [-> H]]]]; [exists "", (String a s); auto | exists (String a t), r; auto].
    + intros [t [r [E H]]]. destruct t as [|b t]; cbn in E.
      * left. now rewrite E.
      * injection E as <- ->. right. eauto.
Qed.
Lemma wild_fits p : forall s, wild_match p s = true <-> fits p s.
Proof.
  induction p as [|c p IH]; intros s.
  - cbn. destruct s; split; try discriminate; try constructor. inversion 1.
  - destruct (Ascii.eqb_spec c "*") as [->|Hc].
    + rewrite wild_star. split.
      * intros [t [r [-> H]]]. constructor. now apply IH.
      * inversion 1; subst; [congruence|]. exists t, s0. split; [reflexivity | now apply IH].
    + cbn [wild_match]. unfold char_eqb. apply Ascii.eqb_neq in Hc as Hc'. rewrite Hc'. destruct s as [|a s].
      * split; [discriminate|]. inversion 1; subst. congruence.
      * rewrite andb_true_iff, IH, Ascii.eqb_eq. split.
        -- intros [-> H]. now constructor.
        -- inversion 1; subst; [auto | congruence].
Qed.

Lemma in_remove_other x y l : x <> y -> (In x (remove_first y l) <-> In x l).
Proof.
  intros Hn. induction l as [|z l IH]; [reflexivity|]. cbn. destruct (String.eqb_spec y z) as [->|].
  - intuition congruence.
  - cbn. rewrite IH. reflexivity.
Qed.
(** Removing every occurrence listed. *)
Lemma count_remove x y l : count_occ string_dec (remove_first y l) x =
  count_occ string_dec l x - (if string_dec y x then 1 else 0).
Proof.
  induction l as [|z l IH]; [reflexivity|]. cbn [remove_first]. destruct (String.eqb_spec y z) as [->|Hz].
  - cbn [count_occ]. destruct (string_dec z x); lia.
  - cbn [count_occ]. rewrite IH. destruct (string_dec z x), (string_dec y x); subst; try congruence; lia.
Qed.
Lemma count_fold_remove x ms : forall l, count_occ string_dec (fold_left (fun rs m => remove_first m rs) ms l) x =
  count_occ string_dec l x - count_occ string_dec ms x.
Proof.
  induction ms as [|m ms IH]; intros l; cbn [fold_left count_occ]; [lia|]. rewrite IH, count_remove.
  destruct (string_dec m x); lia.
Qed.
Lemma count_filter f x l : count_occ string_dec (filter f l) x = if f x then count_occ string_dec l x else 0.
Proof.
  induction l as [|z l IH]; cbn [filter count_occ]; [now destruct (f x)|].
  destruct (string_dec z x) as [->|Hn].
  - destruct (f x) eqn:E; cbn [count_occ]; [|exact IH]. destruct (string_dec x x); [now rewrite IH | congruence].
  - destruct (f z); cbn [count_occ]; [|exact IH]. destruct (string_dec z x); [congruence | exact IH].
Qed.
Lemma in_exclude_one e l x :
  In x (fold_left (fun rs m => remove_first m rs) (filter (wild_match e) l) l) <-> In x l /\ ~ fits e x.
Proof.
  rewrite !(count_occ_In string_dec), count_fold_remove, count_filter, <- wild_fits.
  destruct (wild_match e x) eqn:E; [intuition lia|]. split; [intros; split; [lia | discriminate] | intros; lia].
Qed.
Lemma in_exclude es : forall l x, In x (spec_exclude es l) <-> In x l /\ forall e, In e es -> ~ fits e x.
Proof.
  induction es as [|e es IH]; intros l x; cbn [spec_exclude].
  - split; [intros H; split; [exact H | intros e []] | tauto].
  - rewrite IH, in_exclude_one. split.
    + intros [[H1 H2] H3]. split; [exact H1|]. intros e' [<-|H]; auto.
    + intros [H1 H2]. repeat split; auto; intros; apply H2; [now left | now right].
Qed.
Lemma in_included inc l x : In x (spec_included inc l) <-> In x l /\ (inc = [] \/ exists i, In i inc /\ fits i x).
Proof.
  unfold spec_included. destruct inc as [|i inc]; [intuition|].
  rewrite in_flat_map. split.
  - intros [j [H1 H2]]. apply filter_In in H2 as [H2 H3]. split; [exact H2|]. right. exists j. split; [exact H1 | now apply wild_fits].
  - intros [H1 [H2|[j [H2 H3]]]]; [discriminate|]. exists j. split; [exact H2|]. apply filter_In. split; [exact H1 | now apply wild_fits].
Qed.
Lemma c34_selected inc exc all x :
  In x (spec_selected inc exc all) <-> In x all /\ available inc exc x.
Proof.
  unfold spec_selected, available. rewrite filter_In, smem_iff, in_exclude, in_included. intuition.
Qed.

(** * merge_spec *)
Fixpoint merge_members (src : list (string * val)) (dst : val) : res val :=
  match src with
  | [] => Ok dst
  | (key, value) :: rest =>
      match dst with
      | VDict d =>
          match value with
          | VDict _ =>
              let node := match assoc key d with Some n => n | None => VDict [] end in
              do node' <- merge_spec value node;
              merge_members rest (VDict (set_assoc key node' d))
          | _ => merge_members rest (VDict (set_assoc key value d))
          end
      | _ => match value with VDict _ => Err EAttribute | _ => Err ETypeErr end
      end
  end.
Lemma merge_spec_members src dst : merge_spec (VDict src) dst = merge_members src dst.
Proof.
  reflexivity.
Qed.
Lemma merge_members_spec src : forall d m, NoDup (map fst src) -> merge_members src (VDict d) = Ok m ->
  exists m', m = VDict m' /\ forall k,
    match assoc k src with
    | None => assoc k m' = assoc k d
    | Some (VDict sv) => exists r, merge_spec (VDict sv) (match assoc k d with Some n => n | None => VDict [] end) = Ok r /\
                                   assoc k m' = Some r
    | Some v => assoc k m' = Some v
    end.
Proof.
  induction src as [|[k v] src IH]; intros d m Hn H; cbn [merge_members] in H.
  - injection H as <-. exists d. split; reflexivity.
  - inversion Hn as [|? ? Hk Hn']; subst. apply assoc_None in Hk.
    assert (Hgen : forall w, merge_members src (VDict (set_assoc k w d)) = Ok m ->
       exists m', m = VDict m' /\ assoc k m' = Some w /\ forall k', k' <> k ->
    match assoc k' src with
    | None => assoc k' m' = assoc k' d
    | Some (VDict sv) => exists r, merge_spec (VDict sv) (match assoc k' d with Some n => n | None => VDict [] end) = Ok r /\
                                   assoc k' m' = Some r
    | Some v => assoc k' m' = Some v
    end).
    { intros w Hw. destruct (IH _ _ Hn' Hw) as [m' [-> Hm]]. exists m'. split; [reflexivity|]. split.
      - specialize (Hm k). rewrite Hk in Hm. now rewrite assoc_set_same in Hm.
      - intros k' Hne. specialize (Hm k'). rewrite assoc_set_other in Hm by exact Hne. exact Hm. }
    destruct v as [| | | | | |sv];
      try (destruct (Hgen _ H) as [m' [-> [H1 H2]]]; exists m'; split; [reflexivity|]; intros k'; cbn [assoc];
           destruct (String.eqb_spec k' k) as [->|Hne]; [exact H1 | now apply H2]).
    destruct (merge_spec (VDict sv) (match assoc k d with Some n => n | None => VDict [] end)) as [r|] eqn:E;
      cbn [bind] in H; [|discriminate].
    destruct (Hgen _ H) as [m' [-> [H1 H2]]]. exists m'. split; [reflexivity|]. intros k'. cbn [assoc].
    destruct (String.eqb_spec k' k) as [->|Hne]; [exists r; auto | now apply H2].
Qed.

Lemma merge_step_spec s d m k : wf (VDict s) -> merge_spec (VDict s) (VDict d) = Ok m ->
  exists m', m = VDict m' /\
    match assoc k s with
    | None => assoc k m' = assoc k d
    | Some (VDict sv) => exists r, merge_spec (VDict sv) (match assoc k d with Some n => n | None => VDict [] end) = Ok r /\
                                   assoc k m' = Some r
    | Some v => assoc k m' = Some v
    end.
Proof.
  intros Hw H. rewrite merge_spec_members in H. apply wf_dict in Hw as [Hn _].
  destruct (merge_members_spec s d m Hn H) as [m' [-> Hm]]. exists m'. split; [reflexivity | apply Hm].
Qed.
Lemma wf_assoc s k v : wf (VDict s) -> assoc k s = Some v -> wf v.
Proof. intros Hw H. apply wf_dict in Hw as [_ Hw]. eapply Hw, assoc_In, H. Qed.

Lemma merge_into_leaf s v m : merge_spec (VDict s) v = Ok m -> (exists d, v = VDict d) \/ (s = [] /\ m = v).
Proof.
  rewrite merge_spec_members. destruct s as [|[k x] s]; cbn [merge_members].
  - intros [= <-]. right. now auto.
  - destruct v; try (destruct x; discriminate). left. eauto.
Qed.

Lemma c34_override ks : forall s d m v, wf (VDict s) -> merge_spec (VDict s) (VDict d) = Ok m ->
  at_keys ks (VDict s) = Some v -> is_leaf v -> at_keys ks m = Some v.
Proof.
  induction ks as [|k ks IH]; intros s d m v Hw Hm H Hl; [cbn in H; injection H as <-; now destruct (Hl s)|].
  destruct (merge_step_spec s d m k Hw Hm) as [m' [-> Hk]]. cbn [at_keys] in *.
  destruct (assoc k s) as [sv|] eqn:Es; [|discriminate].
  destruct sv as [| | | | | |sd]; try (rewrite Hk; destruct ks; [exact H | discriminate]).
  destruct Hk as [r [Hr Hk]]. rewrite Hk. apply merge_into_leaf in Hr as Hc. destruct Hc as [[d' Hd]|[-> ->]].
  - rewrite Hd in Hr. exact (IH sd d' r v (wf_assoc _ _ _ Hw Es) Hr H Hl).
  - destruct ks; cbn in H; [injection H as <-; now destruct (Hl [])|discriminate].
Qed.
Lemma c34_original ks : forall s d m v, wf (VDict s) -> merge_spec (VDict s) (VDict d) = Ok m ->
  at_keys ks (VDict d) = Some v -> ~ cut_off ks (VDict s) ->
  exists w, at_keys ks m = Some w /\ (at_keys ks (VDict s) = None -> w = v).
Proof.
  induction ks as [|k ks IH]; intros s d m v Hw Hm H Hc.
  - cbn [at_keys] in *. eexists. split; [reflexivity|]. discriminate.
  - destruct (merge_step_spec s d m k Hw Hm) as [m' [-> Hk]]. cbn [at_keys] in *.
    destruct (assoc k d) as [dv|] eqn:Ed; [|discriminate].
    destruct (assoc k s) as [sv|] eqn:Es.
    + assert (Hsd : exists sd, sv = VDict sd).
      { destruct sv as [| | | | | |b]; try (exfalso; apply Hc; exists [k], ks; eexists; split; [reflexivity|];
          split; [cbn [at_keys]; rewrite Es; reflexivity | intros d'; discriminate]). now exists b. }
      destruct Hsd as [sd ->]. destruct Hk as [r [Hr Hk]]. rewrite Hk.
      apply merge_into_leaf in Hr as Hc2. destruct Hc2 as [[d' ->]|[-> ->]].
      * apply IH with (s := sd) (d := d'); auto; [eapply wf_assoc; eauto|].
        intros [bf [af [w [E1 [E2 E3]]]]]. apply Hc. exists (k :: bf), af, w. split; [cbn; now rewrite E1|].
        split; [|exact E3]. cbn [at_keys]. now rewrite Es.
      * exists v. split; [exact H | auto].
    + rewrite Hk. eauto.
Qed.
Lemma c34_nothing_new ks : forall s d m w, wf (VDict s) -> merge_spec (VDict s) (VDict d) = Ok m ->
  at_keys ks m = Some w ->
  (exists v, at_keys ks (VDict d) = Some v /\ (is_leaf w -> v = w)) \/
  (exists v, at_keys ks (VDict s) = Some v /\ (is_leaf w -> v = w)).
Proof.
  induction ks as [|k ks IH]; intros s d m w Hw Hm H.
  - cbn [at_keys] in *. injection H as <-. left. eexists. split; [reflexivity|]. intros Hl. exfalso.
    destruct (merge_step_spec s d m "" Hw Hm) as [m' [-> _]]. now apply (Hl m').
  - destruct (merge_step_spec s d m k Hw Hm) as [m' [-> Hk]]. cbn [at_keys] in *.
    destruct (assoc k s) as [sv|] eqn:Es.
    + destruct sv as [| | | | | |sd]; try (rewrite Hk in H; right; eexists; split; [exact H | auto]).
      destruct Hk as [r [Hr Hk]]. rewrite Hk in H. apply merge_into_leaf in Hr as Hc. destruct Hc as [[d' Hd]|[-> ->]].
      * rewrite Hd in Hr. apply (IH _ _ _ w (wf_assoc _ _ _ Hw Es)) in Hr; [|exact H].
        destruct (assoc k d) as [dv|]; [subst dv; exact Hr|]. injection Hd as <-.
        destruct Hr as [[v [Hv1 Hv2]]|Hr]; [|now right].
        destruct ks; [|discriminate]. right. cbn in Hv1. injection Hv1 as <-.
        exists (VDict sd). split; [reflexivity|]. intros Hl. apply Hv2 in Hl as E. subst w. now destruct (Hl []).
      * destruct (assoc k d) as [dv|]; [left; eauto|].
        destruct ks; [|discriminate]. right. exists (VDict []). split; [reflexivity|]. cbn in H. now injection H as <-.
    + rewrite Hk in H. destruct (assoc k d) as [dv|]; [|discriminate]. left. eauto.
Qed.

(** set_specs: the resource types left. *)
Lemma assoc_filter_keys {A} (f : string -> bool) k (d : list (string * A)) :
  assoc k (filter (fun kv => f (fst kv)) d) = if f k then assoc k d else None.
Proof.
  induction d as [|[k' v] d IH]; cbn [filter assoc fst]; [now destruct (f k)|].
  destruct (String.eqb_spec k k') as [->|Hn].
  - destruct (f k') eqn:E; cbn [assoc]; [now rewrite String.eqb_refl|]. rewrite IH. reflexivity.
  - destruct (f k'); [|exact IH]. cbn [assoc]. apply String.eqb_neq in Hn. now rewrite Hn.
Qed.
Lemma c34_types override spec out :
  set_specs override spec = Ok out ->
  exists merged, (remove_key "IncludeResourceTypes" (remove_key "ExcludeResourceTypes" override) = [] /\ merged = spec \/
                  merge_spec (VDict (remove_key "IncludeResourceTypes" (remove_key "ExcludeResourceTypes" override))) spec = Ok merged) /\
  forall name v,
    (at_keys ["ResourceTypes"; name] out = Some v <->
     at_keys ["ResourceTypes"; name] merged = Some v /\
     available (names_of "IncludeResourceTypes" override) (names_of "ExcludeResourceTypes" override) name).
Proof.
  unfold set_specs. cbv zeta.
  fold (names_of "ExcludeResourceTypes" override). fold (names_of "IncludeResourceTypes" override).
  set (rest := remove_key _ (remove_key _ override)).
  intros H. assert (Hm : exists merged, (rest = [] /\ merged = spec \/ merge_spec (VDict rest) spec = Ok merged) /\
     (match rest with [] => Ok spec | _ => merge_spec (VDict rest) spec end) = Ok merged).
  { destruct rest as [|x rest']; [exists spec; auto|].
    destruct (merge_spec (VDict (x :: rest')) spec) as [m|]; [exists m; auto | discriminate]. }
  destruct Hm as [merged [Hm1 Hm2]]. exists merged. split; [exact Hm1|]. rewrite Hm2 in H. cbn [bind] in H.
  destruct merged as [| | | | | |d]; try discriminate. destruct (assoc "ResourceTypes" d) as [[| | | | | |types]|] eqn:Et; try discriminate.
  injection H as <-. intros name v. cbn [at_keys]. rewrite assoc_set_same, Et.
  rewrite (assoc_filter_keys (fun r => smem r (spec_selected (names_of "IncludeResourceTypes" override)
    (names_of "ExcludeResourceTypes" override) (keys types)))). cbv beta.
  assert (Hs := c34_selected (names_of "IncludeResourceTypes" override) (names_of "ExcludeResourceTypes" override) (keys types) name).
  rewrite <- smem_iff in Hs. destruct (smem name (spec_selected _ _ (keys types))).
  - destruct Hs as [Hs _]. specialize (Hs eq_refl). tauto.
  - split; [discriminate|]. intros [H1 H2]. destruct (assoc name types) as [x|] eqn:E; [|discriminate].
    destruct Hs as [_ Hs]. discriminate Hs. split; [|exact H2]. apply assoc_In in E. apply in_map_iff. now exists (name, x).
Qed.
