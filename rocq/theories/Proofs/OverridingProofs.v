(** Proofs about overriding the specifications (C103). *)
From Coq Require Import List Arith Lia Bool ZArith Ascii String.
From Verif.Model Require Import Base Node Locate Helpers Rules Runner Config Core Refs Startup Overriding.
From Verif.Spec Require Import Paths Options Patterns Overriding.
From Verif.Proofs Require Import BaseFacts SearchProofs PatternProofs OptionProofs StartupProofs.
Import Verif.Model.Rules.
Import ListNotations.
Local Open Scope string_scope.
Local Open Scope nat_scope.

(** * Merging *)
Lemma set_same {A} k (v : A) d : assoc k d = Some v -> set_assoc k v d = d.
Proof. induction d as [|[k' x] d IH]; cbn [assoc set_assoc]; [discriminate|]. destruct (String.eqb_spec k k') as [->|]; [now intros [= ->] | intros H; now rewrite IH]. Qed.
Lemma set_set {A} k (v w : A) d : set_assoc k v (set_assoc k w d) = set_assoc k v d.
Proof. induction d as [|[k' x] d IH]; cbn [set_assoc]; [now rewrite String.eqb_refl|]. destruct (String.eqb_spec k k') as [->|N]; cbn [set_assoc]; [now rewrite String.eqb_refl|]. apply String.eqb_neq in N. rewrite N. now rewrite IH. Qed.
Lemma merge_again v : forall s, v = VDict s -> wf v -> forall d m, merge_spec v d = Ok m -> merge_spec v m = Ok m.
Proof.
  induction v as [|b|z|q|t|l IH|s0 IH] using val_ind'; intros s E W d m H; try discriminate E. injection E as <-.
  destruct s0 as [|kv s0]; [now destruct d|]. set (s := kv :: s0) in *. destruct (merge_into_leaf _ _ _ H) as [[d' ->] | [Es _]]; [|discriminate Es].
  rewrite merge_spec_members in H |- *. apply wf_dict in W as [N W]. destruct (merge_members_spec s d' m N H) as (m' & -> & M).
  assert (G : forall s', (forall x, In x s' -> In x s) -> merge_members s' (VDict m') = Ok (VDict m')); [|apply G; auto].
  induction s' as [|[k x] s' IH']; intros I; [reflexivity|]. cbn [merge_members].
  assert (A : assoc k s = Some x) by (apply assoc_NoDup; [exact N | apply I; now left]). specialize (M k). rewrite A in M.
  assert (R : merge_members s' (VDict m') = Ok (VDict m')) by (apply IH'; intros y Hy; apply I; now right).
  destruct x as [| | | | | |sv]; try (rewrite (set_same _ _ _ M); exact R).
  destruct M as (r & Hr & M). rewrite M. rewrite Forall_forall in IH. specialize (IH (k, VDict sv) (I _ (or_introl eq_refl)) sv eq_refl (W _ _ (I _ (or_introl eq_refl))) _ _ Hr). cbn [snd] in IH. rewrite IH. cbn [bind]. now rewrite (set_same _ _ _ M).
Qed.
Lemma agrees_members d s : agrees (VDict d) (VDict s) <-> forall k x, In (k, x) d -> match assoc k s with Some y => agrees x y | None => True end.
Proof.
  induction d as [|[k x] d IH]; [cbn; split; [intros _ k x []|auto]|]. split.
  - intros [H1 H2] k' x' [[= <- <-] | H]; [exact H1 | exact (proj1 IH H2 k' x' H)].
  - intros H. split; [exact (H k x (or_introl eq_refl)) | apply (proj2 IH); intros k' x' H'; exact (H k' x' (or_intror H'))].
Qed.
Lemma agrees_nothing d : agrees (VDict d) (VDict []).
Proof. apply agrees_members. intros k x _. exact I. Qed.
Lemma merge_succeeds v : forall s, v = VDict s -> wf v -> forall d, agrees v (VDict d) -> exists m, merge_spec v (VDict d) = Ok (VDict m).
Proof.
  induction v as [|b|z|q|t|l IH|s0 IH] using val_ind'; intros s E W d G; try discriminate E. injection E as <-.
  rewrite merge_spec_members. apply wf_dict in W as [N W]. pose proof (proj1 (agrees_members s0 d) G) as G'. clear G. revert d G'.
  induction s0 as [|[k x] s0 IH0]; intros d G; [exists d; reflexivity|]. cbn [merge_members]. inversion N as [|? ? Hk N']; subst. inversion IH as [|? ? Hx IH']; subst. cbn [snd] in Hx.
  assert (G0 : forall w, (forall k' x', In (k', x') s0 -> match assoc k' (set_assoc k w d) with Some y => agrees x' y | None => True end)).
  { intros w k' x' H. rewrite assoc_set_other; [exact (G _ _ (or_intror H))|]. intros ->. apply Hk. change k with (fst (k, x')). now apply in_map. }
  assert (W0 : forall k' x', In (k', x') s0 -> wf x') by (intros k' x' H; exact (W k' x' (or_intror H))).
  destruct x as [| | | | | |sv]; try (exact (IH0 IH' N' W0 _ (G0 _))).
  pose proof (G k (VDict sv) (or_introl eq_refl)) as Gk. pose proof (W k (VDict sv) (or_introl eq_refl)) as Wk.
  destruct (assoc k d) as [y|] eqn:A.
  - destruct y as [| | | | | |y]; try contradiction Gk. destruct (Hx sv eq_refl Wk y Gk) as [m ->]. cbn [bind]. exact (IH0 IH' N' W0 _ (G0 _)).
  - destruct (Hx sv eq_refl Wk [] (agrees_nothing _)) as [m ->]. cbn [bind]. exact (IH0 IH' N' W0 _ (G0 _)).
Qed.
Lemma merged_leaf ks : forall s d m v, wf (VDict s) -> agrees (VDict s) (VDict d) -> merge_spec (VDict s) (VDict d) = Ok m -> is_leaf v ->
  (at_keys ks m = Some v <-> at_keys ks (VDict s) = Some v \/ at_keys ks (VDict s) = None /\ ~ cut_off ks (VDict s) /\ at_keys ks (VDict d) = Some v).
Proof.
  induction ks as [|k ks IH]; intros s d m v W G H L; destruct (merge_step_spec s d m "" W H) as [m0 [-> _]].
  - cbn [at_keys]. split; [intros [= <-]; now destruct (L m0) | intros [[= <-] | [K _]]; [now destruct (L s) | discriminate K]].
  - destruct (merge_step_spec s d _ k W H) as (m' & [= <-] & M). cbn [at_keys]. destruct (assoc k s) as [x|] eqn:A.
    + assert (Gk : match assoc k d with Some y => agrees x y | None => True end) by (apply (proj1 (agrees_members s d) G); now apply assoc_In).
      destruct x as [| | | | | |sv];
        try (rewrite M; split; [tauto | intros [K | (K & C & _)]; [exact K | exfalso; apply C; exists [k], ks; eexists; split; [reflexivity|]; split; [cbn [at_keys]; rewrite A; reflexivity | intros dd; discriminate]]]).
      destruct M as (r & Hr & ->). pose proof (wf_assoc _ _ _ W A) as Wk. rewrite (cut_step k ks s (VDict sv) A).
      destruct (assoc k d) as [y|].
      * destruct y as [| | | | | |y]; try contradiction Gk. exact (IH sv y r v Wk Gk Hr L).
      * rewrite (IH sv [] r v Wk (agrees_nothing _) Hr L). split; [|intros [K | (_ & _ & K)]; [now left | discriminate K]].
        intros [K | (_ & _ & K)]; [now left|]. destruct ks; [cbn in K; injection K as <-; now destruct (L [])|discriminate K].
    + rewrite M. split; [|intros [K | (_ & _ & K)]; [discriminate K | exact K]]. intros K. right. split; [reflexivity|]. split; [|exact K].
      intros (bf & af & w & E1 & E2 & E3). destruct bf as [|b bf]; [cbn in E2; injection E2 as <-; now destruct (E3 s)|]. cbn [app] in E1. injection E1 as <- E1. cbn [at_keys] in E2. rewrite A in E2. discriminate E2.
Qed.
Lemma merged_types s d m t : wf (VDict s) -> agrees (VDict s) (VDict d) -> merge_spec (VDict s) (VDict d) = Ok m ->
  (forall x, assoc "ResourceTypes" s = Some x -> exists y, x = VDict y) ->
  (at_keys ["ResourceTypes"; t] m <> None <-> at_keys ["ResourceTypes"; t] (VDict s) <> None \/ at_keys ["ResourceTypes"; t] (VDict d) <> None).
Proof.
  intros W G H D. destruct (merge_step_spec s d m "ResourceTypes" W H) as (m' & -> & M). cbn [at_keys]. destruct (assoc "ResourceTypes" s) as [x|] eqn:A.
  - destruct (D _ eq_refl) as [sv ->]. destruct M as (r & Hr & ->). pose proof (wf_assoc _ _ _ W A) as Wk.
    pose proof (proj1 (agrees_members s d) G _ _ (assoc_In _ _ _ A)) as Gk. destruct (assoc "ResourceTypes" d) as [y|].
    + destruct y as [| | | | | |y]; try contradiction Gk. destruct (merge_step_spec sv y r t Wk Hr) as (r' & -> & R). destruct (assoc t sv) as [x|].
      * split; [intros _; left; discriminate | intros _]. destruct x; try (rewrite R; discriminate). destruct R as (z & _ & ->). discriminate.
      * rewrite R. destruct (assoc t y); intuition congruence.
    + destruct (merge_step_spec sv [] r t Wk Hr) as (r' & -> & R). destruct (assoc t sv) as [x|].
      * split; [intros _; left; discriminate | intros _]. destruct x; try (rewrite R; discriminate). destruct R as (z & _ & ->). discriminate.
      * rewrite R. cbn [assoc]. intuition congruence.
  - rewrite M. destruct (assoc "ResourceTypes" d) as [y|]; [|intuition congruence]. destruct y; intuition congruence.
Qed.

(** * One region *)
Lemma filter_set_out {A} (f : string -> bool) k (v : A) d : f k = false -> filter (fun kv => f (fst kv)) (set_assoc k v d) = filter (fun kv => f (fst kv)) d.
Proof. intros F. induction d as [|[k' x] d IH]; cbn [set_assoc filter fst]; [now rewrite F|]. destruct (String.eqb_spec k k') as [->|]; cbn [filter fst]; [now rewrite F | now rewrite IH]. Qed.
Lemma filter_set_in {A} (f : string -> bool) k (v : A) d : f k = true -> filter (fun kv => f (fst kv)) (set_assoc k v d) = set_assoc k v (filter (fun kv => f (fst kv)) d).
Proof.
  intros F. induction d as [|[k' x] d IH]; cbn [set_assoc filter fst]; [now rewrite F|]. destruct (String.eqb_spec k k') as [->|N]; cbn [filter fst].
  - rewrite F. cbn [set_assoc]. now rewrite String.eqb_refl.
  - rewrite IH. destruct (f k'); [|reflexivity]. cbn [set_assoc]. apply String.eqb_neq in N. now rewrite N.
Qed.
(** Merging the types once more into those that were kept brings back only types that are not kept. *)
Lemma types_again (f : string -> bool) rt types1 types2 : wf (VDict rt) -> merge_spec (VDict rt) (VDict types1) = Ok (VDict types2) ->
  exists types3, merge_spec (VDict rt) (VDict (filter (fun kv => f (fst kv)) types2)) = Ok (VDict types3) /\ filter (fun kv => f (fst kv)) types3 = filter (fun kv => f (fst kv)) types2.
Proof.
  intros W H. rewrite merge_spec_members in *. pose proof W as W'. apply wf_dict in W' as [N Wm]. destruct (merge_members_spec rt types1 _ N H) as (m & [= <-] & M).
  set (kept := filter (fun kv => f (fst kv)) types2) in *.
  assert (G : forall rt', (forall x, In x rt' -> In x rt) -> NoDup (map fst rt') -> forall cur, filter (fun kv => f (fst kv)) cur = kept -> (forall k, In k (map fst rt') -> f k = false -> assoc k cur = None) ->
    exists t3, merge_members rt' (VDict cur) = Ok (VDict t3) /\ filter (fun kv => f (fst kv)) t3 = kept).
  { induction rt' as [|[k x] rt' IH]; intros I N' cur C O; [exists cur; split; [reflexivity | exact C]|]. cbn [merge_members]. inversion N' as [|? ? Hk N'']; subst.
    assert (A : assoc k rt = Some x) by (apply assoc_NoDup; [exact N | apply I; now left]). specialize (M k). rewrite A in M. pose proof (Wm _ _ (I _ (or_introl eq_refl))) as Wx.
    assert (O' : forall w k', In k' (map fst rt') -> f k' = false -> assoc k' (set_assoc k w cur) = None).
    { intros w k' Hk' Fk. rewrite assoc_set_other; [apply O; [now right | exact Fk]|]. intros ->. now apply Hk. }
    assert (I' : forall y, In y rt' -> In y rt) by (intros y Hy; apply I; now right).
    destruct (f k) eqn:F.
    - assert (P : forall w, assoc k types2 = Some w -> assoc k cur = Some w).
      { intros w Hw. pose proof (assoc_filter_keys f k cur) as E. rewrite F in E. rewrite <- E, C. unfold kept. rewrite assoc_filter_keys, F. exact Hw. }
      destruct x as [| | | | | |sv]; try (rewrite (set_same _ _ _ (P _ M)); apply (IH I' N'' cur C); intros k' Hk' Fk'; apply O; [now right | exact Fk']).
      destruct M as (r & Hr & M). rewrite (P _ M), (merge_again _ sv eq_refl Wx _ _ Hr). cbn [bind]. rewrite (set_same _ _ _ (P _ M)). apply (IH I' N'' cur C). intros k' Hk' Fk'. apply O; [now right | exact Fk'].
    - assert (Z : assoc k cur = None) by (apply O; [now left | exact F]).
      destruct x as [| | | | | |sv]; try (apply (IH I' N''); [now rewrite filter_set_out | apply O']).
      rewrite Z. destruct (merge_succeeds (VDict sv) sv eq_refl Wx [] (agrees_nothing _)) as [m ->]. cbn [bind]. apply (IH I' N''); [now rewrite filter_set_out | apply O']. }
  apply G; auto.
  - unfold kept. induction types2 as [|[k x] types2 IH]; [reflexivity|]. clear. induction ((k, x) :: types2) as [|[k' x'] l IH]; [reflexivity|]. cbn [filter fst]. destruct (f k') eqn:F; [|exact IH]. cbn [filter fst]. rewrite F. now rewrite IH.
  - intros k _ F. unfold kept. rewrite assoc_filter_keys. now rewrite F.
Qed.
Lemma keep_iff inc exc types (kv : string * val) : In kv types -> smem (fst kv) (spec_selected inc exc (keys types)) = smem (fst kv) (spec_selected inc exc [fst kv]).
Proof.
  intros H. apply eq_true_iff_eq. rewrite !smem_iff, !c34_selected. cbn [In]. assert (I : In (fst kv) (keys types)) by now apply in_map. tauto.
Qed.
Definition passing (inc exc : list string) (t : string) : bool := smem t (spec_selected inc exc [t]).
Lemma passing_iff inc exc t : passing inc exc t = true <-> available inc exc t.
Proof. unfold passing. rewrite smem_iff, c34_selected. cbn [In]. tauto. Qed.
Lemma keep_filter inc exc types : filter (fun kv : string * val => smem (fst kv) (spec_selected inc exc (keys types))) types = filter (fun kv => passing inc exc (fst kv)) types.
Proof. apply filter_ext_in. intros kv H. now apply keep_iff. Qed.
Lemma filter_wf (f : string * val -> bool) d : wf (VDict d) -> wf (VDict (filter f d)).
Proof.
  induction d as [|[k x] d IH]; [auto|]. intros W. apply wf_dict in W as [N W]. inversion N as [|? ? Hk N']; subst.
  assert (Wd : wf (VDict d)). { cbn. split; [exact N'|]. clear -W. induction d as [|[k' y] d IH]; [exact I|]. split; [exact (W k' y (or_intror (or_introl eq_refl)))|]. apply IH. intros k0 x0 [[= <- <-] | H]; [exact (W _ _ (or_introl eq_refl)) | exact (W _ _ (or_intror (or_intror H)))]. }
  specialize (IH Wd). cbn [filter]. destruct (f (k, x)); [|exact IH]. cbn in IH |- *. destruct IH as [N2 IH2]. split; [|split; [exact (W k x (or_introl eq_refl)) | exact IH2]].
  constructor; [|exact N2]. intros K. apply Hk. apply in_map_iff in K as ([a b] & <- & K). apply filter_In in K as [K _]. now apply (in_map fst) in K.
Qed.
Lemma region_again doc spec out : wf (VDict doc) -> set_region doc spec = Ok out -> set_region doc out = Ok out.
Proof.
  intros W H. unfold set_region in H |- *. set (rest := remove_key "IncludeResourceTypes" (remove_key "ExcludeResourceTypes" doc)) in *.
  assert (Wr : wf (VDict rest)) by (unfold rest, remove_key; now repeat apply filter_wf).
  assert (Mg : forall sp, match rest with [] => Ok sp | _ => merge_spec (VDict rest) sp end = merge_spec (VDict rest) sp) by (intros sp; destruct rest; reflexivity).
  rewrite Mg in H |- *. clear Mg. clearbody rest.
  destruct (merge_spec (VDict rest) spec) as [merged|] eqn:Em; [|discriminate H]. cbn [bind] in H. destruct merged as [| | | | | |d]; try discriminate H. destruct (assoc "ResourceTypes" d) as [[| | | | | |types]|] eqn:Et; try discriminate H.
  destruct (patterns (assoc "IncludeResourceTypes" doc)) as [inc|]; [|discriminate H]. destruct (patterns (assoc "ExcludeResourceTypes" doc)) as [exc|]; [|discriminate H]. cbn [bind] in *.
  cbv zeta in H. rewrite keep_filter in H. injection H as <-. set (kept := filter (fun kv => passing inc exc (fst kv)) types) in *. set (d1 := set_assoc "ResourceTypes" (VDict kept) d) in *.
  assert (A1 : assoc "ResourceTypes" d1 = Some (VDict kept)) by apply assoc_set_same.
  assert (G : exists types3, merge_spec (VDict rest) (VDict d1) = Ok (VDict (set_assoc "ResourceTypes" (VDict types3) d1)) /\ filter (fun kv => passing inc exc (fst kv)) types3 = kept).
  { assert (KK : filter (fun kv => passing inc exc (fst kv)) kept = kept) by (unfold kept; clear; induction types as [|[k x] l IH]; [reflexivity|]; cbn [filter fst]; destruct (passing inc exc k) eqn:F; [|exact IH]; cbn [filter fst]; rewrite F; now rewrite IH).
    destruct (merge_into_leaf _ _ _ Em) as [[d0 ->] | [E _]]; [|subst rest; exists kept; split; [cbn [merge_spec]; now rewrite (set_same _ _ _ A1) | exact KK]].
    rewrite merge_spec_members in *. pose proof Wr as Wr'. apply wf_dict in Wr' as [N Wm]. destruct (merge_members_spec rest d0 _ N Em) as (m & [= <-] & M).
    assert (L : forall rest', (forall x, In x rest' -> In x rest) -> NoDup (map fst rest') -> forall t, filter (fun kv => passing inc exc (fst kv)) t = kept -> (In "ResourceTypes" (map fst rest') -> t = kept) ->
      exists t3, merge_members rest' (VDict (set_assoc "ResourceTypes" (VDict t) d1)) = Ok (VDict (set_assoc "ResourceTypes" (VDict t3) d1)) /\ filter (fun kv => passing inc exc (fst kv)) t3 = kept).
    { induction rest' as [|[k x] rest' IH]; intros I N' t C O; [exists t; split; [reflexivity | exact C]|]. cbn [merge_members]. inversion N' as [|? ? Hk N'']; subst.
      assert (A : assoc k rest = Some x) by (apply assoc_NoDup; [exact N | apply I; now left]). specialize (M k). rewrite A in M. pose proof (Wm _ _ (I _ (or_introl eq_refl))) as Wx.
      assert (I' : forall y, In y rest' -> In y rest) by (intros y Hy; apply I; now right).
      assert (O' : In "ResourceTypes" (map fst rest') -> t = kept) by (intros K; apply O; now right).
      destruct (String.eqb_spec k "ResourceTypes") as [->|Nk].
      - destruct x as [| | | | | |rt]; try (rewrite M in Et; discriminate Et). destruct M as (r & Hr & M). rewrite M in Et. injection Et as ->. rewrite assoc_set_same. rewrite (O (or_introl eq_refl)).
        assert (T : exists types0, (match assoc "ResourceTypes" d0 with Some n => n | None => VDict [] end) = VDict types0 \/ rt = []).
        { destruct (merge_into_leaf _ _ _ Hr) as [[dd E] | [E _]]; [exists dd; now left | exists []; now right]. }
        destruct T as [types0 [T | ->]].
        + rewrite T in Hr. destruct (types_again (passing inc exc) rt types0 types Wx Hr) as (t3 & E3 & F3). fold kept in E3, F3. rewrite E3. cbn [bind]. rewrite set_set. apply (IH I' N'' t3 F3). intros K. now destruct Hk.
        + cbn [merge_spec bind]. rewrite set_set. apply (IH I' N'' kept KK). reflexivity.
      - assert (P : forall w, assoc k d = Some w -> assoc k (set_assoc "ResourceTypes" (VDict t) d1) = Some w) by (intros w Hw; unfold d1; rewrite !assoc_set_other by exact Nk; exact Hw).
        destruct x as [| | | | | |sv]; try (rewrite (set_same _ _ _ (P _ M)); exact (IH I' N'' t C O')).
        destruct M as (r & Hr & M). rewrite (P _ M), (merge_again _ sv eq_refl Wx _ _ Hr). cbn [bind]. rewrite (set_same _ _ _ (P _ M)). exact (IH I' N'' t C O'). }
    destruct (L rest ltac:(auto) N kept KK ltac:(auto)) as (t3 & E3 & F3). rewrite (set_same _ _ _ A1) in E3. exists t3. split; [exact E3 | exact F3]. }
  destruct G as (t3 & -> & F3). cbn [bind]. rewrite assoc_set_same. cbv zeta. rewrite keep_filter, F3, set_set, (set_same _ _ _ A1). reflexivity.
Qed.
Lemma texts_patterns l : pattern_texts (map VStr l) = Ok l.
Proof. induction l as [|x l IH]; [reflexivity|]. cbn [map pattern_texts]. now rewrite IH. Qed.
Lemma patterns_listed doc k l : listed_patterns doc k l -> patterns (assoc k doc) = Ok l.
Proof.
  intros [[-> ->] | ->]; [reflexivity|]. unfold patterns. destruct l as [|x l]; [reflexivity|]. cbn [truthy map]. exact (texts_patterns (x :: l)).
Qed.
Lemma rest_keys doc k : k <> "IncludeResourceTypes" -> k <> "ExcludeResourceTypes" -> assoc k (without_lists doc) = assoc k doc.
Proof.
  intros N1 N2. unfold without_lists. rewrite (assoc_filter_keys (fun x => negb (String.eqb "IncludeResourceTypes" x))), (assoc_filter_keys (fun x => negb (String.eqb "ExcludeResourceTypes" x))).
  destruct (String.eqb_spec "IncludeResourceTypes" k) as [<-|]; [now destruct N1|]. destruct (String.eqb_spec "ExcludeResourceTypes" k) as [<-|]; [now destruct N2|]. reflexivity.
Qed.
Lemma c103_region doc inc exc spec types : wf (VDict doc) -> listed_patterns doc "IncludeResourceTypes" inc -> listed_patterns doc "ExcludeResourceTypes" exc ->
  (forall x, assoc "ResourceTypes" doc = Some x -> exists d, x = VDict d) -> agrees (VDict (without_lists doc)) spec -> at_keys ["ResourceTypes"] spec = Some (VDict types) ->
  exists out, set_region doc spec = Ok out /\ overrides inc exc (VDict (without_lists doc)) spec out.
Proof.
  intros W I E D G T. destruct spec as [| | | | | |d]; try discriminate T. assert (Wr : wf (VDict (without_lists doc))) by (unfold without_lists; now repeat apply filter_wf).
  rewrite <- (rest_keys doc "ResourceTypes") in D by discriminate.
  destruct (merge_succeeds _ _ eq_refl Wr d G) as [m Em].
  assert (Hm : exists types', assoc "ResourceTypes" m = Some (VDict types')).
  { destruct (merge_step_spec _ _ _ "ResourceTypes" Wr Em) as (m' & [= <-] & M). cbn [at_keys] in T. destruct (assoc "ResourceTypes" d) as [y|]; [|discriminate T]. injection T as ->.
    destruct (assoc "ResourceTypes" (without_lists doc)) as [x|]; [|exists types; exact M]. destruct (D _ eq_refl) as [sv ->]. destruct M as (r & Hr & M).
    destruct sv as [|kv sv]; [injection Hr as <-; now exists types|]. apply wf_dict in Wr as [_ _]. rewrite M. rewrite merge_spec_members in Hr.
    assert (Dr : forall src dst r, merge_members src (VDict dst) = Ok r -> exists y, r = VDict y).
    { clear. induction src as [|[k v] src IH]; intros dst r H; cbn [merge_members] in H; [injection H as <-; now exists dst|].
      destruct v as [| | | | | |sv]; try (exact (IH _ _ H)). destruct (merge_spec (VDict sv) _) as [w|]; [|discriminate H]. exact (IH _ _ H). }
    destruct (Dr _ _ _ Hr) as [y ->]. now exists y. }
  destruct Hm as [types' Hm]. exists (VDict (set_assoc "ResourceTypes" (VDict (filter (fun kv => passing inc exc (fst kv)) types')) m)). split.
  - unfold set_region. fold (without_lists doc). change (remove_key "IncludeResourceTypes" (remove_key "ExcludeResourceTypes" doc)) with (without_lists doc).
    assert (Mg : forall sp, match without_lists doc with [] => Ok sp | _ => merge_spec (VDict (without_lists doc)) sp end = merge_spec (VDict (without_lists doc)) sp) by (intros sp; destruct (without_lists doc); reflexivity).
    rewrite Mg, Em. cbn [bind]. rewrite Hm, (patterns_listed _ _ _ I), (patterns_listed _ _ _ E). cbn [bind]. cbv zeta. now rewrite keep_filter.
  - set (out := set_assoc "ResourceTypes" _ m). assert (At : forall ks v, (at_keys ks (VDict out) = Some v /\ ks <> [] /\ ks <> ["ResourceTypes"]) <-> (at_keys ks (VDict m) = Some v /\ passes inc exc ks /\ ks <> [] /\ ks <> ["ResourceTypes"])).
    { intros ks v. destruct ks as [|k ks]; [tauto|]. cbn [at_keys]. unfold out. destruct (String.eqb_spec k "ResourceTypes") as [->|Nk].
      - rewrite assoc_set_same, Hm. destruct ks as [|t ks]; [intuition congruence|]. cbn [at_keys]. rewrite (assoc_filter_keys (passing inc exc)).
        destruct (passing inc exc t) eqn:P.
        + apply passing_iff in P. split; [intros (A & B & C); split; [exact A | split; [intros t' r' K; injection K as <- <-; exact P | split; [exact B | exact C]]] | intros (A & _ & B & C); auto].
        + split; [intros (A & _); discriminate A|]. intros (_ & A & _). specialize (A t ks eq_refl). apply passing_iff in A. congruence.
      - rewrite assoc_set_other by exact Nk. split; [intros (A & B & C); split; [exact A | split; [intros t' r' K; injection K as -> _; now destruct Nk | split; [exact B | exact C]]] | intros (A & _ & B & C); auto]. }
    split.
    + intros ks v L. rewrite <- (merged_leaf ks _ _ _ v Wr G Em L). destruct ks as [|k ks].
      { cbn [at_keys]. split; [intros [= <-]; now destruct (L out) | intros [_ [= <-]]; now destruct (L m)]. }
      destruct (String.eqb_spec k "ResourceTypes") as [->|Nk].
      * destruct ks as [|t ks].
        { cbn [at_keys]. unfold out. rewrite assoc_set_same, Hm. split; [intros [= <-]; now destruct (L (filter (fun kv => passing inc exc (fst kv)) types')) | intros [_ [= <-]]; now destruct (L types')]. }
        specialize (At ("ResourceTypes" :: t :: ks) v). split; [intros K; destruct (proj1 At) as (A & B & _); [repeat split; [exact K | discriminate | discriminate] | tauto] | intros (K & K'); apply At; split; [exact K' | split; [exact K | split; discriminate]]].
      * specialize (At (k :: ks) v). split; [intros K; destruct (proj1 At) as (A & B & _); [repeat split; [exact K | discriminate | congruence] | tauto] | intros (K & K'); apply At; split; [exact K' | split; [exact K | split; [discriminate | congruence]]]].
    + intros t. rewrite <- (merged_types _ _ _ t Wr G Em) by (intros x Hx; exact (D x Hx)). cbn [at_keys]. unfold out. rewrite assoc_set_same, Hm, (assoc_filter_keys (passing inc exc)).
      destruct (passing inc exc t) eqn:P; [apply passing_iff in P; tauto|]. split; [congruence|]. intros [A _]. apply passing_iff in A. congruence.
Qed.
Lemma regions_map (f : val -> res val) (R : val -> val -> Prop) s : (forall region v, In (region, v) s -> exists out, f v = Ok out /\ R v out) ->
  exists s', set_regions f s = Ok s' /\ Forall2 (fun a b => fst a = fst b /\ R (snd a) (snd b)) s s'.
Proof.
  induction s as [|[region v] s IH]; intros H; [exists []; split; [reflexivity | constructor]|]. destruct (H region v (or_introl eq_refl)) as (out & E & Ro).
  destruct IH as (s' & Es & F); [intros r' v' H'; exact (H r' v' (or_intror H'))|]. exists ((region, out) :: s'). split; [|constructor; [split; [reflexivity | exact Ro] | exact F]].
  unfold set_regions in *. cbn [map_res snd fst]. rewrite E. cbn [bind]. now rewrite Es.
Qed.
Lemma regions_ok f s s' : set_regions f s = Ok s' -> Forall2 (fun a b => fst a = fst b /\ f (snd a) = Ok (snd b)) s s'.
Proof.
  revert s'. induction s as [|[region v] s IH]; intros s' H; unfold set_regions in *; cbn [map_res snd fst] in H; [injection H as <-; constructor|].
  destruct (f v) as [x|] eqn:E; [|discriminate H]. cbn [bind] in H. destruct (map_res _ s) as [r|]; [|discriminate H]. cbn [bind] in H. injection H as <-. constructor; [split; [reflexivity | exact E] | now apply IH].
Qed.
Lemma regions_fixed f s : (forall region v, In (region, v) s -> f v = Ok v) -> set_regions f s = Ok s.
Proof.
  induction s as [|[region v] s IH]; intros H; [reflexivity|]. unfold set_regions in *. cbn [map_res snd fst]. rewrite (H region v (or_introl eq_refl)). cbn [bind]. rewrite IH; [reflexivity|]. intros r' v' H'. exact (H r' v' (or_intror H')).
Qed.
Lemma specs_again doc s s' : wf (VDict doc) -> set_all_specs (VDict doc) s = Ok s' -> set_all_specs (VDict doc) s' = Ok s'.
Proof.
  intros W H. cbn [set_all_specs] in *. apply regions_ok in H. apply regions_fixed. intros region v I. induction H as [|a b l l' [_ E] _ IH]; [destruct I|]. destruct I as [-> | I]; [exact (region_again doc _ _ W E) | now apply IH].
Qed.

(** * Files *)
Section Read.
Variable read : string -> reading.
Lemma c103_effect file doc inc exc s : read file = Read (VDict doc) -> wf (VDict doc) -> fitting doc inc exc s ->
  exists s', override_specs read file s = Now s' /\ Forall2 (fun a b => fst a = fst b /\ overrides inc exc (VDict (without_lists doc)) (snd a) (snd b)) s s'.
Proof.
  intros R W (I & E & D & F). unfold override_specs. rewrite R. cbn [set_all_specs].
  destruct (regions_map (set_region doc) (overrides inc exc (VDict (without_lists doc))) s) as (s' & Es & O).
  { intros region v H. destruct (F _ _ H) as (G & types & T). exact (c103_region doc inc exc v types W I E D G T). }
  exists s'. now rewrite Es.
Qed.
(** Reading the file again for another template changes nothing. *)
Lemma c103_again file s s' : (forall v, read file = Read v -> wf v) -> override_specs read file s = Now s' -> override_specs read file s' = Now s'.
Proof.
  intros W H. unfold override_specs in *. destruct (read file) as [v|n|e] eqn:R.
  - destruct (set_all_specs v s) as [x|e] eqn:E; [|destruct e; discriminate H]. injection H as <-.
    assert (G : set_all_specs v x = Ok x); [|now rewrite G]. destruct v as [|b|z|q|t|l|d]; try discriminate E.
    + cbn [set_all_specs] in *. destruct (_ || _); [discriminate E|]. destruct (String.eqb t ""); [exact (specs_again [] s x ltac:(cbn; split; constructor) E)|].
      destruct s as [|[r0 v0] s]; [now injection E as <- | discriminate E].
    + cbn [set_all_specs] in *. destruct (existsb _ l); [discriminate E|]. destruct l as [|y l]; [exact (specs_again [] s x ltac:(cbn; split; constructor) E)|].
      destruct s as [|[r0 v0] s]; [now injection E as <- | discriminate E].
    + exact (specs_again d s x (W _ eq_refl) E).
  - destruct (_ || _); [discriminate H|]. now injection H as <-.
  - destruct e; discriminate H.
Qed.
Lemma c103_ends file s : (exists n, In n [2; 21; 13]%Z /\ read file = IOErr n) \/ read file = Raised EValue -> override_specs read file s = Quits 1.
Proof.
  unfold override_specs. intros [(n & H & ->) | ->]; [|reflexivity]. destruct H as [<- | [<- | [<- | []]]]; reflexivity.
Qed.
Lemma option_constant cli file targs targs' : option_value (mkSources cli targs file) "override_spec" = option_value (mkSources cli targs' file) "override_spec".
Proof. unfold option_value, get_argument_value. cbn. destruct (truthy (lookup cli "override_spec")); [reflexivity|]. now rewrite !andb_false_r. Qed.
Section Loop.
Variable str_other : val -> string.
Variable all_rules : list rule.
Variables cli_args file_args : args.
Variable decode : option string -> decoded.
Variable check : specs -> state -> option string -> mval -> collection -> state * res outcome.
Let run := lint_with str_other all_rules cli_args file_args decode.
Lemma step_named f targs : option_value (mkSources cli_args [] file_args) "override_spec" = VStr f -> f <> "" -> override_step read (src cli_args file_args targs) = override_specs read f.
Proof.
  intros O N. unfold override_step, src. rewrite (option_constant _ _ targs []), O. unfold truthy. destruct (String.eqb_spec f "") as [|_]; [contradiction | reflexivity].
Qed.
(** A run with an override is a run without one on the overridden specifications. *)
Lemma c103_run f s s' : option_value (mkSources cli_args [] file_args) "override_spec" = VStr f -> f <> "" -> (forall v, read f = Read v -> wf v) -> override_specs read f s = Now s' ->
  forall names st, run (override_step read) check s st names [] = run (fun _ x => Now x) check s' st names [].
Proof.
  intros O N W H names st. unfold run. assert (G : forall x, x = s \/ x = s' -> forall st acc, lint_with str_other all_rules cli_args file_args decode (override_step read) check x st names acc = lint_with str_other all_rules cli_args file_args decode (fun _ x => Now x) check s' st names acc); [|apply G; now left].
  induction names as [|n names IH]; intros x Hx st0 acc; [reflexivity|]. cbn [lint_with]. destruct (get_template_rules _ _ _ _ st0 (decode n)) as [st' [[l | t k] | e]]; [now apply IH | | reflexivity].
  destruct (negb (truthy (erase t))); [now apply IH|]. rewrite (step_named f _ O N).
  replace (override_specs read f x) with (Now s'); [|destruct Hx as [-> | ->]; symmetry; [exact H | exact (c103_again f s s' W H)]].
  destruct (check s' st' n t k) as [st'' [[l | z] | e]]; try reflexivity. apply IH. now right.
Qed.
(** A file that is missing, a folder, not readable or not JSON ends the program at the first template that is checked. *)
Lemma c103_stops f s n names st acc : option_value (mkSources cli_args [] file_args) "override_spec" = VStr f -> f <> "" -> (exists e, In e [2; 21; 13]%Z /\ read f = IOErr e) \/ read f = Raised EValue ->
  checked str_other all_rules cli_args file_args st (decode n) -> run (override_step read) check s st (n :: names) acc = Left 1.
Proof.
  intros O N R (st' & t & k & E & T). unfold run. cbn [lint_with]. rewrite E. rewrite (proj2 (truthy_values _) T). cbn [negb]. rewrite (step_named f _ O N), (c103_ends f s R). reflexivity.
Qed.
Lemma c103_silent f s e names st acc : option_value (mkSources cli_args [] file_args) "override_spec" = VStr f -> f <> "" -> read f = IOErr e -> ~ In e [2; 21; 13]%Z ->
  run (override_step read) check s st names acc = run (fun _ x => Now x) check s st names acc.
Proof.
  intros O N R H. assert (Q : forall x, override_specs read f x = Now x).
  { intros x. unfold override_specs. rewrite R. destruct (Z.eqb_spec e 2) as [->|]; [exfalso; apply H; cbn; auto|]. destruct (Z.eqb_spec e 21) as [->|]; [exfalso; apply H; cbn; auto|]. destruct (Z.eqb_spec e 13) as [->|]; [exfalso; apply H; cbn; auto | reflexivity]. }
  unfold run. revert s st acc. induction names as [|n names IH]; intros s st acc; [reflexivity|]. cbn [lint_with]. destruct (get_template_rules _ _ _ _ st (decode n)) as [st' [[l | t k] | ex]]; [now apply IH | | reflexivity].
  destruct (negb (truthy (erase t))); [now apply IH|]. rewrite (step_named f _ O N), Q. destruct (check s st' n t k) as [st'' [[l | z] | ex]]; try reflexivity. now apply IH.
Qed.
End Loop.
End Read.
(** Composition with lint_all. *)
Lemma with_lint_all str_other all_rules cli_args file_args decode name_of spec_of tr s names : forall st acc,
  lint_with str_other all_rules cli_args file_args decode (fun _ x => Now x) (check_with cli_args file_args spec_of tr name_of) s st names acc =
  match snd (lint_all str_other (spec_of s) tr all_rules cli_args file_args st (map (fun n => (name_of n, decode n)) names) acc) with
  | Ok (Findings l) => Linted l | Ok (Exit z) => Left z | Err e => Failed e
  end.
Proof.
  induction names as [|n names IH]; intros st acc; [reflexivity|]. cbn [lint_with map lint_all]. unfold lint_one. destruct (get_template_rules _ _ _ _ st (decode n)) as [st' [[l | t k] | e]]; [apply IH | | reflexivity].
  destruct (negb (truthy (erase t))); [rewrite IH; now rewrite app_nil_r|]. unfold check_with. destruct (regions _) as [rg|e]; [|reflexivity]. destruct (mandatory_checks _) as [man|e]; [|reflexivity].
  destruct (run_checks _ _ _ _ _ _) as [k' [l | z]]; [apply IH | reflexivity].
Qed.
Lemma c103_lints read str_other all_rules cli_args file_args decode name_of spec_of tr f s s' names :
  option_value (mkSources cli_args [] file_args) "override_spec" = VStr f -> f <> "" -> (forall v, read f = Read v -> wf v) -> override_specs read f s = Now s' ->
  lint_with str_other all_rules cli_args file_args decode (override_step read) (check_with cli_args file_args spec_of tr name_of) s initial_state names [] =
  match snd (lint_all str_other (spec_of s') tr all_rules cli_args file_args initial_state (map (fun n => (name_of n, decode n)) names) []) with
  | Ok (Findings l) => Linted l | Ok (Exit z) => Left z | Err e => Failed e
  end.
Proof. intros O N W H. rewrite <- with_lint_all. exact (c103_run read str_other all_rules cli_args file_args decode _ f s s' O N W H names initial_state). Qed.
(** Without the option nothing is overridden, whatever the templates say about it. *)
Definition not_given (a : args) : Prop := forall v, assoc "override_spec" a = Some v -> v = VNull \/ v = VStr "".
Lemma step_unnamed read cli_args file_args targs s : not_given cli_args -> not_given file_args -> override_step read (src cli_args file_args targs) s = Now s.
Proof.
  assert (L : forall a, not_given a -> truthy (lookup a "override_spec") = false).
  { intros a H. unfold lookup. destruct (assoc "override_spec" a) as [v|] eqn:A; [|reflexivity]. destruct (H v A) as [-> | ->]; reflexivity. }
  intros C F. unfold override_step, src, option_value, get_argument_value. cbn. rewrite (L _ C), (L _ F), andb_false_r. cbn. now rewrite (L _ C).
Qed.
Lemma c103_unnamed read str_other all_rules cli_args file_args decode check : not_given cli_args -> not_given file_args -> forall names s st acc,
  lint_with str_other all_rules cli_args file_args decode (override_step read) check s st names acc = lint_with str_other all_rules cli_args file_args decode (fun _ x => Now x) check s st names acc.
Proof.
  intros C F. induction names as [|n names IH]; intros s st acc; [reflexivity|]. cbn [lint_with]. destruct (get_template_rules _ _ _ _ st (decode n)) as [st' [[l | t k] | ex]]; [apply IH | | reflexivity].
  destruct (negb (truthy (erase t))); [apply IH|]. rewrite step_unnamed by assumption. destruct (check s st' n t k) as [st'' [[l | z] | ex]]; try reflexivity. apply IH.
Qed.
Lemma c103_plain read str_other all_rules cli_args file_args decode name_of spec_of tr s names :
  (forall v, assoc "override_spec" cli_args = Some v -> v = VNull \/ v = VStr "") -> (forall v, assoc "override_spec" file_args = Some v -> v = VNull \/ v = VStr "") ->
  lint_with str_other all_rules cli_args file_args decode (override_step read) (check_with cli_args file_args spec_of tr name_of) s initial_state names [] =
  match snd (lint_all str_other (spec_of s) tr all_rules cli_args file_args initial_state (map (fun n => (name_of n, decode n)) names) []) with
  | Ok (Findings l) => Linted l | Ok (Exit z) => Left z | Err e => Failed e
  end.
Proof. intros C F. rewrite <- with_lint_all. exact (c103_unnamed read str_other all_rules cli_args file_args decode _ C F names s initial_state []). Qed.
