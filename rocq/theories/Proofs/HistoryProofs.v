(** C07: linting one template after others. *)
From Coq Require Import Lia.
From Verif.Model Require Import Base Node Locate Helpers Rules Runner Config Core.
From Verif.Spec Require Import Pipeline History.
From Verif.Proofs Require Import BaseFacts PipelineProofs RunProofs Samples ReportProofs.

(** * Configuring a rule twice *)
Lemma assoc_ext {A} (c1 c2 : list (string * A)) :
  NoDup (keys c1) -> keys c1 = keys c2 -> (forall k, assoc k c1 = assoc k c2) -> c1 = c2.
Proof.
  revert c2; induction c1 as [|[k v] c1 IH]; intros [|[k2 v2] c2] Hn Hk Ha; cbn in Hk; try discriminate; [reflexivity|].
  injection Hk as Hk1 Hk2; subst k2. inversion Hn as [|? ? Hni Hn']; subst.
  assert (v = v2). { specialize (Ha k). cbn in Ha. rewrite String.eqb_refl in Ha. congruence. }
  subst. f_equal. apply IH; [exact Hn' | assumption |]. intros k'. specialize (Ha k'). cbn in Ha.
  destruct (String.eqb_spec k' k) as [He|He]; [|exact Ha]. subst k'.
  assert (assoc k c1 = None) by now apply assoc_None. change (keys c1 = keys c2) in Hk2. rewrite Hk2 in Hni.
  assert (assoc k c2 = None) by now apply assoc_None. congruence.
Qed.
Lemma keys_set_existing {A} k (v : A) c : In k (keys c) -> keys (set_assoc k v c) = keys c.
Proof.
  induction c as [|[k' v'] c IH]; cbn; [intros []|]. intros H.
  destruct (String.eqb_spec k k') as [->|Hn]; [reflexivity|]. cbn. f_equal. apply IH.
  destruct H; [congruence | assumption].
Qed.
Definition defaults_onto (def : list (string * (cfgtype * val))) (c : config) : config :=
  fold_left (fun c d => set_assoc (fst d) (snd (snd d)) c) def c.
Lemma config_defaults_eq r : config_defaults r = defaults_onto (r_definition r) (r_config r).
Proof. reflexivity. Qed.
Lemma defaults_keys_existing def : forall c, incl (keys def) (keys c) -> keys (defaults_onto def c) = keys c.
Proof.
  induction def as [|[k [t v]] def IH]; intros c H; [reflexivity|]. cbn [defaults_onto fold_left fst snd].
  assert (Hk : keys (set_assoc k v c) = keys c) by (apply keys_set_existing, H; now left).
  change (keys (defaults_onto def (set_assoc k v c)) = keys c). rewrite IH; [exact Hk|].
  rewrite Hk. intros x Hx. apply H. now right.
Qed.
Lemma defaults_assoc def : forall c1 c2 k, (~ In k (keys def) -> assoc k c1 = assoc k c2) ->
  assoc k (defaults_onto def c1) = assoc k (defaults_onto def c2).
Proof.
  induction def as [|[kd [t v]] def IH]; intros c1 c2 k H; [apply H; intros []|].
  cbn [defaults_onto fold_left fst snd]. apply IH. intros Hn.
  destruct (String.eqb_spec k kd) as [->|Hne]; [now rewrite !assoc_set_same|].
  rewrite !assoc_set_other by exact Hne. apply H. intros [Hx|Hx]; [cbn in Hx; congruence | contradiction].
Qed.
Lemma defaults_incl def : forall c, incl (keys def) (keys (defaults_onto def c)) /\ incl (keys c) (keys (defaults_onto def c)).
Proof.
  induction def as [|[k [t v]] def IH]; intros c; [split; [intros ? [] | apply incl_refl]|].
  cbn [defaults_onto fold_left fst snd]. destruct (IH (set_assoc k v c)) as [H1 H2].
  assert (Hs : incl (k :: keys c) (keys (set_assoc k v c))).
  { intros x [<-|Hx]; apply keys_set_in; [now left | now right]. }
  split.
  - intros x [<-|Hx]; [apply H2, Hs; now left | now apply H1].
  - intros x Hx. apply H2, Hs. now right.
Qed.
Lemma defaults_NoDup def : forall c, NoDup (keys c) -> NoDup (keys (defaults_onto def c)).
Proof.
  induction def as [|[k [t v]] def IH]; intros c H; [exact H|]. cbn [defaults_onto fold_left fst snd].
  apply IH. now apply keys_set_NoDup.
Qed.

Section Cfg.
Variable str : val -> string.

Lemma config_apply_keys def cs : forall c c',
  incl (keys def) (keys c) -> config_apply str def cs c = Ok c' ->
  keys c' = keys c /\ (forall k, ~ In k (keys def) -> assoc k c' = assoc k c).
Proof.
  assert (Hstep : forall c key v c' rest, incl (keys def) (keys c) -> In key (keys def) ->
    (forall c0 c1, incl (keys def) (keys c0) -> config_apply str def rest c0 = Ok c1 ->
       keys c1 = keys c0 /\ (forall k, ~ In k (keys def) -> assoc k c1 = assoc k c0)) ->
    config_apply str def rest (set_assoc key v c) = Ok c' ->
    keys c' = keys c /\ (forall k, ~ In k (keys def) -> assoc k c' = assoc k c)).
  { intros c key v c' rest Hi Hk IH H.
    assert (Hks : keys (set_assoc key v c) = keys c) by (apply keys_set_existing; now apply Hi).
    apply IH in H as [H1 H2]; [|now rewrite Hks]. split; [congruence|].
    intros k Hn. rewrite (H2 k Hn). apply assoc_set_other. intros ->. contradiction. }
  induction cs as [|[key value] cs IH]; intros c c' Hi H; cbn [config_apply] in H; [inversion H; now split|].
  destruct (assoc key def) as [[t dv]|] eqn:E; [|now apply (IH c)].
  assert (Hk : In key (keys def)) by (apply assoc_Some_key; eauto).
  destruct t.
  - eapply Hstep; eauto.
  - eapply Hstep; eauto.
  - destruct (py_int value) as [z|]; cbn [bind] in H; [|discriminate]. eapply Hstep; eauto.
Qed.

(** A rule whose configuration was set from the defaults: configuring it again starts from the same point. *)
Lemma defaults_after_apply def cs c0 c' :
  c0 = defaults_onto def [] -> config_apply str def cs c0 = Ok c' -> defaults_onto def c' = c0.
Proof.
  intros Hc0 H. assert (Hi : incl (keys def) (keys c0)) by (subst; apply defaults_incl).
  destruct (config_apply_keys _ _ _ _ Hi H) as [Hk Ha].
  assert (Hidem : defaults_onto def c0 = c0).
  { apply assoc_ext.
    - apply defaults_NoDup. subst. apply defaults_NoDup. constructor.
    - now apply defaults_keys_existing.
    - intros k. rewrite Hc0 at 2. apply defaults_assoc. intros Hn. subst c0.
      clear -Hn. assert (Hx : forall d c, ~ In k (keys d) -> assoc k (defaults_onto d c) = assoc k c).
      { induction d as [|[kd [t v]] d IH]; intros c Hnd; [reflexivity|]. cbn [defaults_onto fold_left fst snd].
        change (assoc k (defaults_onto d (set_assoc kd v c)) = assoc k c).
        rewrite IH by (intros Hx; apply Hnd; now right). apply assoc_set_other. intros ->. apply Hnd. now left. }
      rewrite Hx by exact Hn. reflexivity. }
  transitivity (defaults_onto def c0); [|exact Hidem]. apply assoc_ext.
  - rewrite defaults_keys_existing by now rewrite Hk. rewrite Hk. subst. apply defaults_NoDup. constructor.
  - rewrite !defaults_keys_existing; [exact Hk | exact Hi | now rewrite Hk].
  - intros k. apply defaults_assoc. intros Hn. now apply Ha.
Qed.

(** * The invariant on the cached rules *)
Variable cfg : list (string * val).          (* the rule configuration in force, the same for every template *)

(** Same rule, apart from its configuration and type lists. *)
Definition same_rule (r0 r : rule) : Prop :=
  r_id r = r_id r0 /\ r_experimental r = r_experimental r0 /\ r_definition r = r_definition r0 /\ r_init r = r_init r0 /\
  r_match r = r_match r0 /\ r_match_props r = r_match_props r0 /\ r_match_subs r = r_match_subs r0.
Definition types_inv (r0 r : rule) : Prop :=
  forall c x,
   (In x (r_types r0) -> In x (r_types r)) /\ (In x (r_types r) -> In x (r_types r0) \/ In x (fst (r_init r0 c))) /\
   (In x (r_subtypes r0) -> In x (r_subtypes r)) /\ (In x (r_subtypes r) -> In x (r_subtypes r0) \/ In x (snd (r_init r0 c))).
Definition config_inv (r0 r : rule) : Prop :=
  r_config r = r_config r0 \/
  exists cs r1, assoc (r_id r0) cfg = Some cs /\ rule_configure str r0 cs = Ok r1 /\ r_config r = r_config r1.
Definition inv (r0 r : rule) : Prop := same_rule r0 r /\ types_inv r0 r /\ config_inv r0 r.

(** A rule as its constructor leaves it, with type lists that do not depend on the template. *)
Definition fresh (r0 : rule) : Prop :=
  r_config r0 = defaults_onto (r_definition r0) [] /\ (forall c c', r_init r0 c = r_init r0 c').

Lemma inv_refl r0 : inv r0 r0.
Proof. repeat split; auto. now left. Qed.

Lemma rule_configure_inv r0 r cs :
  fresh r0 -> inv r0 r -> assoc (r_id r0) cfg = Some cs ->
  (exists r1 r2, rule_configure str r0 cs = Ok r1 /\ rule_configure str r cs = Ok r2 /\ r_config r2 = r_config r1 /\
                 same_rule r0 r2 /\ types_inv r0 r2 /\ config_inv r0 r2) \/
  (exists e, rule_configure str r0 cs = Err e /\ rule_configure str r cs = Err e).
Proof.
  intros [Hf _] [Hs [Ht Hc]] Ha.
  assert (Hd : config_defaults r = config_defaults r0).
  { rewrite !config_defaults_eq. destruct Hs as [_ [_ [Hdef _]]]. rewrite Hdef.
    destruct Hc as [Hc|[cs' [r1 [Ha' [Hr1 Hc]]]]]; [now rewrite Hc|].
    rewrite Hc. rewrite Hf. rewrite Ha in Ha'. inversion Ha'; subst cs'. clear Ha'.
    assert (Hdd : defaults_onto (r_definition r0) (defaults_onto (r_definition r0) []) = defaults_onto (r_definition r0) []).
    { apply (defaults_after_apply (r_definition r0) [] (defaults_onto (r_definition r0) [])); reflexivity. }
    unfold rule_configure in Hr1. rewrite config_defaults_eq, Hf, Hdd in Hr1. rewrite Hdd.
    destruct cs; try (inversion Hr1; subst; cbn; exact Hdd).
    destruct (config_apply str (r_definition r0) d (defaults_onto (r_definition r0) [])) as [c1|] eqn:E; cbn [bind] in Hr1; [|discriminate].
    inversion Hr1; subst; cbn. eapply defaults_after_apply; eauto. }
  assert (Hgen : forall c1, same_rule r0 (set_config r c1) /\ types_inv r0 (set_config r c1)).
  { intros c1. split; [exact Hs|]. exact Ht. }
  assert (Hcase : (exists c1, rule_configure str r0 cs = Ok (set_config r0 c1) /\ rule_configure str r cs = Ok (set_config r c1)) \/
                  (exists e, rule_configure str r0 cs = Err e /\ rule_configure str r cs = Err e)).
  { unfold rule_configure. rewrite Hd. destruct Hs as [_ [_ [Hdef _]]]. rewrite Hdef.
    destruct cs; try (left; eexists; split; reflexivity).
    destruct (config_apply str (r_definition r0) d (config_defaults r0)) as [c1|e]; cbn [bind];
      [left; now exists c1 | right; now exists e]. }
  destruct Hcase as [[c1 [H1 H2]]|He]; [|now right].
  left. exists (set_config r0 c1), (set_config r c1). destruct (Hgen c1) as [G1 G2].
  split; [exact H1|]. split; [exact H2|]. split; [reflexivity|]. split; [exact G1|]. split; [exact G2|].
  right. exists cs, (set_config r0 c1). auto.
Qed.

(** What a run sees of a rule. *)
Definition run_eq (r0 r : rule) : Prop :=
  same_rule r0 r /\ r_config r = r_config r0 /\
  (forall x, In x (r_types r0) <-> In x (r_types r)) /\ (forall x, In x (r_subtypes r0) <-> In x (r_subtypes r)).

(** Registering: fresh rule [r0] and cached rule [r]. *)
Definition reg_rel (s : settings) (r0 a b : rule) : Prop :=
  (enabled s r0 = true -> same_rule a b /\ r_config b = r_config a /\ types_inv a b) /\
  same_rule r0 a /\ inv r0 b.
Lemma register_rel s r0 r :
  s_configure s = cfg -> fresh r0 -> inv r0 r ->
  (exists a b, register_effect str s r0 = Ok a /\ register_effect str s r = Ok b /\ reg_rel s r0 a b) \/
  (exists e, register_effect str s r0 = Err e /\ register_effect str s r = Err e).
Proof.
  intros Hcfg Hf Hi. assert (Hi' := Hi). destruct Hi as [Hs [Ht Hc]].
  unfold register_effect.
  assert (Hen : enabled s r = enabled s r0).
  { unfold enabled. destruct Hs as [-> [-> _]]. reflexivity. }
  rewrite Hen. destruct (enabled s r0) eqn:En.
  - assert (Hid : r_id r = r_id r0) by apply Hs. rewrite Hid, Hcfg.
    destruct (assoc (r_id r0) cfg) as [cs|] eqn:Ha.
    + destruct (rule_configure_inv r0 r cs Hf Hi' Ha) as [[r1 [r2 [H1 [H2 [H3 [H4 [H5 H6]]]]]]]|[e He]]; [|right; now exists e].
      left. exists r1, r2. split; [exact H1|]. split; [exact H2|].
      assert (Hr1 : exists c1, r1 = set_config r0 c1).
      { unfold rule_configure in H1. destruct cs; try (inversion H1; eexists; reflexivity).
        destruct (config_apply _ _ _ _); cbn in H1; [|discriminate]. inversion H1. eexists; reflexivity. }
      destruct Hr1 as [c1 ->].
      split; [|split; [repeat split | split; [exact H4 | split; [exact H5 | exact H6]]]].
      intros _. split; [exact H4|]. split; [exact H3 | exact H5].
    + left. exists r0, r. split; [reflexivity|]. split; [reflexivity|].
      split; [|split; [repeat split | exact Hi']].
      intros _. split; [exact Hs|]. split; [|exact Ht].
      destruct Hc as [Hc|[cs [r1 [Hx _]]]]; [exact Hc | congruence].
  - left. exists r0, r. split; [reflexivity|]. split; [reflexivity|].
    split; [intros Hx; congruence | split; [repeat split | exact Hi']].
Qed.
End Cfg.

(** * Collections *)
Lemma coll_extend_map str s rs : forall acc,
  coll_extend str (mkColl acc s) rs = do rs' <- map_res (register_effect str s) rs; Ok (mkColl (acc ++ rs') s).
Proof.
  induction rs as [|r rs IH]; intros acc; cbn [coll_extend map_res]; [cbn [bind]; now rewrite app_nil_r|].
  unfold coll_register; cbn [k_all k_set]. destruct (register_effect str s r) as [r'|e]; cbn [bind]; [|reflexivity].
  rewrite IH. destruct (map_res (register_effect str s) rs) as [rs'|e]; cbn [bind]; [|reflexivity].
  now rewrite <- app_assoc.
Qed.
Lemma coll_new_map str rs ig inc cfg ex man :
  coll_new str rs ig inc cfg ex man =
  do rs' <- map_res (register_effect str (mkSettings ex ig (add_default_includes inc) man cfg)) rs;
  Ok (mkColl rs' (mkSettings ex ig (add_default_includes inc) man cfg)).
Proof. unfold coll_new. now rewrite coll_extend_map. Qed.

Section Hist.
Variable str : val -> string.
Variable cfg : list (string * val).

Inductive reg_rels (s : settings) : list rule -> list rule -> list rule -> Prop :=
| rr_nil : reg_rels s [] [] []
| rr_cons : forall r0 a b l0 la lb, reg_rel str cfg s r0 a b -> reg_rels s l0 la lb ->
    reg_rels s (r0 :: l0) (a :: la) (b :: lb).

Lemma register_all s rs0 rs :
  s_configure s = cfg -> Forall fresh rs0 -> Forall2 (inv str cfg) rs0 rs ->
  (exists la lb, map_res (register_effect str s) rs0 = Ok la /\ map_res (register_effect str s) rs = Ok lb /\
     reg_rels s rs0 la lb) \/
  (exists e, map_res (register_effect str s) rs0 = Err e /\ map_res (register_effect str s) rs = Err e).
Proof.
  intros Hcfg Hf Hi. induction Hi as [|r0 r l0 l Hr Hl IH]; cbn [map_res].
  - left. exists [], []. repeat split; constructor.
  - inversion Hf as [|? ? Hf0 Hf']; subst. specialize (IH Hf').
    destruct (register_rel str cfg s r0 r Hcfg Hf0 Hr) as [[a [b [Ha [Hb Hab]]]]|[e [Ha Hb]]];
      rewrite Ha, Hb; cbn [bind]; [|right; now exists e].
    destruct IH as [[la [lb [Hla [Hlb Hlab]]]]|[e [Hla Hlb]]]; rewrite Hla, Hlb; cbn [bind]; [|right; now exists e].
    left. exists (a :: la), (b :: lb). repeat split. now constructor.
Qed.

(** After registration the two collections run alike, and the cached one keeps the invariant. *)
Lemma reg_rels_inv s l0 la lb : reg_rels s l0 la lb -> Forall2 (inv str cfg) l0 lb.
Proof. induction 1 as [|r0 a b l0 la lb H Hs IH]; constructor; [apply H | exact IH]. Qed.

Definition init_rule (s : settings) (c : cfn) (r : rule) : rule :=
  if enabled s r then add_types r (fst (r_init r c)) (snd (r_init r c)) else r.
Lemma init_rules s c l :
  rules (initialize_all (mkColl l s) c) =
  map (fun r => add_types r (fst (r_init r c)) (snd (r_init r c))) (filter (enabled s) l).
Proof.
  unfold rules, initialize_all; cbn [k_all k_set]. induction l as [|r l IH]; [reflexivity|].
  cbn [map filter]. destruct (enabled s r) eqn:E.
  - assert (E' : enabled s (add_types r (fst (r_init r c)) (snd (r_init r c))) = true) by exact E.
    rewrite E'. cbn [map]. now rewrite IH.
  - rewrite E. exact IH.
Qed.
Lemma reg_rels_run s l0 la lb c :
  Forall fresh l0 -> reg_rels s l0 la lb ->
  Forall2 run_eq (rules (initialize_all (mkColl la s) c)) (rules (initialize_all (mkColl lb s) c)).
Proof.
  intros Hf H. rewrite !init_rules.
  induction H as [|r0 a b l0 la lb [Hen [Hsa Hib]] Hs IH]; [constructor|].
  inversion Hf as [|? ? Hf0 Hf']; subst. specialize (IH Hf'). cbn [filter].
  assert (Ea : enabled s a = enabled s r0) by (unfold enabled; destruct Hsa as [-> [-> _]]; reflexivity).
  assert (Eb : enabled s b = enabled s r0) by (unfold enabled; destruct Hib as [[-> [-> _]] _]; reflexivity).
  rewrite Ea, Eb. destruct (enabled s r0) eqn:E; [|exact IH].
  cbn [map]. constructor; [|exact IH].
  destruct (Hen eq_refl) as [Hab [Hc Ht]].
  assert (Hini : r_init b = r_init a) by apply Hab.
  split; [exact Hab|]. split; [exact Hc|]. cbn [r_types r_subtypes add_types]. rewrite Hini.
  split; intros x; destruct (Ht c x) as [T1 [T2 [T3 T4]]]; rewrite !in_app_iff; split; intros [Hx|Hx]; auto.
Qed.

Lemma smem_ext x l l' : (forall y, In y l <-> In y l') -> smem x l = smem x l'.
Proof.
  intros H. apply eq_true_iff_eq. rewrite !smem_iff. apply H.
Qed.
Lemma run_eq_checks r0 r c : run_eq r0 r ->
  matchall r c = matchall r0 c /\
  (forall props t p, matchall_props r c props t p = matchall_props r0 c props t p) /\
  (forall props t p, matchall_subs r c props t p = matchall_subs r0 c props t p).
Proof.
  intros [[Hid [Hex [Hd [Hin [Hm [Hp Hsub]]]]]] [Hc [Ht Hst]]].
  unfold matchall, matchall_props, matchall_subs. rewrite Hid, Hc, Hm, Hp, Hsub.
  split; [reflexivity|]. split; intros props t p.
  - rewrite (smem_ext t (r_types r) (r_types r0)) by (intros y; symmetry; apply Ht). reflexivity.
  - rewrite (smem_ext t (r_subtypes r) (r_subtypes r0)) by (intros y; symmetry; apply Hst). reflexivity.
Qed.
Lemma concat_res_rules s file (f : rule -> res (list finding)) (l0 l : list rule) :
  Forall2 run_eq l0 l -> (forall r0 r, run_eq r0 r -> f r = f r0) ->
  concat_res (fun r => run_check s file (r_id r) (f r)) l0 = concat_res (fun r => run_check s file (r_id r) (f r)) l.
Proof.
  intros H Hf. induction H as [|r0 r l0 l Hr Hl IH]; [reflexivity|]. cbn [concat_res].
  rewrite IH, (Hf r0 r Hr). destruct Hr as [[-> _] _]. reflexivity.
Qed.
Lemma run_body_eq sp k0 k c :
  k_set k0 = k_set k -> Forall2 run_eq (rules k0) (rules k) -> run_body sp k0 c = run_body sp k c.
Proof.
  intros Hs Hr. apply (run_body_rel eq); try reflexivity.
  - intros a a' b b' -> ->. reflexivity.
  - intros props name p. unfold sub_checks.
    assert (Hplain : concat_res (fun r => run_check (k_set k0) (c_file c) (r_id r) (matchall_subs r c props name p)) (rules k0)
                   = concat_res (fun r => run_check (k_set k) (c_file c) (r_id r) (matchall_subs r c props name p)) (rules k)).
    { rewrite Hs. apply concat_res_rules; [exact Hr|]. intros r0 r H. now apply run_eq_checks. }
    destruct props as [| | | | | |[|[key x] [|? ?]]]; try exact Hplain.
    destruct (String.eqb key "Fn::If"); [|exact Hplain].
    clear. generalize (rules k0) (rules k). intros l l'.
    assert (H : forall l : list rule, concat_res (fun _ : rule => Ok (@nil finding)) l = Ok []).
    { induction l0 as [|y l0 IH]; [reflexivity|]. cbn [concat_res bind]. now rewrite IH. }
    now rewrite !H.
  - intros rt ts _. now right.
  - intros props rt p. rewrite Hs. apply concat_res_rules; [exact Hr|]. intros r0 r H. now apply run_eq_checks.
  - rewrite Hs. apply concat_res_rules; [exact Hr|]. intros r0 r H. now apply run_eq_checks.
Qed.

(** The state after a run keeps the invariant. *)
Lemma initialize_inv s l0 lb c :
  Forall fresh l0 -> Forall2 (inv str cfg) l0 lb -> Forall2 (inv str cfg) l0 (k_all (initialize_all (mkColl lb s) c)).
Proof.
  intros Hf H. cbn [initialize_all k_all k_set].
  induction H as [|r0 r l0 l Hr Hl IH]; cbn [map]; constructor.
  - inversion Hf as [|? ? [_ Hini] _]; subst. destruct (enabled s r); [|exact Hr].
    destruct Hr as [Hs [Ht Hc]]. split; [exact Hs|]. split; [|exact Hc].
    assert (Hi : r_init r = r_init r0) by apply Hs. intros c0 x. destruct (Ht c0 x) as [T1 [T2 [T3 T4]]].
    cbn [r_types r_subtypes add_types]. rewrite Hi, !in_app_iff, (Hini c c0).
    intuition.
  - apply IH. now inversion Hf.
Qed.
End Hist.

(** * Whole runs *)
Lemma fresh_rule_fresh r : fresh_rule r -> fresh r.
Proof.
  intros [Hn [Hc Hi]]. split; [|exact Hi]. rewrite Hc.
  assert (H : forall def c, NoDup (map fst def) -> (forall k, In k (map fst def) -> ~ In k (keys c)) ->
            defaults_onto def c = c ++ map (fun d => (fst d, snd (snd d))) def).
  { induction def as [|[k [t v]] def IH]; intros c Hnd Hdis; [now rewrite app_nil_r|].
    cbn [map fst snd] in *. inversion Hnd as [|? ? Hk Hnd']; subst.
    change (defaults_onto def (set_assoc k v c) = c ++ (k, v) :: map (fun d => (fst d, snd (snd d))) def).
    assert (Hs : set_assoc k v c = c ++ [(k, v)]).
    { assert (Hkc : ~ In k (keys c)) by (apply Hdis; now left). clear -Hkc.
      induction c as [|[k' v'] c IHc]; [reflexivity|]. cbn in *.
      destruct (String.eqb_spec k k') as [->|]; [exfalso; apply Hkc; now left|]. f_equal. apply IHc. tauto. }
    rewrite Hs, IH; [now rewrite <- app_assoc | exact Hnd' |].
    intros x Hx. unfold keys. rewrite map_app, in_app_iff. cbn. intros [Hy|[Hy|[]]].
    - apply (Hdis x); [now right | exact Hy].
    - subst. contradiction. }
  rewrite (H _ []); [reflexivity | exact Hn | intros k _ []].
Qed.

Section Main.
Variable str_other : val -> string.
Variable sp : spec.
Variable tr : translator.
Variable all_rules : list rule.
Variables cli_args file_args : args.
Hypothesis Hfresh : Forall fresh all_rules.

Notation source := (src cli_args file_args).
Notation base_cfg := (configure_rules (source [])).

Lemma assoc_none_lookup a : assoc "configure_rules" a = None -> configure_rules (source a) = base_cfg.
Proof.
  intros H. unfold configure_rules, option_value. cbn [option_sources smem existsb].
  change (option_sources "configure_rules") with (true, true). cbn [fst snd].
  unfold get_argument_value, lookup. cbn [cli tmpl file src]. rewrite H. reflexivity.
Qed.

Definition state_inv (st : state) : Prop :=
  (exists b, ignore_bad cli_args file_args st = Ok b) /\
  match st_rules st with
  | None => True
  | Some k => Forall2 (inv str_other base_cfg) all_rules (k_all k)
  end.

Notation fresh_inv := (Forall2 (inv str_other base_cfg) all_rules).
Lemma fresh_inv_refl : fresh_inv all_rules.
Proof. clear Hfresh. induction all_rules; constructor; auto using inv_refl. Qed.

(** The collection used for a template, as a function of the rule objects at hand. *)
Definition build (rs : list rule) (a : args) : res collection :=
  let s := source a in
  do ig <- ignore_checks s; do inc <- include_checks s; do man <- mandatory_checks s;
  let set := mkSettings (include_experimental s) ig (add_default_includes inc) man (configure_rules s) in
  do rs' <- map_res (register_effect str_other set) rs; Ok (mkColl rs' set).
Definition at_hand (st : state) : list rule :=
  match st_rules st with
  | Some k => match rules k with [] => all_rules | _ => k_all k end
  | None => all_rules
  end.
Lemma build_eq st a :
  (let s := source a in
   do ig <- ignore_checks s; do inc <- include_checks s; do man <- mandatory_checks s;
   match st_rules st with
   | Some (mkColl all st0) =>
       match rules (mkColl all st0) with
       | [] => coll_new str_other all_rules ig inc (configure_rules s) (include_experimental s) man
       | _ => coll_configure str_other (mkColl all st0) ig inc (configure_rules s) (include_experimental s) man
       end
   | None => coll_new str_other all_rules ig inc (configure_rules s) (include_experimental s) man
   end) = build (at_hand st) a.
Proof.
  unfold build, at_hand. cbn zeta.
  destruct (ignore_checks (source a)) as [ig|]; cbn [bind]; [|reflexivity].
  destruct (include_checks (source a)) as [inc|]; cbn [bind]; [|reflexivity].
  destruct (mandatory_checks (source a)) as [man|]; cbn [bind]; [|reflexivity].
  destruct (st_rules st) as [[all st0]|]; [|apply coll_new_map].
  destruct (rules (mkColl all st0)); [apply coll_new_map | reflexivity].
Qed.
Lemma at_hand_inv st : state_inv st -> fresh_inv (at_hand st).
Proof.
  intros [_ H]. unfold at_hand. destruct (st_rules st) as [k|]; [|apply fresh_inv_refl].
  destruct (rules k); [apply fresh_inv_refl | exact H].
Qed.

Lemma build_rel rs a :
  fresh_inv rs -> assoc "configure_rules" a = None ->
  (exists s la lb, build all_rules a = Ok (mkColl la s) /\ build rs a = Ok (mkColl lb s) /\
     reg_rels str_other base_cfg s all_rules la lb) \/
  (exists e, build all_rules a = Err e /\ build rs a = Err e).
Proof.
  intros Hi Ha. unfold build. cbn zeta.
  destruct (ignore_checks (source a)) as [ig|e]; cbn [bind]; [|right; now exists e].
  destruct (include_checks (source a)) as [inc|e]; cbn [bind]; [|right; now exists e].
  destruct (mandatory_checks (source a)) as [man|e]; cbn [bind]; [|right; now exists e].
  set (s := mkSettings _ _ _ _ _).
  destruct (register_all str_other base_cfg s all_rules rs) as [[la [lb [H1 [H2 H3]]]]|[e [H1 H2]]]; auto.
  - unfold s. cbn. now apply assoc_none_lookup.
  - left. exists s, la, lb. rewrite H1, H2. auto.
  - right. exists e. rewrite H1, H2. auto.
Qed.

Lemma build_options rs a k : build rs a = Ok k -> forall r, exists b, ignore_bad cli_args file_args (mkState r a) = Ok b.
Proof.
  unfold build, ignore_bad. cbn zeta. cbn [st_targs].
  destruct (ignore_checks (source a)) as [ig|]; cbn [bind]; [|discriminate].
  destruct (include_checks (source a)) as [inc|]; cbn [bind]; [|discriminate].
  destruct (mandatory_checks (source a)) as [man|]; cbn [bind]; [|discriminate].
  intros _ r. destruct (ignore_bad_template (source a)); eauto.
Qed.

Lemma run_checks_eq rg man c s l0 la lb :
  l0 = all_rules -> reg_rels str_other base_cfg s l0 la lb ->
  snd (run_checks sp tr (mkColl la s) rg man c) = snd (run_checks sp tr (mkColl lb s) rg man c) /\
  fresh_inv (k_all (fst (run_checks sp tr (mkColl lb s) rg man c))).
Proof.
  intros -> H.
  assert (Hi : fresh_inv lb) by (eapply reg_rels_inv; eauto).
  assert (Hrun : forall c', snd (runner_run sp (mkColl la s) man c') = snd (runner_run sp (mkColl lb s) man c') /\
                   fresh_inv (k_all (fst (runner_run sp (mkColl lb s) man c')))).
  { intros c'. unfold runner_run. rewrite !coll_run_body. cbn [fst snd]. split.
    - rewrite (run_body_eq sp (initialize_all (mkColl la s) c') (initialize_all (mkColl lb s) c') c'); [reflexivity| |].
      + reflexivity.
      + eapply reg_rels_run; eauto.
    - now apply initialize_inv. }
  unfold run_checks. destruct (negb _); [now split|].
  assert (Hgo : forall c',
    snd (let '(k', r) := runner_run sp (mkColl la s) man c' in
         (k', Findings (match r with Ok ms => sort_findings ms | Err _ => [] end))) =
    snd (let '(k', r) := runner_run sp (mkColl lb s) man c' in
         (k', Findings (match r with Ok ms => sort_findings ms | Err _ => [] end))) /\
    fresh_inv (k_all (fst (let '(k', r) := runner_run sp (mkColl lb s) man c' in
         (k', Findings (match r with Ok ms => sort_findings ms | Err _ => [] end)))))).
  { intros c'. destruct (Hrun c') as [H1 H2].
    destruct (runner_run sp (mkColl la s) man c') as [k1 r1], (runner_run sp (mkColl lb s) man c') as [k2 r2].
    cbn [fst snd] in *. subst. now split. }
  destruct (wants_transform (template c)).
  - destruct (tr c) as [es t']. destruct es; [apply Hgo | now split].
  - apply Hgo.
Qed.

Notation lint1 := (lint_one str_other sp tr all_rules cli_args file_args).

Lemma lint_one_same st n d :
  state_inv st -> plain_file d -> (exists b0, ignore_bad cli_args file_args initial_state = Ok b0) ->
  snd (lint1 st n d) = snd (lint1 initial_state n d) /\
  (forall l, snd (lint1 st n d) = Ok (Findings l) -> state_inv (fst (lint1 st n d))).
Proof.
  intros Hst Hd [b0 Hb0]. assert (Hst' := Hst). destruct Hst as [[b Hb] Hr].
  unfold lint_one, get_template_rules. rewrite Hb, Hb0. destruct d as [t|es].
  - cbn in Hd. destruct (set_template_args (erase t)) as [a|e]; [|now split].
    assert (Ha : assoc "configure_rules" a = None) by (apply assoc_None; now apply Hd).
    assert (E1 := build_eq st a). assert (E2 := build_eq initial_state a). cbn zeta in E1, E2.
    cbn zeta. rewrite E1, E2. change (at_hand initial_state) with all_rules.
    destruct (build_rel (at_hand st) a (at_hand_inv st Hst') Ha) as [[s [la [lb [H1 [H2 H3]]]]]|[e [H1 H2]]];
      rewrite H1, H2; cbn [fst snd]; [|split; [reflexivity | discriminate]].
    assert (Hopt := build_options _ _ _ H1).
    assert (Hlb : fresh_inv lb) by (eapply reg_rels_inv; eauto).
    cbn [fst snd st_targs]. destruct (negb (truthy (erase t))).
    + cbn [fst snd]. split; [reflexivity|]. intros _ _. split; [apply Hopt | exact Hlb].
    + destruct (regions (source a)) as [rg|e]; [|split; [reflexivity | discriminate]].
      destruct (mandatory_checks (source a)) as [man|e]; [|split; [reflexivity | discriminate]].
      destruct (run_checks_eq rg man (mkCfn n (hd "us-east-1" rg) t) s all_rules la lb eq_refl H3) as [G1 G2].
      destruct (run_checks sp tr (mkColl la s) rg man _) as [k1 o1].
      destruct (run_checks sp tr (mkColl lb s) rg man _) as [k2 o2]. cbn [fst snd] in *. subst.
      split; [reflexivity|]. intros _ _. split; [apply Hopt | exact G2].
  - cbn [fst snd]. assert (Hes : forall bb, match es with
                    | [e] => if bb && String.eqb (f_rule e) "E0000" then [] else es
                    | _ => es end = es).
    { intros bb. destruct es as [|e [|? ?]]; try reflexivity.
      assert (Hx := Hd e eq_refl). apply String.eqb_neq in Hx. rewrite Hx, andb_false_r. reflexivity. }
    rewrite !Hes. split; [reflexivity|]. intros _ _. exact Hst'.
Qed.

Lemma lint_all_collect files : forall st acc,
  state_inv st -> (exists b0, ignore_bad cli_args file_args initial_state = Ok b0) ->
  Forall (fun nd => plain_file (snd nd)) files ->
  snd (lint_all str_other sp tr all_rules cli_args file_args st files acc) =
  collect acc (map (fun nd => snd (lint1 initial_state (fst nd) (snd nd))) files).
Proof.
  induction files as [|[n d] files IH]; intros st acc Hst Hb0 Hf; [reflexivity|].
  inversion Hf as [|? ? Hd Hf']; subst. cbn [lint_all map collect fst snd] in *.
  destruct (lint_one_same st n d Hst Hd Hb0) as [H1 H2].
  rewrite <- H1. destruct (lint1 st n d) as [st' o]. cbn [fst snd] in *.
  destruct o as [[l|c]|e]; try reflexivity. apply IH; auto. now apply (H2 l).
Qed.
End Main.

Lemma c07_partial str sp tr all_rules cli_args file_args files :
  Forall fresh_rule all_rules -> Forall (fun nd => plain_file (snd nd)) files ->
  snd (lint_all str sp tr all_rules cli_args file_args initial_state files []) =
  collect [] (map (fun nd => snd (lint_one str sp tr all_rules cli_args file_args initial_state (fst nd) (snd nd))) files).
Proof.
  intros Hf Hd.
  assert (Hf' : Forall fresh all_rules) by (eapply Forall_impl; [|exact Hf]; apply fresh_rule_fresh).
  destruct (ignore_bad cli_args file_args initial_state) as [b0|e] eqn:E.
  - apply lint_all_collect; auto; [|now exists b0]. split; [now exists b0 | exact I].
  - destruct files as [|[n d] files]; [reflexivity|]. cbn [map fst snd lint_all collect].
    assert (H : lint_one str sp tr all_rules cli_args file_args initial_state n d = (initial_state, Err e)).
    { unfold lint_one, get_template_rules. now rewrite E. }
    rewrite H. reflexivity.
Qed.
