(** Proofs for rule selection, exit code, filtering and ordering of findings. *)
From Coq Require Import Lia ZifyBool Permutation Sorted.
From Verif.Model Require Import Base Node Locate Helpers Rules Runner Config Core.
From Verif.Spec Require Import Pipeline.
From Verif.Proofs Require Import BaseFacts.

(** * C01 *)
Lemma starts_with_iff p s : starts_with p s = true <-> is_prefix p s.
Proof. apply prefix_iff. Qed.

Lemma existsb_prefix l id :
  existsb (fun p => starts_with p id) l = true <-> exists p, In p l /\ is_prefix p id.
Proof.
  rewrite existsb_exists. split; intros [p [H1 H2]]; exists p; split; auto; now apply starts_with_iff.
Qed.

Lemma existsb_ignore l id :
  existsb (fun p => starts_with p id && negb (String.eqb p "")) l = true <->
  exists p, In p l /\ p <> ""%string /\ is_prefix p id.
Proof.
  rewrite existsb_exists. split.
  - intros [p [H1 H2]]. apply andb_true_iff in H2 as [H2 H3]. exists p. repeat split; auto.
    + intros ->. discriminate.
    + now apply starts_with_iff.
  - intros [p [H1 [H2 H3]]]. exists p. split; [exact H1|]. apply andb_true_iff. split.
    + now apply starts_with_iff.
    + apply negb_true_iff. now apply String.eqb_neq.
Qed.

Lemma is_enabled_spec id ex wex ig inc man :
  is_enabled id ex wex ig inc man = true <-> selected id ex wex ig inc man.
Proof.
  unfold is_enabled, selected.
  rewrite <- !existsb_prefix, <- existsb_ignore.
  destruct ex, wex, (existsb (fun p => starts_with p id) inc), (existsb (fun p => starts_with p id) man),
    (existsb (fun p => starts_with p id && negb (String.eqb p "")) ig); cbn;
    split; intros H; try discriminate; try reflexivity;
    repeat match goal with
           | H : _ /\ _ |- _ => destruct H
           | H : _ \/ _ |- _ => destruct H
           end; try congruence; repeat split; auto; try (right; congruence).
Qed.

Lemma add_default_includes_spec inc p :
  In p (add_default_includes inc) <-> In p inc \/ p = "W"%string \/ p = "E"%string.
Proof.
  unfold add_default_includes.
  destruct (smem "W" inc) eqn:HW.
  - apply smem_iff in HW. destruct (smem "E" inc) eqn:HE.
    + apply smem_iff in HE. intuition (subst; auto).
    + rewrite in_app_iff; cbn. intuition (subst; auto).
  - destruct (smem "E" (inc ++ ["W"])) eqn:HE.
    + apply smem_iff in HE. rewrite in_app_iff in *; cbn in *.
      intuition (subst; auto); try congruence.
    + rewrite !in_app_iff; cbn. intuition (subst; auto).
Qed.

Lemma rules_spec k r :
  In r (rules k) <->
  In r (k_all k) /\ selected (r_id r) (r_experimental r) (s_experimental (k_set k)) (s_ignore (k_set k))
                     (s_include (k_set k)) (s_mandatory (k_set k)).
Proof. unfold rules. rewrite filter_In. unfold enabled, is_rule_enabled. now rewrite is_enabled_spec. Qed.

Lemma selected_ext id ex wex ig inc inc' man :
  (forall p, In p inc <-> In p inc') -> selected id ex wex ig inc man <-> selected id ex wex ig inc' man.
Proof.
  intros H. unfold selected.
  assert (He : (exists p, In p inc /\ is_prefix p id) <-> (exists p, In p inc' /\ is_prefix p id)).
  { split; intros [p [H1 H2]]; exists p; split; auto; now apply H. }
  tauto.
Qed.

(** ids and experimental flags are not changed by configuring. *)
Lemma rule_configure_id str r cs r' :
  rule_configure str r cs = Ok r' -> r_id r' = r_id r /\ r_experimental r' = r_experimental r.
Proof.
  unfold rule_configure. destruct cs; cbn; try (intros H; inversion H; now split).
  destruct (config_apply str (r_definition r) d (config_defaults r)) as [c|e]; cbn; intros H; inversion H; now split.
Qed.
Lemma register_effect_id str s r r' :
  register_effect str s r = Ok r' -> r_id r' = r_id r /\ r_experimental r' = r_experimental r.
Proof.
  unfold register_effect. destruct (enabled s r); [|intros H; inversion H; now split].
  destruct (assoc (r_id r) (s_configure s)); [apply rule_configure_id | intros H; inversion H; now split].
Qed.

Lemma coll_configure_set str k ig inc cfg ex man k' :
  coll_configure str k ig inc cfg ex man = Ok k' ->
  k_set k' = mkSettings ex ig (add_default_includes inc) man cfg /\
  map (fun r => (r_id r, r_experimental r)) (k_all k') = map (fun r => (r_id r, r_experimental r)) (k_all k).
Proof.
  unfold coll_configure.
  set (s := mkSettings ex ig (add_default_includes inc) man cfg).
  destruct (map_res (register_effect str s) (k_all k)) as [rs|e] eqn:E; cbn; [|discriminate].
  intros H; inversion H; subst; cbn. split; [reflexivity|].
  apply map_res_inv in E. induction E as [|x y l l' Hxy Hl IH]; cbn; [reflexivity|].
  apply register_effect_id in Hxy as [H1 H2]. now rewrite H1, H2, IH.
Qed.

Lemma coll_extend_set str rs k k' :
  coll_extend str k rs = Ok k' ->
  k_set k' = k_set k /\
  map (fun r => (r_id r, r_experimental r)) (k_all k') =
  map (fun r => (r_id r, r_experimental r)) (k_all k ++ rs).
Proof.
  revert k; induction rs as [|r rs IH]; intros k; cbn.
  - intros H; inversion H; subst. now rewrite app_nil_r.
  - unfold coll_register. destruct (register_effect str (k_set k) r) as [r'|e] eqn:E; cbn; [|discriminate].
    intros H. apply IH in H as [H1 H2]. cbn in H1, H2. split; [exact H1|].
    rewrite H2, !map_app, <- app_assoc. cbn. apply register_effect_id in E as [E1 E2]. now rewrite E1, E2.
Qed.

(** Which rules run, after any sequence of registering and configuring: determined by the requested lists plus W, E. *)
Lemma coll_configure_selects str k ig inc cfg ex man k' r :
  coll_configure str k ig inc cfg ex man = Ok k' -> In r (k_all k') ->
  (In r (rules k') <-> selected (r_id r) (r_experimental r) ex ig (inc ++ ["W"; "E"]) man).
Proof.
  intros H Hr. apply coll_configure_set in H as [Hs _]. rewrite rules_spec, Hs; cbn.
  rewrite (selected_ext _ _ _ _ (add_default_includes inc) (inc ++ ["W"; "E"])).
  - tauto.
  - intros p. rewrite add_default_includes_spec, in_app_iff; cbn. intuition (subst; auto).
Qed.
Lemma coll_new_selects str rs ig inc cfg ex man k' r :
  coll_new str rs ig inc cfg ex man = Ok k' -> In r (k_all k') ->
  (In r (rules k') <-> selected (r_id r) (r_experimental r) ex ig (inc ++ ["W"; "E"]) man).
Proof.
  intros H Hr. apply coll_extend_set in H as [Hs _]. rewrite rules_spec, Hs; cbn.
  rewrite (selected_ext _ _ _ _ (add_default_includes inc) (inc ++ ["W"; "E"])).
  - tauto.
  - intros p. rewrite add_default_includes_spec, in_app_iff; cbn. intuition (subst; auto).
Qed.

Lemma mandatory_always id ig inc man wex p :
  In p man -> is_prefix p id -> (exists q, In q inc /\ is_prefix q id) ->
  is_enabled id false wex ig inc man = true.
Proof.
  intros H1 H2 H3. apply is_enabled_spec. split; [now left|]. split; [exact H3|]. left. now exists p.
Qed.

(** * C02 *)
Lemma upper_char_cases (c : ascii) :
  (char_eqb (upper_char c) "I" = true <-> (c = "i"%char \/ c = "I"%char)) /\
  (char_eqb (upper_char c) "E" = true <-> (c = "e"%char \/ c = "E"%char)) /\
  (char_eqb (upper_char c) "W" = true <-> (c = "w"%char \/ c = "W"%char)).
Proof.
  destruct c as [[] [] [] [] [] [] [] []]; vm_compute;
    (split; [|split]); split; intros H; try discriminate; try reflexivity; auto;
    destruct H as [H|H]; discriminate.
Qed.

Lemma severity_spec id :
  (severity_of id = Error <-> first_letter "e" "E" id) /\
  (severity_of id = Warning <-> first_letter "w" "W" id) /\
  (severity_of id = Informational <-> first_letter "i" "I" id).
Proof.
  destruct id as [|c s].
  - cbn. repeat split; try discriminate; intros [c [r [H _]]]; discriminate.
  - destruct (upper_char_cases c) as [HI [HE HW]].
    assert (Hf : forall lo up, first_letter lo up (String c s) <-> (c = lo \/ c = up)).
    { intros lo up; unfold first_letter; split.
      - intros [c' [r [H1 H2]]]; inversion H1; now subst.
      - intros H; now exists c, s. }
    rewrite !Hf, <- HI, <- HE, <- HW. cbn [severity_of].
    assert (Hx : forall a b, char_eqb (upper_char c) a = true -> char_eqb (upper_char c) b = true -> a = b).
    { intros a b Ha Hb. apply char_eqb_eq in Ha, Hb. congruence. }
    destruct (char_eqb (upper_char c) "I") eqn:E1; destruct (char_eqb (upper_char c) "E") eqn:E2;
      destruct (char_eqb (upper_char c) "W") eqn:E3;
      try (specialize (Hx _ _ E1 E2); discriminate); try (specialize (Hx _ _ E1 E3); discriminate);
      try (specialize (Hx _ _ E2 E3); discriminate);
      repeat split; intros; try discriminate; reflexivity.
Qed.

Definition bit_of (n : Z) (sv : severity) : bool :=
  match sv with
  | Error => Z.eqb n 1 | Warning => Z.eqb n 2 | Informational => Z.eqb n 3 | Unknown => false
  end.
Lemma lor_bit code k n : (0 <= k)%Z ->
  Z.testbit (Z.lor code (2 ^ k)) n = Z.testbit code n || Z.eqb n k.
Proof.
  intros Hk. rewrite Z.lor_spec. f_equal. rewrite Z.pow2_bits_eqb by exact Hk. apply Z.eqb_sym.
Qed.
Lemma exit_step_bit code m n :
  Z.testbit (exit_step code m) n = Z.testbit code n || bit_of n (severity_of (f_rule m)).
Proof.
  unfold exit_step, bit_of. destruct (severity_of (f_rule m)).
  - change 8%Z with (2 ^ 3)%Z. apply lor_bit; lia.
  - change 2%Z with (2 ^ 1)%Z. apply lor_bit; lia.
  - change 4%Z with (2 ^ 2)%Z. apply lor_bit; lia.
  - now rewrite orb_false_r.
Qed.
Lemma exit_code_bit_acc ms code n :
  Z.testbit (fold_left exit_step ms code) n =
  Z.testbit code n || existsb (fun m => bit_of n (severity_of (f_rule m))) ms.
Proof.
  revert code; induction ms as [|m ms IH]; intros code; cbn [fold_left existsb].
  - now rewrite orb_false_r.
  - now rewrite IH, exit_step_bit, orb_assoc.
Qed.
Lemma exit_code_bit ms n :
  Z.testbit (get_exit_code ms) n = existsb (fun m => bit_of n (severity_of (f_rule m))) ms.
Proof. unfold get_exit_code. now rewrite exit_code_bit_acc, Z.bits_0. Qed.

Lemma exit_code_bits ms :
  (Z.testbit (get_exit_code ms) 1 = true <-> exists m, In m ms /\ is_error m) /\
  (Z.testbit (get_exit_code ms) 2 = true <-> exists m, In m ms /\ is_warning m) /\
  (Z.testbit (get_exit_code ms) 3 = true <-> exists m, In m ms /\ is_info m) /\
  (forall n, n <> 1%Z -> n <> 2%Z -> n <> 3%Z -> Z.testbit (get_exit_code ms) n = false).
Proof.
  rewrite !exit_code_bit, !existsb_exists.
  split; [|split; [|split]].
  - split; intros [m [H1 H2]]; exists m; split; auto.
    + apply severity_spec. destruct (severity_of (f_rule m)); cbn in H2; auto; discriminate.
    + apply severity_spec in H2. now rewrite H2.
  - split; intros [m [H1 H2]]; exists m; split; auto.
    + apply severity_spec. destruct (severity_of (f_rule m)); cbn in H2; auto; discriminate.
    + apply severity_spec in H2. now rewrite H2.
  - split; intros [m [H1 H2]]; exists m; split; auto.
    + apply severity_spec. destruct (severity_of (f_rule m)); cbn in H2; auto; discriminate.
    + apply severity_spec in H2. now rewrite H2.
  - intros n H1 H2 H3. rewrite exit_code_bit.
    destruct (existsb _ ms) eqn:E; [|reflexivity]. apply existsb_exists in E as [m [_ Hm]].
    destruct (severity_of (f_rule m)); cbn in Hm; lia.
Qed.

Lemma exit_code_zero ms :
  get_exit_code ms = 0%Z <-> forall m, In m ms -> ~ is_error m /\ ~ is_warning m /\ ~ is_info m.
Proof.
  destruct (exit_code_bits ms) as [H1 [H2 [H3 H4]]]. split.
  - intros H0. rewrite H0, Z.bits_0 in H1, H2, H3. intros m Hm.
    split; [|split]; intros Hx.
    + assert (false = true) by (apply H1; now exists m). discriminate.
    + assert (false = true) by (apply H2; now exists m). discriminate.
    + assert (false = true) by (apply H3; now exists m). discriminate.
  - intros H. apply Z.bits_inj_0. intros n.
    destruct (Z.testbit (get_exit_code ms) n) eqn:E; [|reflexivity].
    destruct (Z.eq_dec n 1) as [->|N1]; [apply H1 in E as [m [Hm He]]; now destruct (H m Hm)|].
    destruct (Z.eq_dec n 2) as [->|N2]; [apply H2 in E as [m [Hm He]]; now destruct (H m Hm) as [_ [? ?]]|].
    destruct (Z.eq_dec n 3) as [->|N3]; [apply H3 in E as [m [Hm He]]; now destruct (H m Hm) as [_ [? ?]]|].
    now rewrite H4 in E.
Qed.

Lemma exit_code_set ms ms' :
  (forall m, In m ms <-> In m ms') -> get_exit_code ms = get_exit_code ms'.
Proof.
  intros H. apply Z.bits_inj'. intros n _. rewrite !exit_code_bit.
  apply eq_true_iff_eq. rewrite !existsb_exists.
  split; intros [m [H1 H2]]; exists m; split; auto; now apply H.
Qed.

(** * C03 / C04 *)
Lemma finding_eqb_iff a b : finding_eqb a b = true <-> same_finding a b.
Proof.
  unfold finding_eqb, same_finding. rewrite !andb_true_iff, !Z.eqb_eq, !String.eqb_eq. tauto.
Qed.
Lemma same_sym a b : same_finding a b -> same_finding b a.
Proof. intros [H1 [H2 [H3 H4]]]; repeat split; congruence. Qed.
Lemma same_trans a b c : same_finding a b -> same_finding b c -> same_finding a c.
Proof. intros [H1 [H2 [H3 H4]]] [G1 [G2 [G3 G4]]]; repeat split; congruence. Qed.
Lemma same_refl a : same_finding a a.
Proof. repeat split. Qed.

Lemma in_directive_iff d m :
  in_directive d m = true <->
  ((d_sl d < f_line m < d_el d)%Z \/ (f_line m = d_sl d /\ (d_sc d <= f_col m)%Z) \/
   (f_line m = d_el d /\ (f_col_end m <= d_ec d)%Z)).
Proof. unfold in_directive. lia. Qed.

Lemma kept_iff man ds m : kept man ds m = true <-> ~ suppressed man ds m.
Proof.
  unfold kept, suppressed. set (mine := filter _ ds).
  assert (Hm : forall d, In d mine <-> In d ds /\ d_rule d = f_rule m).
  { intros d; unfold mine; rewrite filter_In, String.eqb_eq; tauto. }
  assert (Hc : existsb (fun d => in_directive d m) mine = true <-> exists d, In d ds /\ covers d m).
  { rewrite existsb_exists. unfold covers. split.
    - intros [d [H1 H2]]. apply Hm in H1 as [H1 H3]. exists d. split; [exact H1|]. split; [exact H3|].
      now apply in_directive_iff.
    - intros [d [H1 [H3 H2]]]. exists d. split; [now apply Hm|]. now apply in_directive_iff. }
  pose proof (existsb_prefix man (f_rule m)) as Hp.
  destruct mine as [|d0 mine'] eqn:E.
  - split; [intros _ [Hx _] | reflexivity]. apply Hc in Hx. discriminate.
  - rewrite <- Hc, <- Hp.
    destruct (existsb (fun p => starts_with p (f_rule m)) man), (existsb (fun d => in_directive d m) (d0 :: mine'));
      cbn; intuition congruence.
Qed.

Lemma FOP_snoc {A} (R : A -> A -> Prop) l x :
  ForallOrdPairs R l -> Forall (fun y => R y x) l -> ForallOrdPairs R (l ++ [x]).
Proof.
  induction 1 as [|a l Ha Hl IH]; intros HF; cbn.
  - constructor; [constructor | constructor].
  - inversion HF; subst. constructor.
    + apply Forall_app; split; [exact Ha | now constructor].
    + now apply IH.
Qed.

Lemma subseq_app {A} (l l' m : list A) : subseq l l' -> subseq (m ++ l) (m ++ l').
Proof. intros H; induction m; cbn; [exact H | now constructor]. Qed.

(** The loop in terms of what is appended: [filter_matches .. ms acc = acc ++ kept_from ms acc]. *)
Fixpoint kept_from (man : list string) (ds : list directive) (ms acc : list finding) : list finding :=
  match ms with
  | [] => []
  | m :: rest =>
      if existsb (fun u => finding_eqb m u) acc then kept_from man ds rest acc
      else if kept man ds m then m :: kept_from man ds rest (acc ++ [m])
      else kept_from man ds rest acc
  end.
Lemma filter_matches_app man ds ms acc : filter_matches man ds ms acc = acc ++ kept_from man ds ms acc.
Proof.
  revert acc; induction ms as [|m ms IH]; intros acc; cbn; [now rewrite app_nil_r|].
  destruct (existsb _ acc); [apply IH|]. destruct (kept man ds m); [|apply IH].
  rewrite IH, <- app_assoc. reflexivity.
Qed.
Lemma kept_from_subseq man ds ms acc : subseq (kept_from man ds ms acc) ms.
Proof.
  revert acc; induction ms as [|m ms IH]; intros acc; cbn; [constructor|].
  destruct (existsb _ acc); [constructor; apply IH|]. destruct (kept man ds m); constructor; apply IH.
Qed.
Lemma seen_iff m acc :
  existsb (fun u => finding_eqb m u) acc = true <-> exists u, In u acc /\ same_finding m u.
Proof.
  rewrite existsb_exists. split; intros [u [H1 H2]]; exists u; split; auto; now apply finding_eqb_iff.
Qed.
Lemma kept_from_distinct man ds ms acc :
  distinct acc -> distinct (acc ++ kept_from man ds ms acc).
Proof.
  revert acc; induction ms as [|m ms IH]; intros acc Hd; cbn; [now rewrite app_nil_r|].
  destruct (existsb (fun u => finding_eqb m u) acc) eqn:E; [now apply IH|].
  destruct (kept man ds m); [|now apply IH].
  change (m :: kept_from man ds ms (acc ++ [m])) with ([m] ++ kept_from man ds ms (acc ++ [m])).
  rewrite app_assoc. apply IH. apply FOP_snoc; [exact Hd|].
  apply Forall_forall. intros u Hu Hs.
  assert (existsb (fun u => finding_eqb m u) acc = true); [|congruence].
  apply seen_iff. exists u. split; [exact Hu | now apply same_sym].
Qed.
Lemma kept_from_complete man ds ms acc m :
  In m ms -> ~ suppressed man ds m ->
  exists u, In u (acc ++ kept_from man ds ms acc) /\ same_finding m u.
Proof.
  revert acc; induction ms as [|x ms IH]; intros acc; [intros []|].
  intros Hin Hs. cbn.
  destruct (existsb (fun u => finding_eqb x u) acc) eqn:E.
  - destruct Hin as [->|Hin]; [|now apply IH].
    apply seen_iff in E as [u [Hu Hsu]]. exists u. split; [|exact Hsu]. apply in_app_iff; now left.
  - destruct (kept man ds x) eqn:K.
    + destruct Hin as [->|Hin].
      * exists m. split; [|apply same_refl]. apply in_app_iff; right; now left.
      * destruct (IH (acc ++ [x]) Hin Hs) as [u [Hu Hsu]]. exists u. split; [|exact Hsu].
        rewrite <- app_assoc in Hu. exact Hu.
    + destruct Hin as [->|Hin]; [|now apply IH].
      exfalso. apply kept_iff in Hs. congruence.
Qed.
Lemma kept_from_sound man ds ms acc u :
  In u (kept_from man ds ms acc) -> In u ms /\ ~ suppressed man ds u.
Proof.
  revert acc; induction ms as [|x ms IH]; intros acc; cbn; [intros []|].
  destruct (existsb _ acc).
  - intros H; apply IH in H as [H1 H2]; split; [now right | exact H2].
  - destruct (kept man ds x) eqn:K.
    + intros [->|H]; [split; [now left | now apply kept_iff]|].
      apply IH in H as [H1 H2]; split; [now right | exact H2].
    + intros H; apply IH in H as [H1 H2]; split; [now right | exact H2].
Qed.
(** Each kept finding is the first unsuppressed one of its kind. *)
Lemma kept_from_first man ds ms acc u :
  In u (kept_from man ds ms acc) ->
  exists l1 l2, ms = l1 ++ u :: l2 /\
    forall m, In m l1 -> ~ suppressed man ds m -> ~ same_finding m u.
Proof.
  revert acc; induction ms as [|x ms IH]; intros acc; cbn; [intros []|].
  assert (Hskip : forall acc', In u (kept_from man ds ms acc') ->
            (~ suppressed man ds x -> ~ same_finding x u) ->
            exists l1 l2, x :: ms = l1 ++ u :: l2 /\
              forall m, In m l1 -> ~ suppressed man ds m -> ~ same_finding m u).
  { intros acc' H Hx. destruct (IH _ H) as [l1 [l2 [He Hf]]]. exists (x :: l1), l2. rewrite He. split; [reflexivity|].
    intros m [->|Hm]; [exact Hx | now apply Hf]. }
  destruct (existsb (fun u0 => finding_eqb x u0) acc) eqn:E.
  - intros H. apply (Hskip acc H). intros _ Hs.
    apply seen_iff in E as [w [Hw Hsw]].
    assert (Hgen : forall ms' acc' v, In v (kept_from man ds ms' acc') -> forall w', In w' acc' -> ~ same_finding v w').
    { clear. induction ms' as [|y ms' IH']; intros acc' v; cbn; [intros []|].
      destruct (existsb (fun u0 => finding_eqb y u0) acc') eqn:E'; [now apply IH'|].
      destruct (kept man ds y); [|now apply IH'].
      intros [->|Hv] w' Hw' Hs'.
      - assert (existsb (fun u0 => finding_eqb v u0) acc' = true); [|congruence].
        apply seen_iff. now exists w'.
      - apply (IH' _ _ Hv w'); [|exact Hs']. apply in_app_iff; now left. }
    apply (Hgen ms acc u H w Hw). apply same_trans with x; [now apply same_sym | exact Hsw].
  - destruct (kept man ds x) eqn:K.
    + intros [->|H]; [exists [], ms; split; [reflexivity | intros ? []]|].
      apply (Hskip (acc ++ [x]) H). intros _ Hs.
      assert (Hgen : forall ms' acc' v, In v (kept_from man ds ms' acc') -> forall w', In w' acc' -> ~ same_finding v w').
      { clear. induction ms' as [|y ms' IH']; intros acc' v; cbn; [intros []|].
        destruct (existsb (fun u0 => finding_eqb y u0) acc') eqn:E'; [now apply IH'|].
        destruct (kept man ds y); [|now apply IH'].
        intros [->|Hv] w' Hw' Hs'.
        - assert (existsb (fun u0 => finding_eqb v u0) acc' = true); [|congruence].
          apply seen_iff. now exists w'.
        - apply (IH' _ _ Hv w'); [|exact Hs']. apply in_app_iff; now left. }
      apply (Hgen ms (acc ++ [x]) u H x); [apply in_app_iff; right; now left | now apply same_sym].
    + intros H. apply (Hskip acc H). intros Hx. apply kept_iff in Hx. congruence.
Qed.

Lemma report_distinct man ds ms : distinct (filter_matches man ds ms []).
Proof. rewrite filter_matches_app. apply kept_from_distinct. constructor. Qed.
Lemma report_subseq man ds ms : subseq (filter_matches man ds ms []) ms.
Proof. rewrite filter_matches_app. apply kept_from_subseq. Qed.
Lemma report_complete man ds ms m :
  In m ms -> ~ suppressed man ds m -> exists u, In u (filter_matches man ds ms []) /\ same_finding m u.
Proof. intros H1 H2. rewrite filter_matches_app. now apply kept_from_complete. Qed.
Lemma report_sound man ds ms u :
  In u (filter_matches man ds ms []) -> In u ms /\ ~ suppressed man ds u.
Proof. rewrite filter_matches_app. apply kept_from_sound. Qed.
Lemma report_first man ds ms u :
  In u (filter_matches man ds ms []) ->
  exists l1 l2, ms = l1 ++ u :: l2 /\ forall m, In m l1 -> ~ suppressed man ds m -> ~ same_finding m u.
Proof. rewrite filter_matches_app. apply kept_from_first. Qed.

(** A resource that spans several lines suppresses only what is inside it. *)
Lemma multi_line_inside d m :
  (d_sl d < d_el d)%Z -> covers d m -> inside d m.
Proof. unfold covers, inside. intros H [_ Hc]. lia. Qed.
Lemma inside_covers d m : d_rule d = f_rule m -> inside d m -> covers d m.
Proof. unfold covers, inside. intros H Hi. split; [exact H | lia]. Qed.

(** * C05 *)
Lemma str_lt_iff a b : str_lt a b <-> str_leb a b = true /\ a <> b.
Proof.
  split.
  - intros H; induction H as [c s|a b s t Hlt|a s t H IH].
    + split; [reflexivity | discriminate].
    + split; [cbn [str_leb]; unfold code; apply Nat.ltb_lt in Hlt; now rewrite Hlt|].
      intros He; inversion He; subst; lia.
    + destruct IH as [IH1 IH2]. split; [cbn [str_leb]; now rewrite Nat.ltb_irrefl, Nat.eqb_refl|].
      intros He; inversion He; congruence.
  - intros [H Hn]; revert b H Hn; induction a as [|x a IH]; intros [|y b] H Hn.
    + congruence.
    + constructor.
    + discriminate.
    + cbn [str_leb] in H. destruct (Nat.ltb_spec (code x) (code y)) as [Hlt|Hge]; [now apply lt_head|].
      destruct (Nat.eqb_spec (code x) (code y)) as [He|]; [|discriminate].
      apply code_inj in He; subst. apply lt_tail. apply IH; [exact H | congruence].
Qed.
Lemma key_leb_iff a b : key_leb a b = true <-> before a b \/ tied a b.
Proof.
  unfold key_leb, before, tied, str_ltb. rewrite !str_lt_iff.
  destruct (String.eqb_spec (f_file a) (f_file b)) as [Hf|Hf].
  - destruct (Z.eqb_spec (f_line a) (f_line b)) as [Hl|Hl].
    + split.
      * intros H. destruct (string_dec (f_rule a) (f_rule b)) as [He|Hn]; [right; auto | left; right; auto].
      * intros [[[_ Hx]|[_ [Hx|[_ [Hx _]]]]]|[_ [_ Hx]]]; try congruence; try lia; try exact Hx.
        rewrite Hx; apply str_leb_refl.
    + rewrite Z.ltb_lt. split.
      * intros H; left; right; auto.
      * intros [[[_ Hx]|[_ [Hx|[Hx _]]]]|[_ [Hx _]]]; try congruence; exact Hx.
  - cbn [negb]; rewrite andb_true_r. split.
    + intros H1; left; left; auto.
    + intros [[[H1 H2]|[Hx _]]|[Hx _]]; try congruence; auto.
Qed.
Lemma key_leb_total a b : key_leb a b = true \/ key_leb b a = true.
Proof.
  unfold key_leb, str_ltb.
  destruct (String.eqb_spec (f_file a) (f_file b)) as [Hf|Hf];
    destruct (String.eqb_spec (f_file b) (f_file a)) as [Hf'|Hf']; try congruence.
  - destruct (Z.eqb_spec (f_line a) (f_line b)) as [Hl|Hl];
      destruct (Z.eqb_spec (f_line b) (f_line a)) as [Hl'|Hl']; try congruence.
    + apply str_leb_total.
    + lia.
  - destruct (str_leb_total (f_file a) (f_file b)) as [H|H]; rewrite H; [left | right]; reflexivity.
Qed.
Lemma str_lt_trans a b c : str_lt a b -> str_lt b c -> str_lt a c.
Proof.
  rewrite !str_lt_iff. intros [H1 H2] [H3 H4]. split; [now apply str_leb_trans with b|].
  intros ->. apply H2. now apply str_leb_antisym.
Qed.
Lemma key_leb_trans a b c : key_leb a b = true -> key_leb b c = true -> key_leb a c = true.
Proof.
  rewrite !key_leb_iff. unfold before, tied.
  intros [[H|[H [H'|[H' H'']]]]|[H [H' H'']]] [[G|[G [G'|[G' G'']]]]|[G [G' G'']]];
    rewrite ?H, ?G in *; rewrite ?H', ?G' in *; rewrite ?H'', ?G'' in *;
    try (left; left; eauto using str_lt_trans; fail);
    try (left; right; split; [congruence|]; left; lia);
    try (left; right; split; [congruence|]; right; split; [congruence|]; eauto using str_lt_trans; fail);
    try (right; repeat split; congruence).
Qed.
Lemma insert_perm x l : Permutation (insert_finding x l) (x :: l).
Proof.
  induction l as [|y l IH]; cbn; [reflexivity|].
  destruct (key_leb x y); [reflexivity|]. rewrite IH. apply perm_swap.
Qed.
Lemma sort_perm l : Permutation (sort_findings l) l.
Proof. induction l as [|x l IH]; cbn; [reflexivity|]. rewrite insert_perm. now constructor. Qed.
Lemma insert_sorted x l :
  StronglySorted (fun a b => key_leb a b = true) l -> StronglySorted (fun a b => key_leb a b = true) (insert_finding x l).
Proof.
  induction 1 as [|y l Hl IH Hy]; cbn; [constructor; constructor|].
  destruct (key_leb x y) eqn:E.
  - constructor; [now constructor|]. constructor; [exact E|].
    eapply Forall_impl; [|exact Hy]. intros z Hz. now apply key_leb_trans with y.
  - constructor; [exact IH|]. rewrite Forall_forall in *. intros z Hz.
    apply (Permutation_in _ (insert_perm x l)) in Hz as [<-|Hz]; [|now apply Hy].
    destruct (key_leb_total x y); congruence.
Qed.
Lemma sort_sorted l : StronglySorted (fun a b => key_leb a b = true) (sort_findings l).
Proof. induction l as [|x l IH]; cbn; [constructor | now apply insert_sorted]. Qed.
Lemma tiedb_iff a b : tiedb a b = true <-> tied a b.
Proof. unfold tiedb, tied. rewrite !andb_true_iff, !String.eqb_eq, Z.eqb_eq. tauto. Qed.
Lemma insert_stable k x l :
  filter (tiedb k) (insert_finding x l) = filter (tiedb k) (x :: l).
Proof.
  induction l as [|y l IH]; cbn [insert_finding]; [reflexivity|].
  destruct (key_leb x y) eqn:E; [reflexivity|].
  cbn [filter] in *. rewrite IH.
  destruct (tiedb k x) eqn:Tx, (tiedb k y) eqn:Ty; try reflexivity.
  exfalso. apply tiedb_iff in Tx, Ty. assert (Hxy : tied x y).
  { destruct Tx as [A [B C]], Ty as [A' [B' C']]. repeat split; congruence. }
  assert (key_leb x y = true) by (apply key_leb_iff; now right). congruence.
Qed.
Lemma sort_stable k l : filter (tiedb k) (sort_findings l) = filter (tiedb k) l.
Proof.
  induction l as [|x l IH]; [reflexivity|].
  change (sort_findings (x :: l)) with (insert_finding x (sort_findings l)).
  rewrite insert_stable. cbn [filter]. now rewrite IH.
Qed.
Lemma sort_ordered l :
  StronglySorted (fun a b => before a b \/ tied a b) (sort_findings l).
Proof.
  assert (H := sort_sorted l). induction H as [|x l' Hl IH Hx]; constructor; [exact IH|].
  eapply Forall_impl; [|exact Hx]. intros y Hy. now apply key_leb_iff.
Qed.

(** * The same facts about whole runs *)
Lemma runner_report sp k man c k' report :
  runner_run sp k man c = (k', Ok report) ->
  exists raw ds, snd (coll_run sp k c) = Ok raw /\ get_directives (c_tmpl c) = Ok ds /\
    report = filter_matches man ds raw [].
Proof.
  unfold runner_run. destruct (coll_run sp k c) as [k1 r]. cbn [snd].
  destruct r as [raw|e]; cbn; [|intros H; discriminate].
  destruct (get_directives (c_tmpl c)) as [ds|e]; cbn; [|intros H; discriminate].
  intros H; inversion H; subst. now exists raw, ds.
Qed.

Lemma runner_spec sp k man c k' report :
  runner_run sp k man c = (k', Ok report) ->
  exists raw ds,
    snd (coll_run sp k c) = Ok raw /\ get_directives (c_tmpl c) = Ok ds /\
    distinct report /\ subseq report raw /\
    (forall m, In m raw -> ~ suppressed man ds m -> exists u, In u report /\ same_finding m u) /\
    (forall u, In u report -> In u raw /\ ~ suppressed man ds u) /\
    (forall u, In u report -> exists l1 l2, raw = l1 ++ u :: l2 /\
       forall m, In m l1 -> ~ suppressed man ds m -> ~ same_finding m u).
Proof.
  intros H. apply runner_report in H as [raw [ds [H1 [H2 ->]]]]. exists raw, ds.
  split; [exact H1|]. split; [exact H2|]. split; [apply report_distinct|]. split; [apply report_subseq|].
  split; [intros m; apply report_complete|]. split; [intros u; apply report_sound | intros u; apply report_first].
Qed.

(** Directives come from the resources. *)
Lemma ignore_ids_names l ids : ignore_ids l = Ok ids -> forall id, In id ids <-> In (VStr id) l.
Proof.
  revert ids; induction l as [|v l IH]; intros ids H id; cbn in H; [inversion H; subst; cbn; tauto|].
  destruct v; try discriminate;
    try (rewrite (IH _ H); cbn; split; [now right | intros [Hx|Hx]; [discriminate | exact Hx]]; fail).
  destruct (ignore_ids l) as [r|e]; cbn in H; [|discriminate]. inversion H; subst; cbn.
  rewrite (IH _ eq_refl). split; intros [Hx|Hx]; auto; [left; congruence | left; congruence].
Qed.
Lemma chars_names s id : In id (chars s) <-> exists a b c, s = (a ++ String c b)%string /\ id = String c EmptyString.
Proof.
  induction s as [|c s IH]; cbn.
  - split; [intros [] | intros [a [b [c [H _]]]]; destruct a; discriminate].
  - rewrite IH. split.
    + intros [<-|[a [b [d [-> ->]]]]]; [now exists EmptyString, s, c | now exists (String c a), b, d].
    + intros [[|x a] [b [d [H ->]]]]; inversion H; subst; [now left | right; now exists a, b, d].
Qed.
Lemma iter_ignore_names v ids : iter_ignore v = Ok ids -> forall id, In id ids <-> names v id.
Proof.
  destruct v; cbn; intros H id; try discriminate.
  - inversion H; subst. apply chars_names.
  - apply ignore_ids_names; exact H.
  - inversion H; subst. unfold keys. reflexivity.
Qed.
Lemma vget_def_dict n v w : vget_def n (VDict []) v = Ok w ->
  exists d, v = VDict d /\ w = match assoc n d with Some x => x | None => VDict [] end.
Proof.
  unfold vget_def, vget. destruct v; try discriminate. intros H; exists d; split; [reflexivity|].
  destruct (assoc n d); now inversion H.
Qed.
Lemma member_assoc n v w : member n v w <-> exists d, v = VDict d /\ assoc n d = Some w.
Proof.
  unfold member. split.
  - intros [d [-> [l1 [l2 [-> Hn]]]]]. eexists; split; [reflexivity|].
    rewrite assoc_app. apply assoc_None in Hn. rewrite Hn. cbn. now rewrite String.eqb_refl.
  - intros [d [-> H]]. exists d; split; [reflexivity|].
    induction d as [|[k x] d IH]; cbn in H; [discriminate|].
    destruct (String.eqb_spec n k) as [->|Hne].
    + inversion H; subst. exists [], d. split; [reflexivity | intros []].
    + destruct (IH H) as [l1 [l2 [-> Hn]]]. exists ((k, x) :: l1), l2. split; [reflexivity|].
      cbn. intros [Hx|Hx]; [congruence | contradiction].
Qed.
Lemma member_det n v w w' : member n v w -> member n v w' -> w = w'.
Proof.
  rewrite !member_assoc. intros [d [-> H]] [d' [E H']]. inversion E; subst. congruence.
Qed.
(** Following [.get(name, {})]: either the member is there, or the default is used. *)
Lemma vget_member n v w def : vget_def n def v = Ok w ->
  member n v w \/ (w = def /\ forall x, ~ member n v x).
Proof.
  unfold vget_def. destruct v; try discriminate. intros H. inversion H; subst; clear H.
  destruct (assoc n d) eqn:E.
  - left. apply member_assoc. now exists d.
  - right. split; [reflexivity|]. intros x Hx. apply member_assoc in Hx as [d' [He Hx]]. inversion He; subst. congruence.
Qed.
Lemma not_member_empty n w : ~ member n (VDict []) w.
Proof. rewrite member_assoc. intros [d [E H]]. inversion E; subst. discriminate. Qed.

Lemma ignore_checks_of r ids :
  (do m <- vget_def "Metadata" (VDict []) r; do l <- vget_def "cfn-lint" (VDict []) m;
   do cf <- vget_def "config" (VDict []) l; do ic <- vget_def "ignore_checks" (VList []) cf; iter_ignore ic) = Ok ids ->
  forall id, In id ids <-> ignores r id.
Proof.
  intros H id. unfold ignores.
  destruct (vget_def "Metadata" (VDict []) r) as [m|] eqn:E1; cbn [bind] in H; [|discriminate].
  destruct (vget_def "cfn-lint" (VDict []) m) as [l|] eqn:E2; cbn [bind] in H; [|discriminate].
  destruct (vget_def "config" (VDict []) l) as [cf|] eqn:E3; cbn [bind] in H; [|discriminate].
  destruct (vget_def "ignore_checks" (VList []) cf) as [ic|] eqn:E4; cbn [bind] in H; [|discriminate].
  rewrite (iter_ignore_names _ _ H id).
  apply vget_member in E1, E2, E3, E4.
  split.
  - intros Hn. destruct E4 as [E4|[-> _]]; [|destruct Hn].
    destruct E3 as [E3|[-> _]]; [|now apply not_member_empty in E4].
    destruct E2 as [E2|[-> _]]; [|now apply not_member_empty in E3].
    destruct E1 as [E1|[-> _]]; [|now apply not_member_empty in E2].
    exists m, l, cf, ic. auto.
  - intros [m' [l' [cf' [ic' [M1 [M2 [M3 [M4 Hn]]]]]]]].
    destruct E1 as [E1|[-> E1]]; [|now apply E1 in M1]. assert (m' = m) by eauto using member_det; subst.
    destruct E2 as [E2|[-> E2]]; [|now apply E2 in M2]. assert (l' = l) by eauto using member_det; subst.
    destruct E3 as [E3|[-> E3]]; [|now apply E3 in M3]. assert (cf' = cf) by eauto using member_det; subst.
    destruct E4 as [E4|[-> E4]]; [|now apply E4 in M4]. assert (ic' = ic) by eauto using member_det; subst.
    exact Hn.
Qed.

Lemma resource_directives_spec nm r ds :
  resource_directives nm r = Ok ds -> forall d, In d ds <-> directive_of nm r d.
Proof.
  unfold resource_directives, directive_of. intros H dd.
  destruct (erase r) as [| | | | | |d] eqn:Er;
    try (inversion H; subst; split; [intros [] | intros [[ty [Hm _]] _]; apply member_assoc in Hm as [? [? _]]; discriminate]).
  assert (Hty : forall ty, member "Type" (VDict d) ty <-> assoc "Type" d = Some ty).
  { intros ty. rewrite member_assoc. split; [intros [d' [E Hx]]; inversion E; now subst | intros Hx; now exists d]. }
  destruct (assoc "Type" d) as [ty|] eqn:Et.
  2: { inversion H; subst; split; [intros [] | intros [[ty [Hm _]] _]; apply Hty in Hm; congruence]. }
  assert (Hn : ty = VNull -> ds = []).
  { intros ->. now inversion H. }
  assert (Hcase : ty = VNull \/ (ty <> VNull /\
    (do m <- vget_def "Metadata" (VDict []) (VDict d); do l <- vget_def "cfn-lint" (VDict []) m;
     do cf <- vget_def "config" (VDict []) l; do ic <- vget_def "ignore_checks" (VList []) cf;
     do ids <- iter_ignore ic;
     match ids with
     | [] => Ok []
     | _ => match loc_of r, nm with
            | Some v, Some n => Ok (map (fun id => mkDir id (sl n + 1) (sc n + 1) (el v + 1) (ec v + 1)) ids)
            | _, _ => Err EAttribute
            end
     end) = Ok ds)).
  { destruct ty; [now left|right; split; [discriminate | exact H]..]. }
  destruct Hcase as [->|[Hnn H']].
  { rewrite (Hn eq_refl). split; [intros [] | intros [[ty [Hm Hx]] _]]. apply Hty in Hm. congruence. }
  clear H Hn.
  assert (Hids : exists ids,
    (do m <- vget_def "Metadata" (VDict []) (VDict d); do l <- vget_def "cfn-lint" (VDict []) m;
     do cf <- vget_def "config" (VDict []) l; do ic <- vget_def "ignore_checks" (VList []) cf; iter_ignore ic) = Ok ids /\
    match ids with
     | [] => Ok []
     | _ => match loc_of r, nm with
            | Some v, Some n => Ok (map (fun id => mkDir id (sl n + 1) (sc n + 1) (el v + 1) (ec v + 1)) ids)
            | _, _ => Err EAttribute
            end
     end = Ok ds).
  { destruct (vget_def "Metadata" (VDict []) (VDict d)) as [m|] eqn:E1; cbn [bind] in *; [|discriminate].
    destruct (vget_def "cfn-lint" (VDict []) m) as [l|] eqn:E2; cbn [bind] in *; [|discriminate].
    destruct (vget_def "config" (VDict []) l) as [cf|] eqn:E3; cbn [bind] in *; [|discriminate].
    destruct (vget_def "ignore_checks" (VList []) cf) as [ic|] eqn:E4; cbn [bind] in *; [|discriminate].
    destruct (iter_ignore ic) as [ids|]; cbn [bind] in *; [|discriminate]. now exists ids. }
  destruct Hids as [ids [Hi Hd]]. pose proof (ignore_checks_of _ _ Hi) as Hign.
  destruct ids as [|i0 ids'].
  - inversion Hd; subst. split; [intros [] | intros [_ [Hx _]]]. apply Hign in Hx. destruct Hx.
  - destruct (loc_of r) as [v|]; [|discriminate]. destruct nm as [n|]; [|discriminate].
    set (ids := i0 :: ids') in *. assert (Hds : ds = map (fun id => mkDir id (sl n + 1) (sc n + 1) (el v + 1) (ec v + 1)) ids) by congruence.
    clear Hd. subst ds.
    rewrite in_map_iff. split.
    + intros [id [<- Hin]]. cbn. split; [|split].
      * exists ty. split; [now apply Hty | exact Hnn].
      * now apply Hign.
      * exists n, v. repeat split.
    + intros [_ [Hx [n' [v' [Hn' [Hv' [A [B [C D]]]]]]]]]. inversion Hn'; inversion Hv'; subst n' v'.
      exists (d_rule dd). split; [destruct dd; cbn in *; congruence | now apply Hign].
Qed.

(** The suppressions of a template are those its resources ask for. *)
Lemma get_directives_spec m0 d m1 rs ds :
  massoc "Resources" d = Some (MDict m1 rs) -> get_directives (MDict m0 d) = Ok ds ->
  forall x, In x ds <-> exists name nm r, In ((name, nm), r) rs /\ directive_of nm r x.
Proof.
  intros Hm H x. cbn [get_directives] in H. rewrite Hm in H.
  apply concat_res_inv in H as [g [Hg ->]]. rewrite in_flat_map. split.
  - intros [[[name nm] r] [Hin Hx]]. exists name, nm, r. split; [exact Hin|].
    now apply (resource_directives_spec _ _ _ (Hg _ Hin)).
  - intros [name [nm [r [Hin Hd]]]]. exists ((name, nm), r). split; [exact Hin|].
    now apply (resource_directives_spec _ _ _ (Hg _ Hin)).
Qed.

(** * C05 for a whole run *)
Lemma run_checks_order sp tr k rg man c k' l :
  run_checks sp tr k rg man c = (k', Findings l) ->
  (wants_transform (template c) = true -> fst (tr c) = []) ->
  in_order l.
Proof.
  unfold run_checks. destruct (negb _); [discriminate|].
  intros H Ht. destruct (wants_transform (template c)).
  - destruct (tr c) as [e t']. cbn in Ht. rewrite (Ht eq_refl) in H.
    destruct (runner_run sp k man _) as [k1 [ms|e1]]; inversion H; subst; [apply sort_ordered | constructor].
  - destruct (runner_run sp k man c) as [k1 [ms|e1]]; inversion H; subst; [apply sort_ordered | constructor].
Qed.
Lemma run_checks_same sp tr k rg man c k' l :
  run_checks sp tr k rg man c = (k', Findings l) ->
  wants_transform (template c) = false ->
  forall k1 ms, runner_run sp k man c = (k1, Ok ms) ->
  Permutation l ms /\ (forall x, filter (tiedb x) l = filter (tiedb x) ms).
Proof.
  unfold run_checks. destruct (negb _); [discriminate|].
  intros H Ht k1 ms Hr. rewrite Ht, Hr in H. inversion H; subst.
  split; [apply sort_perm | intros x; apply sort_stable].
Qed.

(** The report of a run is the concatenation of the reports of its files. *)
Lemma lint_all_concat str sp tr all cli fl st files acc st' l :
  lint_all str sp tr all cli fl st files acc = (st', Ok (Findings l)) ->
  exists parts, l = acc ++ List.concat parts /\ List.length parts = List.length files /\
    Forall2 (fun nd part => exists s1 s2, lint_one str sp tr all cli fl s1 (fst nd) (snd nd) = (s2, Ok (Findings part)))
            files parts.
Proof.
  revert st acc; induction files as [|[n d] files IH]; intros st acc H; cbn in H.
  - inversion H; subst. exists []. cbn. rewrite app_nil_r. repeat split. constructor.
  - destruct (lint_one str sp tr all cli fl st n d) as [s2 [[part|c]|e]] eqn:E; [|inversion H..].
    apply IH in H as [parts [-> [Hl HF]]]. exists (part :: parts). cbn. rewrite <- app_assoc.
    split; [reflexivity|]. split; [now rewrite Hl|]. constructor; [|exact HF]. now exists st, s2.
Qed.

Lemma coll_configure_keeps str k ig inc cfg ex man k' :
  coll_configure str k ig inc cfg ex man = Ok k' ->
  map (fun r => (r_id r, r_experimental r)) (k_all k') = map (fun r => (r_id r, r_experimental r)) (k_all k).
Proof. intros H. now apply coll_configure_set in H as [_ H]. Qed.
Lemma coll_new_keeps str rs ig inc cfg ex man k' :
  coll_new str rs ig inc cfg ex man = Ok k' ->
  map (fun r => (r_id r, r_experimental r)) (k_all k') = map (fun r => (r_id r, r_experimental r)) rs.
Proof. intros H. now apply coll_extend_set in H as [_ H]. Qed.
