(** The report depends only on the set of rules (C91). *)
From Coq Require Import Lia Permutation Sorted.
From Verif.Model Require Import Base Node Locate Helpers Rules Runner Config Core.
From Verif.Spec Require Import Pipeline RuleSets.
From Verif.Proofs Require Import BaseFacts PipelineProofs RunProofs ReportProofs GroupProofs.

(** * Sorting *)
Definition le (a b : finding) : Prop := key_leb a b = true.
Lemma insert_low x l : Forall (le x) l -> insert_finding x l = x :: l.
Proof. intros H. destruct H as [|y l Hy Hl]; cbn; [reflexivity | now rewrite Hy]. Qed.
Lemma filter_insert P x l : StronglySorted le l ->
  filter P (insert_finding x l) = if P x then insert_finding x (filter P l) else filter P l.
Proof.
  induction 1 as [|y l Hl IH Hy]; cbn; [now destruct (P x)|].
  destruct (key_leb x y) eqn:E.
  - cbn [filter]. destruct (P x); [|reflexivity].
    destruct (P y) eqn:Py; [cbn [insert_finding]; now rewrite E|].
    symmetry. apply insert_low. apply Forall_forall. intros z Hz. apply filter_In in Hz as [Hz _].
    rewrite Forall_forall in Hy. apply key_leb_trans with y; [exact E | now apply Hy].
  - cbn [filter]. rewrite IH. destruct (P x), (P y) eqn:Py; try reflexivity.
    cbn [insert_finding]. now rewrite E.
Qed.
Lemma filter_sort P l : filter P (sort_findings l) = sort_findings (filter P l).
Proof.
  induction l as [|x l IH]; [reflexivity|].
  change (sort_findings (x :: l)) with (insert_finding x (sort_findings l)).
  rewrite filter_insert by apply sort_sorted. rewrite IH. cbn [filter]. now destruct (P x).
Qed.
Lemma tied_refl x : tied x x.
Proof. repeat split. Qed.
Lemma tiedb_refl x : tiedb x x = true.
Proof. apply tiedb_iff, tied_refl. Qed.
Lemma le_le_tied a b : le a b -> le b a -> tied a b.
Proof.
  unfold le, key_leb, str_ltb. intros H H'.
  destruct (String.eqb_spec (f_file a) (f_file b)) as [E|E]; destruct (String.eqb_spec (f_file b) (f_file a)) as [E'|E']; try congruence.
  - destruct (Z.eqb_spec (f_line a) (f_line b)) as [L|L]; destruct (Z.eqb_spec (f_line b) (f_line a)) as [L'|L']; try congruence.
    + repeat split; auto. now apply str_leb_antisym.
    + apply Z.ltb_lt in H, H'. lia.
  - cbn [negb] in H, H'. rewrite andb_true_r in H, H'. exfalso. apply E. now apply str_leb_antisym.
Qed.
Lemma sorted_tied_eq l : forall l', StronglySorted le l -> StronglySorted le l' ->
  (forall x, filter (tiedb x) l = filter (tiedb x) l') -> l = l'.
Proof.
  induction l as [|x t IH]; intros l' Hs Hs' H.
  - destruct l' as [|y t']; [reflexivity|]. specialize (H y). cbn in H. rewrite tiedb_refl in H. discriminate.
  - destruct l' as [|y t']; [specialize (H x); cbn in H; rewrite tiedb_refl in H; discriminate|].
    inversion Hs as [|? ? Ht Hx]; subst. inversion Hs' as [|? ? Ht' Hy]; subst.
    assert (Hxin : In x (y :: t')).
    { assert (K : In x (filter (tiedb x) (x :: t))) by (cbn; rewrite tiedb_refl; now left).
      rewrite H in K. now apply filter_In in K. }
    assert (Hyin : In y (x :: t)).
    { assert (K : In y (filter (tiedb y) (y :: t'))) by (cbn; rewrite tiedb_refl; now left).
      rewrite <- H in K. now apply filter_In in K. }
    assert (Txy : tied x y).
    { rewrite Forall_forall in Hx, Hy. destruct Hxin as [->|Hxin]; [apply tied_refl|].
      destruct Hyin as [->|Hyin]; [apply tied_refl|]. apply le_le_tied; [now apply Hx | now apply Hy]. }
    assert (E := H x). cbn in E. rewrite tiedb_refl in E. apply tiedb_iff in Txy. rewrite Txy in E.
    assert (x = y) by congruence. subst y. f_equal. apply IH; auto.
    intros z. specialize (H z). cbn in H. destruct (tiedb z x); congruence.
Qed.

(** * Dropping duplicates and suppressed findings *)
Lemma fm_app man ds a b acc : filter_matches man ds (a ++ b) acc = filter_matches man ds b (filter_matches man ds a acc).
Proof.
  revert acc; induction a as [|m a IH]; intros acc; [reflexivity|]. cbn.
  destruct (existsb _ acc); [apply IH|]. destruct (kept man ds m); apply IH.
Qed.
Lemma fm_noop man ds a acc :
  (forall m, In m a -> existsb (fun u => finding_eqb m u) acc = true \/ kept man ds m = false) -> filter_matches man ds a acc = acc.
Proof.
  induction a as [|m a IH]; intros H; [reflexivity|]. cbn.
  assert (Ha : filter_matches man ds a acc = acc) by (apply IH; intros x Hx; apply H; now right).
  destruct (H m (or_introl eq_refl)) as [->| ->]; [exact Ha|]. now destruct (existsb _ acc).
Qed.
Lemma fm_seen man ds a : forall acc m, In m a ->
  existsb (fun u => finding_eqb m u) (filter_matches man ds a acc) = true \/ kept man ds m = false.
Proof.
  assert (Hmono : forall a acc m, existsb (fun u => finding_eqb m u) acc = true -> existsb (fun u => finding_eqb m u) (filter_matches man ds a acc) = true).
  { intros b acc m H. rewrite filter_matches_app, existsb_app, H. reflexivity. }
  induction a as [|x a IH]; intros acc m []; [subst x; cbn|cbn].
  - destruct (existsb (fun u => finding_eqb m u) acc) eqn:E; [left; now apply Hmono|].
    destruct (kept man ds m) eqn:K; [left|now right]. apply Hmono. rewrite existsb_app. cbn.
    assert (finding_eqb m m = true) as -> by (apply finding_eqb_iff; repeat split). now rewrite orb_true_r.
  - destruct (existsb _ acc); [now apply IH|]. destruct (kept man ds x); now apply IH.
Qed.
Lemma fm_twice man ds a acc : filter_matches man ds (a ++ a) acc = filter_matches man ds a acc.
Proof. rewrite fm_app. apply fm_noop. intros m Hm. now apply fm_seen. Qed.
Lemma about_cons who m l : about who (m :: l) = if who (f_rule m) then m :: about who l else about who l.
Proof. reflexivity. Qed.
Lemma about_app who a b : about who (a ++ b) = (about who a ++ about who b)%list.
Proof. apply filter_app. Qed.
Lemma filter_fm (who : string -> bool) man ds ms : forall acc,
  about who (filter_matches man ds ms acc) = filter_matches man ds (about who ms) (about who acc).
Proof.
  induction ms as [|m ms IH]; intros acc; [reflexivity|]. cbn [filter_matches]. rewrite about_cons.
  assert (Hseen : who (f_rule m) = true -> existsb (fun u => finding_eqb m u) (about who acc) = existsb (fun u => finding_eqb m u) acc).
  { intros Hw. clear IH. induction acc as [|u acc IHa]; [reflexivity|]. rewrite about_cons. cbn [existsb].
    destruct (finding_eqb m u) eqn:E.
    - assert (K := E). apply finding_eqb_iff in K as (_ & _ & K & _). rewrite <- K, Hw. cbn [existsb]. now rewrite E.
    - destruct (who (f_rule u)); cbn [existsb]; rewrite ?E; exact IHa. }
  destruct (existsb (fun u => finding_eqb m u) acc) eqn:E.
  - rewrite IH. destruct (who (f_rule m)) eqn:W; [|reflexivity]. cbn [filter_matches]. now rewrite (Hseen eq_refl).
  - destruct (kept man ds m) eqn:K.
    + rewrite IH, about_app, about_cons. destruct (who (f_rule m)) eqn:W.
      * cbn [filter_matches]. rewrite (Hseen eq_refl), K. reflexivity.
      * now rewrite app_nil_r.
    + rewrite IH. destruct (who (f_rule m)) eqn:W; [|reflexivity]. cbn [filter_matches]. now rewrite (Hseen eq_refl), K.
Qed.

(** * One id at a time *)
Definition equiv (i : string) (la lb : list finding) : Prop :=
  forall man ds acc, filter_matches man ds (about (String.eqb i) la) acc = filter_matches man ds (about (String.eqb i) lb) acc.
Definition agree (P : list finding -> list finding -> Prop) (a b : res (list finding)) : Prop :=
  match a, b with Ok la, Ok lb => P la lb | Err _, Err _ => True | _, _ => False end.
Lemma agree_app (P : list finding -> list finding -> Prop) (HP : forall a a' b b', P a a' -> P b b' -> P (a ++ b) (a' ++ b')) a a' b b' :
  agree P a a' -> agree P b b' -> agree P (do x <- a; do y <- b; Ok (x ++ y)) (do x <- a'; do y <- b'; Ok (x ++ y)).
Proof. destruct a, a', b, b'; cbn; auto. Qed.
Lemma equiv_app i a a' b b' : equiv i a a' -> equiv i b b' -> equiv i (a ++ b) (a' ++ b').
Proof. intros H K man ds acc. rewrite !about_app, !fm_app, H. apply K. Qed.
Lemma about_none who l : (forall m, In m l -> who (f_rule m) = false) -> about who l = [].
Proof.
  induction l as [|x l IH]; intros H; [reflexivity|]. rewrite about_cons, (H x (or_introl eq_refl)). apply IH. intros m Hm. apply H. now right.
Qed.

Definition of_rule (g : rule -> res (list finding)) : Prop :=
  forall r l, g r = Ok l -> forall m, In m l -> f_rule m = r_id r \/ f_rule m = "E0002".
Lemma group_none g i L la : of_rule g -> i <> "E0002" -> (forall r, In r L -> r_id r <> i) ->
  concat_res g L = Ok la -> about (String.eqb i) la = [].
Proof.
  intros Hg Hi H E. apply about_none. intros m Hm. apply concat_res_inv in E as [f [Hf ->]].
  apply in_flat_map in Hm as [r [Hr Hm]]. apply String.eqb_neq. intros ->.
  destruct (Hg r (f r) (Hf r Hr) m Hm) as [K|K]; [|contradiction]. apply (H r Hr). now symmetry.
Qed.
Lemma group_some g i r0 A L : of_rule g -> i <> "E0002" -> r_id r0 = i -> g r0 = Ok A ->
  (forall r, In r L -> r_id r = i -> r = r0) -> In r0 L -> forall la, concat_res g L = Ok la -> equiv i la A.
Proof.
  intros Hg Hi Hid HA. induction L as [|r L IH]; intros Hu Hin la E; [destruct Hin|].
  cbn in E. destruct (g r) as [a|e] eqn:Ga; [|discriminate]. cbn in E.
  destruct (concat_res g L) as [b|e] eqn:Gb; [|discriminate]. cbn in E. injection E as <-.
  assert (Hu' : forall r1, In r1 L -> r_id r1 = i -> r1 = r0) by (intros r1 K; apply Hu; now right).
  destruct (string_dec (r_id r) i) as [Er|Er].
  - assert (r = r0) by (apply Hu; [now left | exact Er]). subst r. assert (a = A) by congruence. subst a.
    destruct (existsb (fun r1 => String.eqb (r_id r1) i) L) eqn:Ex.
    + apply existsb_exists in Ex as [r1 [Hr1 K]]. apply String.eqb_eq in K.
      assert (r1 = r0) by (apply Hu'; assumption). subst r1.
      specialize (IH Hu' Hr1 b eq_refl). intros man ds acc. rewrite about_app, fm_app, IH, <- fm_app. apply fm_twice.
    + assert (Hb : about (String.eqb i) b = []).
      { apply (group_none g i L); auto. intros r1 Hr1 K. assert (existsb (fun r1 => String.eqb (r_id r1) i) L = true); [|congruence].
        apply existsb_exists. exists r1. split; [exact Hr1 | now apply String.eqb_eq]. }
      intros man ds acc. rewrite about_app, Hb, app_nil_r. reflexivity.
  - destruct Hin as [->|Hin]; [contradiction|]. specialize (IH Hu' Hin b eq_refl).
    assert (Ha : about (String.eqb i) a = []).
    { apply about_none. intros m Hm. apply String.eqb_neq. intros ->. destruct (Hg r a Ga m Hm) as [K|K]; [|contradiction].
      apply Er. now symmetry. }
    intros man ds acc. rewrite about_app, Ha. cbn [app]. apply IH.
Qed.

Lemma concat_res_err {A B} (f : A -> res (list B)) l e : concat_res f l = Err e -> exists x e', In x l /\ f x = Err e'.
Proof.
  induction l as [|x l IH]; cbn; [discriminate|]. destruct (f x) as [a|e0] eqn:E; cbn; [|intros _; exists x, e0; auto].
  destruct (concat_res f l) as [b|e0]; cbn; [discriminate|]. intros H. destruct (IH H) as (y & e' & Hy & He). exists y, e'; auto.
Qed.
Definition ends_alike (g : rule -> res (list finding)) (L L' : list rule) : Prop :=
  (forall r, exists l, g r = Ok l) \/ (forall r, In r L <-> In r L').
Lemma group_ends (P : list finding -> list finding -> Prop) g L L' : ends_alike g L L' ->
  (forall la lb, concat_res g L = Ok la -> concat_res g L' = Ok lb -> P la lb) -> agree P (concat_res g L) (concat_res g L').
Proof.
  intros He HP. destruct (concat_res g L) as [la|e] eqn:E; destruct (concat_res g L') as [lb|e'] eqn:E'; cbn; auto.
  - apply concat_res_err in E' as (r & e0 & Hr & Hg). destruct He as [He|He]; [destruct (He r); congruence|].
    destruct (concat_res_each _ _ _ E r (proj2 (He r) Hr)). congruence.
  - apply concat_res_err in E as (r & e0 & Hr & Hg). destruct He as [He|He]; [destruct (He r); congruence|].
    destruct (concat_res_each _ _ _ E' r (proj1 (He r) Hr)). congruence.
Qed.
Lemma group_equiv g i L L' : of_rule g -> i <> "E0002" -> ends_alike g L L' ->
  (forall r, r_id r = i -> (In r L <-> In r L')) ->
  (forall r r', In r L -> In r' L -> r_id r = i -> r_id r' = i -> r = r') ->
  agree (equiv i) (concat_res g L) (concat_res g L').
Proof.
  intros Hg Hi He Hs Hu. apply group_ends; [exact He|]. intros la lb E E'.
  destruct (existsb (fun r => String.eqb (r_id r) i) L) eqn:Ex.
  - apply existsb_exists in Ex as [r0 [Hr0 K]]. apply String.eqb_eq in K.
    destruct (concat_res_each _ _ _ E r0 Hr0) as [A HA].
    assert (H1 : equiv i la A) by (apply (group_some g i r0 A L); auto; intros r Hr Hid; apply Hu; auto).
    assert (H2 : equiv i lb A).
    { apply (group_some g i r0 A L'); auto; [|now apply Hs]. intros r Hr Hid. apply Hu; auto. now apply Hs. }
    intros man ds acc. now rewrite H1, H2.
  - assert (N : forall r, In r L -> r_id r <> i).
    { intros r Hr K. assert (existsb (fun r => String.eqb (r_id r) i) L = true); [|congruence].
      apply existsb_exists. exists r. split; [exact Hr | now apply String.eqb_eq]. }
    intros man ds acc. rewrite (group_none g i L la), (group_none g i L' lb); auto.
    intros r Hr K. apply (N r); [now apply Hs | exact K].
Qed.
Definition members (la lb : list finding) : Prop := forall m, In m la <-> In m lb.
Lemma members_app a a' b b' : members a a' -> members b b' -> members (a ++ b) (a' ++ b').
Proof. intros H K m. rewrite !in_app_iff. specialize (H m). specialize (K m). tauto. Qed.
Lemma group_members (g : rule -> res (list finding)) L L' : (forall r, In r L <-> In r L') -> agree members (concat_res g L) (concat_res g L').
Proof.
  intros H. apply group_ends; [now right|]. intros la lb E E' m.
  apply concat_res_inv in E as [f [Hf ->]]. apply concat_res_inv in E' as [f' [Hf' ->]].
  rewrite !in_flat_map. split; intros [r [Hr Hm]]; exists r.
  - assert (Hr' := proj1 (H r) Hr). split; [exact Hr'|].
    assert (f r = f' r) by (specialize (Hf' r Hr'); specialize (Hf r Hr); congruence). congruence.
  - assert (Hr' := proj2 (H r) Hr). split; [exact Hr'|].
    assert (f r = f' r) by (specialize (Hf' r Hr); specialize (Hf r Hr'); congruence). congruence.
Qed.

(** * A run *)
Lemma locate_rule c id m f : locate_match c id m = Ok f -> f_rule f = id /\ f_file f = c_file c.
Proof.
  unfold locate_match. destruct (get_location _ _) as [[k|]|]; cbn; intros H; inversion H; subst; now split.
Qed.
Lemma locate_all c id ms fs : map_res (locate_match c id) ms = Ok fs -> forall m, In m fs -> f_rule m = id /\ f_file m = c_file c.
Proof.
  intros H m Hm. apply map_res_inv in H. induction H as [|x y l l' Hxy H IH]; [destruct Hm|].
  destruct Hm as [<-|Hm]; [now apply locate_rule with x | now apply IH].
Qed.
Definition whose (r : rule) (c : cfn) (x : res (list finding)) : Prop :=
  forall l, x = Ok l -> forall m, In m l -> f_rule m = r_id r /\ f_file m = c_file c.
Lemma matchall_whose r c : whose r c (matchall r c).
Proof.
  unfold matchall. destruct (r_match r) as [f|]; intros l H m Hm; [|injection H as <-; destruct Hm].
  destruct (f (r_config r) c) as [ms|]; [|discriminate]. cbn [bind] in H. now apply (locate_all c (r_id r) ms l).
Qed.
Lemma props_whose r c props t p : whose r c (matchall_props r c props t p).
Proof.
  unfold matchall_props. destruct (r_match_props r) as [f|]; intros l H m Hm; [|injection H as <-; destruct Hm].
  destruct (negb _); [injection H as <-; destruct Hm|].
  destruct (f (r_config r) c props t p) as [ms|]; [|discriminate]. cbn [bind] in H. now apply (locate_all c (r_id r) ms l).
Qed.
Lemma subs_whose r c props t p : whose r c (matchall_subs r c props t p).
Proof.
  unfold matchall_subs. destruct (r_match_subs r) as [f|]; intros l H m Hm; [|injection H as <-; destruct Hm].
  destruct (negb _); [injection H as <-; destruct Hm|].
  destruct (f (r_config r) c props t p) as [ms|]; [|discriminate]. cbn [bind] in H. now apply (locate_all c (r_id r) ms l).
Qed.
Lemma check_whose s r c x l : whose r c x -> run_check s (c_file c) (r_id r) x = Ok l ->
  forall m, In m l -> (f_rule m = r_id r \/ f_rule m = "E0002") /\ f_file m = c_file c.
Proof.
  intros Hx H m Hm. destruct x as [y|e]; cbn [run_check] in H.
  - injection H as <-. destruct (Hx y eq_refl m Hm); auto.
  - assert (K : l = [] \/ l = [crash_finding (c_file c) (r_id r) e]).
    { destruct e; destruct (is_rule_enabled s "E0002" false); inversion H; auto. }
    destruct K as [->| ->]; [destruct Hm|]. destruct Hm as [<-|[]]. split; [right|]; reflexivity.
Qed.

(** The three groups of checks of a walk. *)
Inductive check := CMatch | CProps (props : val) (t : string) (p : path) | CSubs (props : val) (t : string) (p : path).
Definition answer (ch : check) (r : rule) (c : cfn) : res (list finding) :=
  match ch with
  | CMatch => matchall r c
  | CProps props t p => matchall_props r c props t p
  | CSubs props t p => matchall_subs r c props t p
  end.
Definition guarded (ch : check) (s : settings) (c : cfn) (r : rule) : res (list finding) :=
  match ch with
  | CSubs (VDict [(key, _)]) _ _ => if String.eqb key "Fn::If" then Ok [] else run_check s (c_file c) (r_id r) (answer ch r c)
  | _ => run_check s (c_file c) (r_id r) (answer ch r c)
  end.
Lemma guarded_cases ch s c r : guarded ch s c r = Ok [] \/ guarded ch s c r = run_check s (c_file c) (r_id r) (answer ch r c).
Proof.
  destruct ch as [|props t p|props t p]; auto. destruct props as [| | | | | |[|[key v] [|]]]; auto.
  cbn [guarded]. destruct (String.eqb key "Fn::If"); auto.
Qed.
Lemma guarded_same ch s s' c r : is_rule_enabled s "E0002" false = is_rule_enabled s' "E0002" false -> guarded ch s c r = guarded ch s' c r.
Proof.
  intros H. assert (K : forall x, run_check s (c_file c) (r_id r) x = run_check s' (c_file c) (r_id r) x).
  { intros [x|e]; cbn [run_check]; [reflexivity|]. now rewrite H. }
  destruct ch as [|props t p|props t p]; cbn [guarded]; auto. destruct props as [| | | | | |[|[key v] [|]]]; auto.
  destruct (String.eqb key "Fn::If"); auto.
Qed.
Lemma guarded_whose ch s c r l : guarded ch s c r = Ok l ->
  forall m, In m l -> (f_rule m = r_id r \/ f_rule m = "E0002") /\ f_file m = c_file c.
Proof.
  intros H. destruct (guarded_cases ch s c r) as [E|E]; rewrite E in H; [injection H as <-; intros m []|].
  revert H. apply check_whose. destruct ch; [apply matchall_whose | apply props_whose | apply subs_whose].
Qed.
Lemma guarded_total ch s c r : e0002_on s -> exists l, guarded ch s c r = Ok l.
Proof.
  intros H. destruct (guarded_cases ch s c r) as [E|E]; rewrite E; [eauto | now apply run_check_total].
Qed.

(** Two runs agree if their groups of checks do. *)
Lemma body_agree (P : list finding -> list finding -> Prop) sp k k' c :
  (forall a a' b b', P a a' -> P b b' -> P (a ++ b) (a' ++ b')) -> P [] [] ->
  (forall ch, agree P (concat_res (guarded ch (k_set k) c) (rules k)) (concat_res (guarded ch (k_set k') c) (rules k'))) ->
  agree P (run_body sp k c) (run_body sp k' c).
Proof.
  intros Happ Hnil H. apply (run_body_rel (agree P)).
  - exact Hnil.
  - intros a a' b b'. now apply agree_app.
  - intros props name p. exact (H (CSubs props name p)).
  - intros rt ts _. right. exact I.
  - intros props rt p. exact (H (CProps props rt p)).
  - exact (H CMatch).
  - reflexivity.
Qed.
Lemma body_equiv sp k k' c i : i <> "E0002" ->
  is_rule_enabled (k_set k) "E0002" false = is_rule_enabled (k_set k') "E0002" false ->
  e0002_on (k_set k) \/ (forall r, In r (rules k) <-> In r (rules k')) ->
  (forall r, r_id r = i -> (In r (rules k) <-> In r (rules k'))) ->
  (forall r r', In r (rules k) -> In r' (rules k) -> r_id r = i -> r_id r' = i -> r = r') ->
  agree (equiv i) (run_body sp k c) (run_body sp k' c).
Proof.
  intros Hi He Hend Hs Hu. apply body_agree; [apply equiv_app | intros man ds acc; reflexivity|]. intros ch.
  rewrite <- (concat_res_ext (guarded ch (k_set k) c) (guarded ch (k_set k') c)) by (intros r _; now apply guarded_same).
  apply group_equiv; auto.
  - intros r l H m Hm. now apply (guarded_whose ch (k_set k) c r l).
  - destruct Hend as [Hend|Hend]; [left; intros r; now apply guarded_total | now right].
Qed.
Lemma body_members sp k k' c :
  is_rule_enabled (k_set k) "E0002" false = is_rule_enabled (k_set k') "E0002" false ->
  (forall r, In r (rules k) <-> In r (rules k')) -> agree members (run_body sp k c) (run_body sp k' c).
Proof.
  intros He Hs. apply body_agree; [apply members_app | intros m; reflexivity|]. intros ch.
  rewrite <- (concat_res_ext (guarded ch (k_set k) c) (guarded ch (k_set k') c)) by (intros r _; now apply guarded_same).
  now apply group_members.
Qed.
Definition told (k : collection) (c : cfn) (l : list finding) : Prop :=
  forall m, In m l -> ((exists r, In r (rules k) /\ r_id r = f_rule m) \/ f_rule m = "E0002") /\ f_file m = c_file c.
Lemma body_told sp k c l : run_body sp k c = Ok l -> told k c l.
Proof.
  intros H. assert (K : agree (fun a _ => told k c a) (run_body sp k c) (run_body sp k c)).
  { apply body_agree.
    - intros a a' b b' Ha Hb m Hm. apply in_app_iff in Hm as [Hm|Hm]; auto.
    - intros m [].
    - intros ch. apply group_ends; [now right|]. intros la lb E _ m Hm.
      apply concat_res_inv in E as [f [Hf ->]]. apply in_flat_map in Hm as [r [Hr Hm]].
      destruct (guarded_whose ch (k_set k) c r _ (Hf r Hr) m Hm) as [[K|K] K']; split; auto. left. exists r. split; auto. }
  rewrite H in K. exact K.
Qed.
