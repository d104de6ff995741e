(** Loading rules (C92). *)
From Coq Require Import Lia.
From Verif.Model Require Import Base Node Locate Helpers Rules Runner Config Core Loading.
From Verif.Spec Require Import Pipeline RuleSets Loading.
From Verif.Proofs Require Import BaseFacts PipelineProofs RefProofs RuleSetProofs RuleSetMain RuleSetLint GroupProofs RelationRule.

(** * Names *)
Lemma letter_iff c : is_upper c || is_lower c = true <-> letter c.
Proof.
  unfold is_upper, is_lower, in_range, code, letter. rewrite orb_true_iff, !andb_true_iff, !Nat.leb_le. tauto.
Qed.
Lemma rule_file_iff n : rule_file n = true <-> rule_name n.
Proof.
  unfold rule_name. destruct n as [|c rest]; cbn [rule_file]; [split; [discriminate | intros (c & mid & _ & H); discriminate]|].
  rewrite andb_true_iff, letter_iff, ends_with_iff. split.
  - intros [Hc [mid ->]]. exists c, mid. now split.
  - intros (c' & mid & Hc & E). injection E as <- ->. split; [exact Hc | now exists mid].
Qed.
Lemma free_has c s : free_of c s -> has_char c s = false.
Proof.
  induction s as [|a s IH]; [reflexivity|]. cbn. intros [Ha Hs]. rewrite (IH Hs), orb_false_r.
  unfold char_eqb. now apply Ascii.eqb_neq.
Qed.
Lemma remove_py_plain stem : free_of "." stem -> remove_py (stem ++ ".py") = stem.
Proof.
  induction stem as [|a s IH]; [reflexivity|]. intros [Ha Hs]. specialize (IH Hs).
  change (String a s ++ ".py")%string with (String a (s ++ ".py")).
  assert (K : forall t, remove_py (String a t) = String a (remove_py t)).
  { intros t. destruct a as [b0 b1 b2 b3 b4 b5 b6 b7].
    destruct b0, b1, b2, b3, b4, b5, b6, b7; try reflexivity. exfalso. now apply Ha. }
  now rewrite K, IH.
Qed.
Lemma last_plain stem : free_of "." stem -> last (split_on "." stem) "" = stem.
Proof. intros H. now rewrite split_on_nochar by now apply free_has. Qed.

(** * Looking up entries *)
Lemma find_file_In n l m : find_file n l = Some m -> In (FileE n m) l.
Proof.
  induction l as [|[n' m'|n' r sub] l IH]; cbn [find_file]; [discriminate| |intros H; right; auto].
  destruct (String.eqb_spec n' n) as [->|N]; [intros H; injection H as ->; now left | intros H; right; auto].
Qed.
Lemma find_dir_In n l sub : find_dir n l = Some sub -> exists r, In (DirE n r sub) l.
Proof.
  induction l as [|[n' m'|n' r s] l IH]; cbn [find_dir]; [discriminate| |].
  - intros H. destruct (IH H) as [r K]. exists r. now right.
  - destruct (String.eqb_spec n' n) as [->|N].
    + intros H. injection H as ->. exists r. now left.
    + intros H. destruct (IH H) as [r' K]. exists r'. now right.
Qed.
Lemma find_file_once n m l : NoDup (map entry_name l) -> In (FileE n m) l -> find_file n l = Some m.
Proof.
  induction l as [|e l IH]; [intros _ []|]. cbn [map]. intros Hn Hin. inversion Hn as [|? ? Hno Hn']; subst.
  destruct Hin as [->|Hin]; [cbn [find_file]; now rewrite String.eqb_refl|].
  destruct e as [n' m'|n' r sub]; cbn [find_file]; [|now apply IH].
  destruct (String.eqb_spec n' n) as [->|N]; [|now apply IH]. exfalso. apply Hno. cbn.
  change n with (entry_name (FileE n m)). now apply in_map.
Qed.

(** * One module *)
Lemma insert_member_In x l y : In y (insert_member x l) <-> y = x \/ In y l.
Proof.
  induction l as [|z l IH]; cbn; [intuition congruence|]. destruct (str_leb _ _); cbn; [intuition congruence|]. rewrite IH. intuition congruence.
Qed.
Lemma by_name_In l y : In y (by_name l) <-> In y l.
Proof. induction l as [|x l IH]; [reflexivity|]. cbn [by_name fold_right]. rewrite insert_member_In. fold (by_name l). rewrite IH. cbn. intuition congruence. Qed.
Lemma rule_class_iff c : is_rule_class c = true <-> rule_class c.
Proof.
  unfold is_rule_class, rule_class. rewrite existsb_exists. split.
  - intros ([a b] & Hin & H). apply andb_true_iff in H as [H1 H2]. cbn in H1, H2. apply String.eqb_eq in H2. subst b.
    apply orb_true_iff in H1 as [H1|H1]; apply String.eqb_eq in H1; subst a; auto.
  - intros [H|H]; eexists; (split; [exact H | reflexivity]).
Qed.
Lemma create_In members rs : create_rules members = Ok rs -> forall r, In r rs <-> made_by members r.
Proof.
  intros H r. unfold create_rules in H. rewrite (map_res_In _ _ _ H). split.
  - intros ([n c] & Hin & Hr). apply filter_In in Hin as [Hin Hc]. apply (proj1 (by_name_In _ _)) in Hin. exists n, c.
    split; [exact Hin|]. split; [now apply rule_class_iff | exact Hr].
  - intros (n & c & Hin & Hc & Hr). exists (n, c). split; [|exact Hr]. apply filter_In. split; [now apply by_name_In | now apply rule_class_iff].
Qed.
Lemma create_ok members : (exists rs, create_rules members = Ok rs) <-> sound (Ok members).
Proof.
  unfold create_rules. split.
  - intros [rs H]. exists members. split; [reflexivity|]. intros n c Hin Hc.
    apply (map_res_each _ _ _ H (n, c)). apply filter_In. split; [now apply by_name_In | now apply rule_class_iff].
  - intros (ms & E & H). injection E as <-.
    destruct (map_res _ _) as [rs|e] eqn:E; [eauto|]. exfalso.
    apply map_res_err in E as ([n c] & e' & Hin & He). apply filter_In in Hin as [Hin Hc]. apply (proj1 (by_name_In _ _)) in Hin.
    apply rule_class_iff in Hc. destruct (H n c Hin Hc) as [r K]. cbn in He. congruence.
Qed.

(** * One directory *)
Lemma concat_res_In_any {A B} (f : A -> res (list B)) l out x a : concat_res f l = Ok out -> In x l -> f x = Ok a -> forall y, In y a -> In y out.
Proof.
  intros H Hx Ha y Hy. apply concat_res_inv in H as [g [Hg ->]]. apply in_flat_map. exists x. split; [exact Hx|].
  rewrite Hg in Ha by exact Hx. now injection Ha as ->.
Qed.
Lemma load_dir d l : load_entry (DirE d true l) = do a <- concat_res (load_file l) l; do b <- concat_res load_entry l; Ok (a ++ b).
Proof.
  cbn [load_entry]. destruct (concat_res (load_file l) l) as [a|]; [|reflexivity]. cbn [bind].
  assert (K : forall l0, (fix subs (l : list entry) : res (list rule) :=
     match l with [] => Ok [] | x :: xs => do a <- load_entry x; do b <- subs xs; Ok (a ++ b) end) l0 = concat_res load_entry l0).
  { induction l0 as [|x xs IH]; [reflexivity|]. cbn [concat_res]. now rewrite IH. }
  now rewrite K.
Qed.
Fixpoint esize (e : entry) : nat :=
  match e with
  | FileE _ _ => 1
  | DirE _ _ l => S ((fix go (l : list entry) : nat := match l with [] => 0 | x :: xs => esize x + go xs end) l)
  end.
Lemma esize_In x l : In x l -> forall d r, esize x < esize (DirE d r l).
Proof.
  intros H d r. cbn [esize]. induction l as [|y l IH]; [destruct H|]. destruct H as [->|H]; [lia|]. specialize (IH H). lia.
Qed.
Lemma entry_ind' (P : entry -> Prop) :
  (forall n m, P (FileE n m)) -> (forall d r l, (forall e, In e l -> P e) -> P (DirE d r l)) -> forall e, P e.
Proof.
  intros Hf Hd e. remember (esize e) as s eqn:E. assert (Hle : esize e <= s) by lia. clear E. revert e Hle.
  induction s as [|s IH]; intros e He; [destruct e; cbn [esize] in He; lia|].
  destruct e as [n m|d r l]; [apply Hf|]. apply Hd. intros x Hx. apply IH. pose proof (esize_In x l Hx d r). lia.
Qed.

Lemma load_file_regular l n m stem : NoDup (map entry_name l) -> In (FileE n m) l -> rule_name n -> plain n stem -> ~ package l stem ->
  load_file l (FileE n m) = do x <- m; create_rules x.
Proof.
  intros Hn Hin Hr [E Hs] Hp. unfold load_file. rewrite (proj2 (rule_file_iff n) Hr).
  rewrite E, (remove_py_plain stem Hs). unfold import_filename. rewrite (last_plain stem Hs).
  rewrite <- E, (find_file_once n m l Hn Hin).
  assert (K : (do o <- (do x <- m; Ok (Some x)); match o with Some members => create_rules members | None => Ok [] end) = do x <- m; create_rules x).
  { now destruct m. }
  destruct (find_dir stem l) as [sub|] eqn:Ed; [|exact K].
  destruct (find_file "__init__.py" sub) as [m'|] eqn:Ef; [|exact K].
  exfalso. apply Hp. apply find_dir_In in Ed as [r Ed]. apply find_file_In in Ef. now exists r, sub, m'.
Qed.
Lemma load_file_other l n m : ~ rule_name n -> load_file l (FileE n m) = Ok [].
Proof. intros H. unfold load_file. destruct (rule_file n) eqn:E; [|reflexivity]. exfalso. apply H. now apply rule_file_iff. Qed.
Lemma rule_name_dec n : rule_name n \/ ~ rule_name n.
Proof. rewrite <- rule_file_iff. destruct (rule_file n); auto. Qed.

Lemma regular_below l d r sub : regular l -> In (DirE d r sub) l -> regular sub.
Proof.
  intros [Hn Hf] Hin. split; [inversion Hn as [? _ H]; subst; now apply (H d r)|].
  intros sibs n m H. apply (Hf sibs n m). now apply file_below with d r sub.
Qed.
Lemma regular_here l : regular l -> NoDup (map entry_name l).
Proof. intros [Hn _]. now inversion Hn. Qed.

Lemma loaded_In e : forall d l rs, e = DirE d true l -> regular l -> load_entry e = Ok rs -> forall r, In r rs <-> held_in l r.
Proof.
  induction e as [|d0 b l0 IH] using entry_ind'; intros d l rs E Hreg H r; [discriminate|]. injection E as -> -> ->.
  rewrite load_dir in H. destruct (concat_res (load_file l) l) as [a|] eqn:Ea; [|discriminate]. cbn [bind] in H.
  destruct (concat_res load_entry l) as [c|] eqn:Ec; [|discriminate]. injection H as <-. rewrite in_app_iff. split.
  - intros [Hin|Hin].
    + apply concat_res_inv in Ea as [g [Hg ->]]. apply in_flat_map in Hin as [[n m|n b sub] [Hx Hin]].
      2:{ assert (K := Hg _ Hx). cbn in K. injection K as K. rewrite <- K in Hin. destruct Hin. }
      assert (K := Hg _ Hx). destruct (rule_name_dec n) as [Hn|Hn].
      2:{ rewrite load_file_other in K by exact Hn. injection K as K. rewrite <- K in Hin. destruct Hin. }
      destruct (proj2 Hreg l n m (file_here _ _ _ Hx) Hn) as (stem & Hp & Hs).
      rewrite (load_file_regular l n m stem) in K by (auto using regular_here).
      destruct m as [ms|]; [|discriminate]. cbn [bind] in K. exists l, n, ms. split; [now apply file_here|]. split; [exact Hn|].
      now apply (create_In ms _ K).
    + apply concat_res_inv in Ec as [g [Hg ->]]. apply in_flat_map in Hin as [[n m|n b sub] [Hx Hin]]; assert (K := Hg _ Hx).
      * cbn in K. injection K as K. rewrite <- K in Hin. destruct Hin.
      * destruct b; [|discriminate K].
        destruct (proj1 (IH _ Hx n sub _ eq_refl (regular_below _ _ _ _ Hreg Hx) K r) Hin) as (sibs & n' & ms & H1 & H2 & H3).
        exists sibs, n', ms. split; [now apply file_below with n true sub | auto].
  - intros (sibs & n & ms & Hf & Hn & Hm). inversion Hf as [? ? ? Hx|? d' b sub ? ? ? Hx Hf']; subst.
    + left. destruct (proj2 Hreg _ _ _ Hf Hn) as (stem & Hp & Hs). destruct (concat_res_each _ _ _ Ea _ Hx) as [y Hy].
      apply (concat_res_In_any _ _ _ _ _ Ea Hx Hy).
      rewrite (load_file_regular sibs n (Ok ms) stem) in Hy by (auto using regular_here). cbn [bind] in Hy. now apply (create_In ms y Hy).
    + right. destruct (concat_res_each _ _ _ Ec _ Hx) as [y Hy]. apply (concat_res_In_any _ _ _ _ _ Ec Hx Hy).
      destruct b; [|discriminate Hy].
      apply (IH _ Hx d' sub y eq_refl (regular_below _ _ _ _ Hreg Hx) Hy). exists sibs, n, ms. auto.
Qed.

(** * When loading ends well *)
Lemma sound_iff m : sound m <-> exists ms, m = Ok ms /\ exists rs, create_rules ms = Ok rs.
Proof.
  split.
  - intros (ms & -> & H). exists ms. split; [reflexivity|]. apply create_ok. exists ms. auto.
  - intros (ms & -> & H). now apply create_ok.
Qed.
Lemma loaded_ok e : forall d l, e = DirE d true l -> regular l ->
  ((exists rs, load_entry e = Ok rs) <-> ~ closed_in l /\ forall sibs n m, file_in l sibs n m -> rule_name n -> sound m).
Proof.
  induction e as [|d0 b l0 IH] using entry_ind'; intros d l E Hreg; [discriminate|]. injection E as -> -> ->.
  rewrite load_dir. split.
  - intros [rs H]. destruct (concat_res (load_file l) l) as [a|] eqn:Ea; [|discriminate]. cbn [bind] in H.
    destruct (concat_res load_entry l) as [c|] eqn:Ec; [|discriminate]. clear H.
    assert (Hsub : forall d' b sub, In (DirE d' b sub) l -> b = true /\ exists rs', load_entry (DirE d' true sub) = Ok rs').
    { intros d' b sub Hx. destruct (concat_res_each _ _ _ Ec _ Hx) as [y Hy]. destruct b; [split; eauto | discriminate Hy]. }
    split.
    + intros Hc. inversion Hc as [? d' sub Hx|? d' b sub Hx Hc']; subst.
      * destruct (Hsub _ _ _ Hx); discriminate.
      * destruct (Hsub _ _ _ Hx) as [-> Hy]. apply (IH _ Hx d' sub eq_refl (regular_below _ _ _ _ Hreg Hx)) in Hy as [Hy _]. auto.
    + intros sibs n m Hf Hn. inversion Hf as [? ? ? Hx|? d' b sub ? ? ? Hx Hf']; subst.
      * destruct (proj2 Hreg _ _ _ Hf Hn) as (stem & Hp & Hs). destruct (concat_res_each _ _ _ Ea _ Hx) as [y Hy].
        rewrite (load_file_regular sibs n m stem) in Hy by (auto using regular_here).
        apply sound_iff. destruct m as [ms|]; [|discriminate]. exists ms. split; [reflexivity | exists y; exact Hy].
      * destruct (Hsub _ _ _ Hx) as [-> Hy]. apply (IH _ Hx d' sub eq_refl (regular_below _ _ _ _ Hreg Hx)) in Hy as [_ Hy]. now apply (Hy sibs n m).
  - intros [Hc Hf].
    assert (Ha : exists a, concat_res (load_file l) l = Ok a).
    { apply concat_res_total. intros [n m|n b sub] Hx; [|exists []; reflexivity].
      destruct (rule_name_dec n) as [Hn|Hn]; [|exists []; now apply load_file_other].
      assert (Hin := file_here _ _ _ Hx). destruct (proj2 Hreg _ _ _ Hin Hn) as (stem & Hp & Hs).
      rewrite (load_file_regular l n m stem) by (auto using regular_here).
      destruct (proj1 (sound_iff m) (Hf l n m Hin Hn)) as (ms & -> & Hrs). exact Hrs. }
    assert (Hb : exists b, concat_res load_entry l = Ok b).
    { apply concat_res_total. intros [n m|n b sub] Hx; [exists []; reflexivity|].
      destruct b; [|exfalso; apply Hc; now apply closed_here with n sub].
      apply (IH _ Hx n sub eq_refl (regular_below _ _ _ _ Hreg Hx)). split.
      - intros K. apply Hc. now apply closed_below with n true sub.
      - intros sibs n' m H. apply (Hf sibs n' m). now apply file_below with n true sub. }
    destruct Ha as [a ->], Hb as [b ->]. cbn. eauto.
Qed.

Lemma c92_held l rs : regular l -> load_plugins l = Ok rs -> forall r, In r rs <-> held_in l r.
Proof. intros H E. now apply (loaded_In (DirE "" true l) "" l rs eq_refl). Qed.
Lemma c92_ends l : regular l ->
  ((exists rs, load_plugins l = Ok rs) <-> ~ closed_in l /\ forall sibs n m, file_in l sibs n m -> rule_name n -> sound m).
Proof. intros H. now apply (loaded_ok (DirE "" true l) "" l eq_refl). Qed.

(** Whatever the names: what is loaded is made by a file of the directory. *)
Lemma import_from name l ms : import_filename name l = Ok (Some ms) -> exists sibs n, file_in l sibs n (Ok ms).
Proof.
  unfold import_filename. set (tail := last _ _).
  assert (K : forall m ms, (do x <- m; Ok (Some x)) = Ok (Some ms) -> m = (Ok ms : module)) by (intros [x|] y; cbn; congruence).
  destruct (find_dir tail l) as [sub|] eqn:Ed.
  - apply find_dir_In in Ed as [r Ed]. destruct (find_file "__init__.py" sub) as [m|] eqn:Ef.
    + intros H. apply K in H. subst m. apply find_file_In in Ef. exists sub, "__init__.py". apply file_below with tail r sub; [exact Ed | now apply file_here].
    + destruct (find_file (tail ++ ".py") l) as [m|] eqn:E2; [|discriminate]. intros H. apply K in H. subst m.
      apply find_file_In in E2. exists l, (tail ++ ".py")%string. now apply file_here.
  - destruct (find_file (tail ++ ".py") l) as [m|] eqn:E2; [|discriminate]. intros H. apply K in H. subst m.
    apply find_file_In in E2. exists l, (tail ++ ".py")%string. now apply file_here.
Qed.
Lemma loaded_from e : forall d l rs, e = DirE d true l -> load_entry e = Ok rs -> forall r, In r rs ->
  exists sibs n ms, file_in l sibs n (Ok ms) /\ made_by ms r.
Proof.
  induction e as [|d0 b l0 IH] using entry_ind'; intros d l rs E H r Hin; [discriminate|]. injection E as -> -> ->.
  rewrite load_dir in H. destruct (concat_res (load_file l) l) as [a|] eqn:Ea; [|discriminate]. cbn [bind] in H.
  destruct (concat_res load_entry l) as [c|] eqn:Ec; [|discriminate]. injection H as <-. apply in_app_iff in Hin as [Hin|Hin].
  - apply concat_res_inv in Ea as [g [Hg ->]]. apply in_flat_map in Hin as [[n m|n b sub] [Hx Hin]]; assert (K := Hg _ Hx); unfold load_file in K.
    + destruct (rule_file n); [|injection K as K; rewrite <- K in Hin; destruct Hin].
      destruct (import_filename (remove_py n) l) as [[ms|]|] eqn:Ei; cbn [bind] in K; [| |discriminate].
      * apply import_from in Ei as (sibs & n' & Hf). exists sibs, n', ms. split; [exact Hf | now apply (create_In ms _ K)].
      * injection K as K. rewrite <- K in Hin. destruct Hin.
    + injection K as K. rewrite <- K in Hin. destruct Hin.
  - apply concat_res_inv in Ec as [g [Hg ->]]. apply in_flat_map in Hin as [[n m|n b sub] [Hx Hin]]; assert (K := Hg _ Hx).
    + cbn in K. injection K as K. rewrite <- K in Hin. destruct Hin.
    + destruct b; [|discriminate K].
      destruct (IH _ Hx n sub _ eq_refl K r Hin) as (sibs & n' & ms & H1 & H2).
      exists sibs, n', ms. split; [now apply file_below with n true sub | auto].
Qed.
Lemma c92_from l rs r : load_plugins l = Ok rs -> In r rs -> exists sibs n ms, file_in l sibs n (Ok ms) /\ made_by ms r.
Proof. intros E. now apply (loaded_from (DirE "" true l) "" l rs eq_refl). Qed.

(** * The order of listing *)
Lemma held_same l l' : same_files l l' -> forall r, held_in l r -> held_in l' r.
Proof.
  intros H r (sibs & n & ms & Hf & Hn & Hm). destruct (proj1 (H n (Ok ms) Hn)) as [sibs' Hf']; [now exists sibs|].
  exists sibs', n, ms. auto.
Qed.
Lemma same_files_sym l l' : same_files l l' -> same_files l' l.
Proof. intros H n m Hn. symmetry. now apply H. Qed.
Lemma c92_order l l' : regular l -> regular l' -> same_files l l' -> (closed_in l <-> closed_in l') ->
  match load_plugins l, load_plugins l' with
  | Ok rs, Ok rs' => forall r, In r rs <-> In r rs'
  | Err _, Err _ => True
  | _, _ => False
  end.
Proof.
  intros Hr Hr' Hs Hc.
  assert (K : (exists rs, load_plugins l = Ok rs) <-> (exists rs, load_plugins l' = Ok rs)).
  { rewrite (c92_ends l Hr), (c92_ends l' Hr'), Hc. split; intros [H1 H2]; split; auto; intros sibs n m Hf Hn.
    - destruct (proj2 (Hs n m Hn)) as [s K]; [now exists sibs | now apply (H2 s n m)].
    - destruct (proj1 (Hs n m Hn)) as [s K]; [now exists sibs | now apply (H2 s n m)]. }
  destruct (load_plugins l) as [rs|] eqn:E; destruct (load_plugins l') as [rs'|] eqn:E'; auto.
  - intros r. rewrite (c92_held l rs Hr E), (c92_held l' rs' Hr' E'). split; apply held_same; auto using same_files_sym.
  - destruct (proj1 K) as [? ?]; [eauto | discriminate].
  - destruct (proj2 K) as [? ?]; [eauto | discriminate].
Qed.
(** ... does not show in the reports. *)
Lemma c92_report str sp tr cli fl files l l' rs rs' :
  regular l -> regular l' -> same_files l l' -> load_plugins l = Ok rs -> load_plugins l' = Ok rs' ->
  (forall r r', held_in l r -> held_in l r' -> r_id r = r_id r' -> r = r') ->
  alike_end (snd (lint_all str sp tr rs cli fl initial_state files [])) (snd (lint_all str sp tr rs' cli fl initial_state files [])).
Proof.
  intros Hr Hr' Hs E E' Hu. apply c91_loaded. split.
  - intros r. rewrite (c92_held l rs Hr E), (c92_held l' rs' Hr' E'). split; apply held_same; auto using same_files_sym.
  - intros r r' H H'. apply (c92_held l rs Hr E) in H. apply (c92_held l rs Hr E) in H'. now apply Hu.
Qed.

(** * get_rules *)
Section Get.
Variable str : val -> string.
Variable directory : string -> option (list entry).
Variable imported : string -> module.
Notation load := (load_path directory imported).
Lemma add_paths_ok paths : forall k k', add_paths str directory imported k paths = Ok k' ->
  exists rs, concat_res load paths = Ok rs /\ coll_extend str k rs = Ok k'.
Proof.
  induction paths as [|p paths IH]; intros k k' H; cbn [add_paths concat_res] in *.
  - exists []. split; [reflexivity | exact H].
  - destruct (load p) as [rs|] eqn:El; [|discriminate]. cbn [bind] in *.
    destruct (coll_extend str k rs) as [k1|] eqn:Ek; [|discriminate]. cbn [bind] in H.
    destruct (IH k1 k' H) as (rest & -> & Hk). cbn [bind]. exists (rs ++ rest). split; [reflexivity|].
    clear - Ek Hk. revert k Ek. induction rs as [|r rs IH]; intros k Ek; cbn [coll_extend app] in *; [injection Ek as ->; exact Hk|].
    destruct (coll_register str k r) as [k2|]; [|discriminate]. cbn [bind] in *. now apply IH.
Qed.
Lemma extend_app rs rest : forall k, coll_extend str k (rs ++ rest) = do k1 <- coll_extend str k rs; coll_extend str k1 rest.
Proof.
  induction rs as [|r rs IH]; intros k; [reflexivity|]. cbn [coll_extend app]. destruct (coll_register str k r) as [k1|]; [|reflexivity].
  cbn [bind]. apply IH.
Qed.
Lemma add_paths_made paths : forall k rs k', concat_res load paths = Ok rs -> coll_extend str k rs = Ok k' ->
  add_paths str directory imported k paths = Ok k'.
Proof.
  induction paths as [|p paths IH]; intros k rs k' H Hk; cbn [add_paths concat_res] in *.
  - injection H as <-. exact Hk.
  - destruct (load p) as [a|] eqn:El; [|discriminate]. cbn [bind] in *.
    destruct (concat_res load paths) as [b|] eqn:Eb; [|discriminate]. cbn [bind] in H. injection H as <-.
    rewrite extend_app in Hk. destruct (coll_extend str k a) as [k1|]; [|discriminate]. cbn [bind] in *. now apply (IH k1 b).
Qed.
Lemma c92_get dflt app ig inc cfg ex man k :
  get_rules str directory imported dflt app ig inc cfg ex man = Rules k <->
  exists rs, concat_res (load_path directory imported) (dflt :: app) = Ok rs /\ coll_new str rs ig inc cfg ex man = Ok k.
Proof.
  unfold get_rules. split.
  - destruct (add_paths _ _ _ _ (dflt :: app)) as [k'|e] eqn:E; [|destruct (caught e); discriminate].
    intros H. injection H as <-. now apply add_paths_ok in E.
  - intros (rs & H & Hk). now rewrite (add_paths_made _ _ rs k H Hk).
Qed.
(** A path that cannot be loaded ends the tool: with exit code 1 if the system or the import refused it. *)
Lemma fails_so dflt app ig inc cfg ex man p e before after :
  dflt :: app = (before ++ p :: after)%list -> (forall q, In q before -> exists rs, load_path directory imported q = Ok rs) ->
  (forall rs, concat_res (load_path directory imported) before = Ok rs -> exists k, coll_new str rs ig inc cfg ex man = Ok k) ->
  load_path directory imported p = Err e ->
  get_rules str directory imported dflt app ig inc cfg ex man = (if caught e then Unexpected 1 else Raises e).
Proof.
  intros E Hb Hk He. unfold get_rules. rewrite E. clear E dflt app.
  destruct (concat_res_total load before Hb) as [rs Hrs]. destruct (Hk rs Hrs) as [k Hnew].
  unfold coll_new in Hnew. set (k0 := mkColl [] _) in *. clearbody k0.
  assert (K : add_paths str directory imported k0 (before ++ p :: after) = Err e).
  { clear Hb Hk. revert k0 rs k Hrs Hnew. induction before as [|q before IH]; intros k0 rs k Hrs Hnew; cbn [app add_paths].
    - now rewrite He.
    - cbn [concat_res] in Hrs. destruct (load q) as [a|]; [|discriminate]. cbn [bind] in *.
      destruct (concat_res load before) as [b|] eqn:Eb; [|discriminate]. cbn [bind] in Hrs. injection Hrs as <-.
      rewrite extend_app in Hnew. destruct (coll_extend str k0 a) as [k1|]; [|discriminate]. cbn [bind] in *. now apply (IH k1 b k). }
  now rewrite K.
Qed.
Lemma c92_fails dflt app ig inc cfg ex man p e before after :
  dflt :: app = (before ++ p :: after)%list -> (forall q, In q before -> exists rs, load_path directory imported q = Ok rs) ->
  (forall rs, concat_res (load_path directory imported) before = Ok rs -> exists k, coll_new str rs ig inc cfg ex man = Ok k) ->
  load_path directory imported p = Err e ->
  ((e = EOther "OSError" \/ e = EOther "ImportError") -> get_rules str directory imported dflt app ig inc cfg ex man = Unexpected 1) /\
  (e <> EOther "OSError" -> e <> EOther "ImportError" -> get_rules str directory imported dflt app ig inc cfg ex man = Raises e).
Proof.
  intros E Hb Hk He. rewrite (fails_so _ _ _ _ _ _ _ _ _ _ _ E Hb Hk He). split; [intros [-> | ->]; reflexivity|]. intros N1 N2. unfold caught.
  destruct e as [| | | | | | |s|]; try reflexivity. destruct (String.eqb_spec s "OSError") as [->|_]; [congruence|]. destruct (String.eqb_spec s "ImportError") as [->|_]; [congruence | reflexivity].
Qed.
End Get.
