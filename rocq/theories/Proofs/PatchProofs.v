(** Proofs for C89: the patches of a specification. *)
From Coq Require Import List Arith Lia Bool Sorting.Sorted Sorting.Permutation.
From Verif.Model Require Import Base Helpers Rules Config Maintenance.
From Verif.Spec Require Import Paths Files Maintenance.
From Verif.Proofs Require Import BaseFacts FilesProofs SearchProofs CidrProofs AliasProofs MaintenanceMain.
Import ListNotations.
Local Open Scope string_scope.
Local Open Scope nat_scope.

Lemma text_le_antisym a b : text_le a b -> text_le b a -> a = b.
Proof. intros H K. apply leb_iff in H, K. now apply str_leb_antisym. Qed.
Lemma sorted_unique l : forall l', StronglySorted text_le l -> StronglySorted text_le l' -> Permutation l l' -> l = l'.
Proof.
  induction l as [|x l IH]; intros l' H H' P.
  - apply Permutation_nil in P. now subst.
  - destruct l' as [|y l']; [apply Permutation_sym, Permutation_nil in P; discriminate|]. inversion H as [|? ? Hs Hf]; subst. inversion H' as [|? ? Hs' Hf']; subst. rewrite Forall_forall in Hf, Hf'.
    assert (E : x = y).
    { assert (Ix : In x (y :: l')) by (apply (Permutation_in _ P); now left). assert (Iy : In y (x :: l)) by (apply (Permutation_in _ (Permutation_sym P)); now left).
      destruct Ix as [->|Ix]; [reflexivity|]. destruct Iy as [->|Iy]; [reflexivity|]. apply text_le_antisym; [now apply Hf | now apply Hf']. }
    subst y. f_equal. apply IH; [assumption | assumption |]. now apply (Permutation_cons_inv P).
Qed.
Lemma sort_same l l' : Permutation l l' -> sort_strings l = sort_strings l'.
Proof. intros P. apply sorted_unique; try apply sort_sorted. rewrite (sort_perm l), (sort_perm l'). exact P. Qed.
Lemma sorted_filter f l : StronglySorted text_le l -> StronglySorted text_le (filter f l).
Proof.
  induction l as [|x l IH]; intros H; cbn [filter]; [constructor|]. inversion H as [|? ? Hs Hf]; subst. destruct (f x); [|now apply IH]. constructor; [now apply IH|].
  rewrite Forall_forall in *. intros y Hy. apply filter_In in Hy as [Hy _]. now apply Hf.
Qed.
Lemma permutation_filter (f : string -> bool) l l' : Permutation l l' -> Permutation (filter f l) (filter f l').
Proof.
  induction 1 as [|x l l' P IH|x y l|l l2 l3 P1 IH1 P2 IH2]; cbn [filter]; [constructor | | | now rewrite IH1].
  - destruct (f x); [now constructor | exact IH].
  - destruct (f x), (f y); try reflexivity. apply perm_swap.
Qed.
Lemma json_names_are names : Permutation (json_names names) (filter (ends_with ".json") names) /\ StronglySorted text_le (json_names names).
Proof. unfold json_names. split; [apply permutation_filter, sort_perm | apply sorted_filter, sort_sorted]. Qed.
Lemma json_names_unique names js : Permutation js (filter (ends_with ".json") names) -> StronglySorted text_le js -> js = json_names names.
Proof. intros P S. destruct (json_names_are names) as [P' S']. apply sorted_unique; [exact S | exact S' |]. now rewrite P'. Qed.

Section Patches.
Variables (walk : string -> list (string * list string)) (load : string -> string -> res (list val)) (apply_patch : val -> val -> outcome).
Notation patches := (apply_patches apply_patch).
Notation files := (apply_files load apply_patch).
Notation folders := (apply_folders load apply_patch).
Lemma patches_iff ps : forall c c', patches ps c = Ok c' <-> patched apply_patch ps c c'.
Proof.
  induction ps as [|p ps IH]; intros c c'; cbn [apply_patches].
  - split; [intros E; injection E as ->; constructor | intros H; inversion H; reflexivity].
  - destruct (apply_patch p c) as [c1|c1|e] eqn:E.
    + rewrite IH. split; [intros H; now apply patch_applied with c1 | intros H; inversion H; congruence].
    + rewrite IH. split; [intros H; now apply patch_refused with c1 | intros H; inversion H; congruence].
    + split; [discriminate | intros H; inversion H; congruence].
Qed.
Lemma patched_app ps : forall qs c c', patched apply_patch (ps ++ qs) c c' <-> exists c1, patched apply_patch ps c c1 /\ patched apply_patch qs c1 c'.
Proof.
  induction ps as [|p ps IH]; intros qs c c'; cbn [app].
  - split; [intros H; exists c; split; [constructor | exact H] | intros [c1 [H K]]; inversion H; now subst].
  - split.
    + intros H. inversion H as [|? ? ? c1 ? E K|? ? ? c1 ? E K]; subst; apply IH in K as [c2 [K1 K2]]; exists c2; (split; [|exact K2]); [now apply patch_applied with c1 | now apply patch_refused with c1].
    + intros [c2 [H K]]. inversion H as [|? ? ? c1 ? E K'|? ? ? c1 ? E K']; subst; [apply patch_applied with c1 | apply patch_refused with c1]; try exact E; apply IH; now exists c2.
Qed.
Lemma files_iff folder names : forall c c', files folder names c = Ok c' <->
  exists pss, Forall2 (fun n l => load folder n = Ok l) names pss /\ patched apply_patch (List.concat pss) c c'.
Proof.
  induction names as [|n names IH]; intros c c'; cbn [apply_files].
  - split; [intros E; injection E as ->; exists []; split; constructor | intros [pss [F H]]; inversion F; subst; inversion H; reflexivity].
  - destruct (load folder n) as [ps|e] eqn:El; cbn [bind].
    2:{ split; [discriminate | intros [pss [F _]]; inversion F; congruence]. }
    destruct (patches ps c) as [c1|e] eqn:Ep; cbn [bind].
    + apply patches_iff in Ep. rewrite IH. split.
      * intros [pss [F H]]. exists (ps :: pss). split; [now constructor|]. cbn [List.concat]. apply patched_app. now exists c1.
      * intros [pss [F H]]. inversion F as [|? l ? pss' El' F']; subst. assert (l = ps) by congruence. subst l. cbn [List.concat] in H. apply patched_app in H as [c2 [H1 H2]]. exists pss'. split; [exact F'|].
        apply patches_iff in Ep, H1. assert (c2 = c1) by congruence. now subst c2.
    + split; [discriminate|]. intros [pss [F H]]. inversion F as [|? l ? pss' El' F']; subst. assert (l = ps) by congruence. subst l. cbn [List.concat] in H. apply patched_app in H as [c2 [H1 _]].
      apply patches_iff in H1. congruence.
Qed.
Lemma folders_iff fs : forall c c', folders fs c = Ok c' <-> exists ps, in_order load fs ps /\ patched apply_patch ps c c'.
Proof.
  induction fs as [|[folder names] fs IH]; intros c c'; cbn [apply_folders].
  - split; [intros E; injection E as ->; exists []; split; constructor | intros [ps [F H]]; inversion F; subst; inversion H; reflexivity].
  - destruct (files folder (json_names names) c) as [c1|e] eqn:Ef; cbn [bind].
    + rewrite IH. apply files_iff in Ef as [pss [F H]]. split.
      * intros [ps [O P]]. exists (List.concat pss ++ ps)%list. split; [|apply patched_app; now exists c1]. destruct (json_names_are names) as [P1 P2]. now apply folder_first with (json_names names).
      * intros [ps [O P]]. inversion O as [|? ? js pss' ? ps' P1 P2 F' O']; subst. apply json_names_unique in P1; [|exact P2]. subst js. apply patched_app in P as [c2 [K1 K2]]. exists ps'. split; [exact O'|].
        assert (E1 : files folder (json_names names) c = Ok c1) by (apply files_iff; exists pss; now split). assert (E2 : files folder (json_names names) c = Ok c2) by (apply files_iff; exists pss'; now split).
        assert (c2 = c1) by congruence. now subst c2.
    + split; [discriminate|]. intros [ps [O P]]. inversion O as [|? ? js pss' ? ps' P1 P2 F' O']; subst. apply json_names_unique in P1; [|exact P2]. subst js. apply patched_app in P as [c2 [K1 K2]].
      assert (E2 : files folder (json_names names) c = Ok c2) by (apply files_iff; exists pss'; now split). congruence.
Qed.
(** The patches of a region are applied in their order, those that are refused being passed over. *)
Lemma c89_patches region c c' : patch_spec walk load apply_patch c region = Ok c' <-> exists ps, in_order load (walk region) ps /\ patched apply_patch ps c c'.
Proof. apply folders_iff. Qed.
End Patches.
(** The order in which the system lists the files of a folder does not matter. *)
Lemma c89_listing walk walk' load apply_patch region c :
  Forall2 (fun a b => fst a = fst b /\ Permutation (snd a) (snd b)) (walk region) (walk' region) ->
  patch_spec walk load apply_patch c region = patch_spec walk' load apply_patch c region.
Proof.
  unfold patch_spec. intros F. revert c. induction F as [|[f n] [f' n'] fs fs' [E P] F IH]; intros c; [reflexivity|]. cbn [fst snd] in E, P. subst f'. cbn [apply_folders].
  unfold json_names. rewrite (sort_same n n' P). destruct (apply_files load apply_patch f _ c) as [c1|e]; cbn [bind]; [apply IH | reflexivity].
Qed.

(** * Types of botocore *)
Lemma last_slash s : has_char "/" s = false \/ exists a b, s = a ++ "/" ++ b /\ has_char "/" b = false.
Proof.
  induction s as [|c s IH]; [now left|]. destruct IH as [H|[a [b [-> H]]]].
  - cbn [has_char]. rewrite H, orb_false_r. destruct (char_eqb c "/") eqn:E; [|now left]. right. exists "", s. apply Ascii.eqb_eq in E. subst c. now split.
  - right. exists (String c a), b. now split.
Qed.
Lemma last_app {A} (l : list A) x d : List.last (l ++ [x]) d = x.
Proof. induction l as [|y l IH]; [reflexivity|]. cbn [app]. destruct (l ++ [x])%list eqn:E; [now destruct l|]. rewrite <- E in *. cbn [List.last]. rewrite E in *. exact IH. Qed.
Lemma reference_parts s : type_reference s (service_of s) (shape_of s).
Proof.
  unfold type_reference, service_of, shape_of. destruct (last_slash s) as [H|[a [b [-> H]]]].
  - rewrite (split_on_nochar "/" s H). cbn [removelast List.last join_str]. split; [exact H|]. right. now split.
  - change (a ++ "/" ++ b) with (a ++ String "/" b). rewrite split_on_both, (split_on_nochar "/" b H), removelast_last, last_last. split; [exact H|]. left. change "/" with (String "/" "") at 2. now rewrite join_split.
Qed.
Section Types.
Variable fetch : string -> res shapes.
Fixpoint members (d new : list (string * val)) (c : cache) : res (list (string * val) * cache) :=
  match d with
  | [] => Ok (new, c)
  | (k, x) :: rest =>
      if String.eqb k "botocore" then
        match x with
        | VStr s => do a <- allowed_of fetch s c; members rest (set_assoc "AllowedValues" (fst a) new) (snd a)
        | _ => Err EAttribute
        end
      else do y <- replace_types fetch x c; members rest (set_assoc k (fst y) new) (snd y)
  end.
Fixpoint items (l : list val) (c : cache) : res (list val * cache) :=
  match l with
  | [] => Ok ([], c)
  | x :: rest => do y <- replace_types fetch x c; do ys <- items rest (snd y); Ok (fst y :: fst ys, snd ys)
  end.
Lemma replace_dict d c : replace_types fetch (VDict d) c = (do r <- members d [] c; Ok (VDict (fst r), snd r)).
Proof. reflexivity. Qed.
Lemma replace_list l c : replace_types fetch (VList l) c = (do r <- items l c; Ok (VList (fst r), snd r)).
Proof. reflexivity. Qed.

(** What the cache holds was fetched, once for each service. *)
Definition fetched (c : cache) : Prop := NoDup (map fst c) /\ forall s sh, assoc s c = Some sh -> fetch s = Ok sh.
Definition grows (v : val) (c c' : cache) : Prop := forall s, In s (map fst c') -> In s (map fst c) \/ mentions s v.
Lemma assoc_app_last {A} k (x : A) c s : assoc s (c ++ [(k, x)])%list = match assoc s c with Some y => Some y | None => if String.eqb s k then Some x else None end.
Proof. induction c as [|[k' y] c IH]; cbn [app assoc]; [reflexivity|]. destruct (String.eqb s k'); [reflexivity | exact IH]. Qed.
Lemma allowed_ok s c v c' : fetched c -> allowed_of fetch s c = Ok (v, c') ->
  fetched c' /\ (forall x, In x (map fst c') -> In x (map fst c) \/ x = service_of s) /\ exists l, enumeration fetch s l /\ v = VList (map VStr l).
Proof.
  intros [N F] E. unfold allowed_of in E. destruct (match assoc (service_of s) c with Some _ => Ok c | None => _ end) as [c1|e] eqn:Ec; [|discriminate E]. cbn [bind] in E.
  assert (K : fetched c1 /\ (forall x, In x (map fst c1) -> In x (map fst c) \/ x = service_of s)).
  { destruct (assoc (service_of s) c) as [sh|] eqn:Ea; [injection Ec as <-; split; [now split | now left]|].
    destruct (fetch (service_of s)) as [sh|e] eqn:Ef; [|discriminate Ec]. cbn [bind] in Ec. injection Ec as <-. split; [split|].
    - rewrite map_app. cbn [map fst]. apply NoDup_app_disj; [exact N | constructor; [intros [] | constructor] |]. intros x Hx [<-|[]]. now apply (proj1 (assoc_None _ _) Ea).
    - intros t sh'. rewrite assoc_app_last. destruct (assoc t c) as [y|] eqn:Et; [intros Q; injection Q as <-; now apply F|]. destruct (String.eqb_spec t (service_of s)) as [->|]; [congruence | discriminate].
    - intros x Hx. rewrite map_app in Hx. apply in_app_or in Hx as [Hx|[<-|[]]]; [now left | now right]. }
  destruct K as [[N1 F1] G]. destruct (assoc (service_of s) c1) as [sh|] eqn:E1; [|discriminate E]. destruct (assoc (shape_of s) sh) as [[enum|]|] eqn:E2; try discriminate E. injection E as <- <-.
  split; [now split|]. split; [exact G|]. exists (sort_strings enum). split; [|reflexivity]. exists (service_of s), (shape_of s), sh, enum. split; [apply reference_parts|]. split; [now apply F1|]. split; [exact E2|]. split; [apply sort_perm | apply sort_sorted].
Qed.

Definition sound (v : val) : Prop := forall c v' c', fetched c -> replace_types fetch v c = Ok (v', c') -> replaced fetch v v' /\ fetched c' /\ grows v c c'.
Definition av : string := "AllowedValues".
Definition bc : string := "botocore".
Lemma assoc_head_other {A} k k' (x : A) d : k <> k' -> assoc k ((k', x) :: d) = assoc k d.
Proof. intros H. cbn [assoc]. apply String.eqb_neq in H. now rewrite H. Qed.
Lemma assoc_head_same {A} k (x : A) d : assoc k ((k, x) :: d) = Some x.
Proof. cbn [assoc]. now rewrite String.eqb_refl. Qed.
Lemma absent {A} k (x : A) d : NoDup (map fst ((k, x) :: d)) -> assoc k d = None.
Proof. intros H. inversion H; subst. now apply assoc_None. Qed.
Definition others (d new new' : list (string * val)) : Prop := forall k, k <> av -> k <> bc ->
  match assoc k d with Some x => exists y, assoc k new' = Some y /\ replaced fetch x y | None => assoc k new' = assoc k new end.
Definition values (d new new' : list (string * val)) : Prop :=
  match assoc bc d with
  | None => match assoc av d with Some x => exists y, assoc av new' = Some y /\ replaced fetch x y | None => assoc av new' = assoc av new end
  | Some x => exists s l y, x = VStr s /\ enumeration fetch s l /\ assoc av new' = Some y /\
                (y = VList (map VStr l) \/ exists z, assoc av d = Some z /\ replaced fetch z y)
  end.
Lemma members_sound d : (forall k x, In (k, x) d -> sound x) -> NoDup (map fst d) -> forall new c new' c', fetched c -> members d new c = Ok (new', c') ->
  fetched c' /\ grows (VDict d) c c' /\ others d new new' /\ assoc bc new' = assoc bc new /\ values d new new'.
Proof.
  assert (Nab : av <> bc) by discriminate. assert (Nba : bc <> av) by discriminate.
  induction d as [|[k x] d IH]; intros Hs Hn new c new' c' Hf E; cbn [members] in E.
  - injection E as <- <-. split; [exact Hf|]. split; [now left|]. split; [intros k _ _; reflexivity|]. now split.
  - assert (Hn' := Hn). assert (Hab := absent _ _ _ Hn). inversion Hn' as [|? ? _ Nd]; subst. clear Hn'.
    assert (Hs' : forall k' y, In (k', y) d -> sound y) by (intros k' y Hy; apply (Hs k' y); now right).
    destruct (String.eqb_spec k "botocore") as [->|Nk].
    + destruct x as [|b|z|q|s|l|d0]; try discriminate E. destruct (allowed_of fetch s c) as [[a c1]|e] eqn:Ea; [|discriminate E]. cbn [bind fst snd] in E.
      destruct (allowed_ok s c a c1 Hf Ea) as [F1 [G1 [l [El ->]]]]. destruct (IH Hs' Nd _ _ _ _ F1 E) as [F2 [G2 [O2 [B2 V2]]]].
      split; [exact F2|]. split; [|split; [|split]].
      * intros t Ht. destruct (G2 t Ht) as [K|K]; [destruct (G1 t K) as [K'| ->]; [now left | right]|right].
        -- apply mentions_here with s (shape_of s); [now left | apply reference_parts].
        -- inversion K as [d1 s1 ty1 H1 H2|d1 n1 x1 H1 H2|]; subst; [apply mentions_here with s1 ty1; [now right | exact H2] | apply mentions_member with n1 x1; [now right | exact H2]].
      * intros k N1 N2. rewrite assoc_head_other by exact N2. specialize (O2 k N1 N2). destruct (assoc k d); [exact O2|]. rewrite O2. now apply assoc_set_other.
      * rewrite B2. now apply assoc_set_other.
      * unfold values in *. change bc with "botocore" in *. rewrite assoc_head_same, Hab in *. rewrite assoc_head_other by exact Nab. exists s, l. destruct (assoc av d) as [z|] eqn:Ez.
        -- destruct V2 as [y [Y1 Y2]]. exists y. repeat split; try assumption. right. exists z. now split.
        -- exists (VList (map VStr l)). repeat split; [exact El | rewrite V2; apply assoc_set_same | now left].
    + destruct (replace_types fetch x c) as [[y c1]|e] eqn:Ey; [|discriminate E]. cbn [bind fst snd] in E. destruct (Hs k x (or_introl eq_refl) c y c1 Hf Ey) as [R1 [F1 G1]].
      destruct (IH Hs' Nd _ _ _ _ F1 E) as [F2 [G2 [O2 [B2 V2]]]]. split; [exact F2|]. split; [|split; [|split]].
      * intros t Ht. destruct (G2 t Ht) as [K|K]; [destruct (G1 t K) as [K'|K']; [now left | right]|right].
        -- apply mentions_member with k x; [now left | exact K'].
        -- inversion K as [d1 s1 ty1 H1 H2|d1 n1 x1 H1 H2|]; subst; [apply mentions_here with s1 ty1; [now right | exact H2] | apply mentions_member with n1 x1; [now right | exact H2]].
      * intros k' N1 N2. destruct (String.eqb_spec k' k) as [->|N].
        -- rewrite assoc_head_same. specialize (O2 k N1 N2). rewrite Hab in O2. exists y. split; [rewrite O2; apply assoc_set_same | exact R1].
        -- rewrite assoc_head_other by exact N. specialize (O2 k' N1 N2). destruct (assoc k' d); [exact O2|]. rewrite O2. now apply assoc_set_other.
      * rewrite B2. apply assoc_set_other. unfold bc. congruence.
      * unfold values in *. rewrite (assoc_head_other bc k) by (unfold bc; congruence). destruct (String.eqb_spec k av) as [->|N].
        -- rewrite assoc_head_same. rewrite Hab in V2. destruct (assoc bc d) as [b|].
           ++ destruct V2 as [s [l [y' [-> [El [Ey' K]]]]]]. exists s, l, y'. repeat split; try assumption. destruct K as [K|[z [K _]]]; [now left | discriminate K].
           ++ exists y. split; [rewrite V2; apply assoc_set_same | exact R1].
        -- rewrite (assoc_head_other av k) by congruence. destruct (assoc bc d) as [b|]; [exact V2|]. destruct (assoc av d); [exact V2|]. rewrite V2. apply assoc_set_other. congruence.
Qed.
Lemma items_sound l : (forall x, In x l -> sound x) -> forall c l' c', fetched c -> items l c = Ok (l', c') -> fetched c' /\ grows (VList l) c c' /\ Forall2 (replaced fetch) l l'.
Proof.
  induction l as [|x l IH]; intros Hs c l' c' Hf E; cbn [items] in E.
  - injection E as <- <-. split; [exact Hf|]. split; [now left | constructor].
  - destruct (replace_types fetch x c) as [[y c1]|e] eqn:Ey; [|discriminate E]. cbn [bind fst snd] in E. destruct (items l c1) as [[ys c2]|e] eqn:Ei; [|discriminate E]. cbn [bind fst snd] in E. injection E as <- <-.
    destruct (Hs x (or_introl eq_refl) c y c1 Hf Ey) as [R1 [F1 G1]]. destruct (IH (fun z Hz => Hs z (or_intror Hz)) c1 ys c2 F1 Ei) as [F2 [G2 R2]].
    split; [exact F2|]. split; [|now constructor]. intros t Ht. destruct (G2 t Ht) as [K|K]; [destruct (G1 t K) as [K'|K']; [now left | right]|right].
    + apply mentions_item with x; [now left | exact K'].
    + inversion K as [| |l1 x1 H1 H2]; subst. apply mentions_item with x1; [now right | exact H2].
Qed.
Lemma types_sound v : wf v -> sound v.
Proof.
  induction v as [v IH] using vsize_ind. intros Hw. destruct v as [|b|z|q|s|l|d]; try (intros c v' c' Hf E; cbn [replace_types] in E; injection E as <- <-; split; [constructor; discriminate | split; [exact Hf | now left]]).
  - intros c v' c' Hf E. rewrite replace_list in E. destruct (items l c) as [[l' c1]|e] eqn:Ei; [|discriminate E]. cbn [bind fst snd] in E. injection E as <- <-.
    destruct (items_sound l) with (c := c) (l' := l') (c' := c1) as [F [G R]]; try assumption.
    { intros x Hx. apply IH; [now apply vsize_list_In | now apply (wf_list l)]. }
    split; [now constructor | now split].
  - intros c v' c' Hf E. rewrite replace_dict in E. destruct (members d [] c) as [[d' c1]|e] eqn:Ei; [|discriminate E]. cbn [bind fst snd] in E. injection E as <- <-. apply wf_dict in Hw as [Hn Hw].
    destruct (members_sound d) with (new := @nil (string * val)) (c := c) (new' := d') (c' := c1) as [F [G [O [B V]]]]; try assumption.
    { intros k x Hx. apply IH; [now apply (vsize_dict_In d k) | now apply (Hw k)]. }
    split; [|now split]. unfold values in V. constructor.
    + exact B.
    + intros k N K. destruct (string_dec k bc) as [->|N2]; [exact B|]. specialize (O k N N2). rewrite K in O. exact O.
    + intros k x N1 N2 K. specialize (O k N1 N2). rewrite K in O. exact O.
    + intros K1 K2. unfold bc, av in V. rewrite K1, K2 in V. exact V.
    + intros x K1 K2. unfold bc, av in V. rewrite K1, K2 in V. exact V.
    + intros x K1. unfold bc, av in V. rewrite K1 in V. exact V.
Qed.
(** References are replaced by the values they refer to, everything else stays, and each service is downloaded once, if it is mentioned. *)
Lemma c89_types v v' c' : wf v -> replace_types fetch v [] = Ok (v', c') ->
  replaced fetch v v' /\ NoDup (map fst c') /\ (forall s, In s (map fst c') -> mentions s v).
Proof.
  intros Hw E. destruct (types_sound v Hw [] v' c') as [R [[N _] G]]; [split; [constructor | discriminate] | exact E |]. split; [exact R|]. split; [exact N|]. intros s Hs. destruct (G s Hs) as [[]|K]. exact K.
Qed.

(** * No reference is left *)
Lemma In_set_assoc {A} k (x : A) d n y : In (n, y) (set_assoc k x d) -> (n = k /\ y = x) \/ In (n, y) d.
Proof.
  induction d as [|[k' z] d IH]; cbn [set_assoc]; [intros [E|[]]; injection E as <- <-; now left|]. destruct (String.eqb_spec k k') as [->|N].
  - intros [E|H]; [injection E as <- <-; now left | right; now right].
  - intros [E|H]; [right; now left|]. destruct (IH H) as [K|K]; [now left | right; now right].
Qed.
Definition no_reference (d : list (string * val)) : Prop := forall k x, In (k, x) d -> k <> "botocore" /\ ~ key_in "botocore" x.
Lemma no_reference_dict d : no_reference d -> ~ key_in "botocore" (VDict d).
Proof.
  intros H K. inversion K as [d0 Hi|d0 n x Hi Hk|]; subst; [|now apply (proj2 (H n x Hi))]. apply in_map_iff in Hi as [[n x] [E Hi]]. cbn [fst] in E. subst n. now apply (proj1 (H _ _ Hi)).
Qed.
Lemma texts_no_reference l : ~ key_in "botocore" (VList (map VStr l)).
Proof. intros K. inversion K as [| |l0 x Hi Hk]; subst. apply in_map_iff in Hi as [s [<- _]]. inversion Hk. Qed.
Lemma allowed_texts s c v c' : allowed_of fetch s c = Ok (v, c') -> exists l, v = VList (map VStr l).
Proof.
  unfold allowed_of. destruct (match assoc (service_of s) c with Some _ => Ok c | None => _ end) as [c1|e]; cbn [bind]; [|discriminate]. destruct (assoc (service_of s) c1) as [sh|]; [|discriminate].
  destruct (assoc (shape_of s) sh) as [[enum|]|]; try discriminate. intros E. injection E as <- _. now exists (sort_strings enum).
Qed.
Lemma members_clean d : (forall k x, In (k, x) d -> forall c v' c', replace_types fetch x c = Ok (v', c') -> ~ key_in "botocore" v') ->
  forall new c new' c', no_reference new -> members d new c = Ok (new', c') -> no_reference new'.
Proof.
  induction d as [|[k x] d IH]; intros Hs new c new' c' Hn E; cbn [members] in E; [injection E as <- _; exact Hn|].
  assert (Hs' : forall k' y, In (k', y) d -> forall c v' c', replace_types fetch y c = Ok (v', c') -> ~ key_in "botocore" v') by (intros k' y Hy; apply (Hs k' y); now right).
  destruct (String.eqb_spec k "botocore") as [->|Nk].
  - destruct x as [|b|z|q|s|l|d0]; try discriminate E. destruct (allowed_of fetch s c) as [[a c1]|e] eqn:Ea; [|discriminate E]. cbn [bind fst snd] in E. apply (IH Hs' _ _ _ _) in E; [exact E|].
    destruct (allowed_texts _ _ _ _ Ea) as [l ->]. intros n y Hy. apply In_set_assoc in Hy as [[-> ->]|Hy]; [split; [discriminate | apply texts_no_reference] | now apply (Hn n y)].
  - destruct (replace_types fetch x c) as [[y c1]|e] eqn:Ey; [|discriminate E]. cbn [bind fst snd] in E. apply (IH Hs' _ _ _ _) in E; [exact E|].
    intros n z Hz. apply In_set_assoc in Hz as [[-> ->]|Hz]; [split; [exact Nk | now apply (Hs k x (or_introl eq_refl) c y c1)] | now apply (Hn n z)].
Qed.
Lemma c89_clean v : forall c v' c', replace_types fetch v c = Ok (v', c') -> ~ key_in "botocore" v'.
Proof.
  induction v as [v IH] using vsize_ind. intros c v' c' E. destruct v as [|b|z|q|s|l|d]; try (cbn [replace_types] in E; injection E as <- _; intros K; now inversion K).
  - rewrite replace_list in E. destruct (items l c) as [[l' c1]|e] eqn:Ei; [|discriminate E]. cbn [bind fst snd] in E. injection E as <- <-.
    assert (A : forall x, In x l' -> ~ key_in "botocore" x).
    { assert (Hl : forall x, In x l -> forall c v' c', replace_types fetch x c = Ok (v', c') -> ~ key_in "botocore" v') by (intros x Hx; apply IH; now apply vsize_list_In). clear IH. revert c l' c1 Ei Hl.
      induction l as [|x l IHl]; intros c l' c1 Ei Hl; cbn [items] in Ei; [injection Ei as <- _; intros x []|]. destruct (replace_types fetch x c) as [[y c2]|e] eqn:Ey; [|discriminate Ei]. cbn [bind fst snd] in Ei.
      destruct (items l c2) as [[ys c3]|e] eqn:Ei'; [|discriminate Ei]. cbn [bind fst snd] in Ei. injection Ei as <- <-. intros z [<-|Hz]; [now apply (Hl x (or_introl eq_refl) c y c2) | apply (IHl c2 ys c3 Ei'); [|exact Hz]]. intros w Hw. apply Hl. now right. }
    intros K. inversion K as [| |l0 x Hi Hk]; subst. now apply (A x).
  - rewrite replace_dict in E. destruct (members d [] c) as [[d' c1]|e] eqn:Ei; [|discriminate E]. cbn [bind fst snd] in E. injection E as <- <-. apply no_reference_dict. apply (members_clean d) with (new := @nil (string * val)) (c := c) (c' := c1); [|intros k x []|exact Ei].
    intros k x Hx. apply IH. now apply (vsize_dict_In d k).
Qed.

(** * Without references nothing changes *)
Lemma set_assoc_new {A} k (x : A) d : ~ In k (map fst d) -> set_assoc k x d = (d ++ [(k, x)])%list.
Proof.
  induction d as [|[k' y] d IH]; intros H; cbn [set_assoc app]; [reflexivity|]. destruct (String.eqb_spec k k') as [->|N]; [elim H; now left|]. f_equal. apply IH. intros K. apply H. now right.
Qed.
Lemma c89_plain v : wf v -> ~ key_in "botocore" v -> forall c, replace_types fetch v c = Ok (v, c).
Proof.
  induction v as [v IH] using vsize_ind. intros Hw Hk c. destruct v as [|b|z|q|s|l|d]; try reflexivity.
  - rewrite replace_list. assert (A : items l c = Ok (l, c)); [|now rewrite A].
    assert (Hl : forall x, In x l -> replace_types fetch x c = Ok (x, c)).
    { intros x Hx. apply IH; [now apply vsize_list_In | now apply (wf_list l) |]. intros K. apply Hk. now apply key_item with x. }
    clear IH Hk Hw. induction l as [|x l IHl]; cbn [items]; [reflexivity|]. rewrite (Hl x (or_introl eq_refl)). cbn [bind fst snd]. rewrite IHl; [reflexivity|]. intros y Hy. apply Hl. now right.
  - rewrite replace_dict. apply wf_dict in Hw as [Hn Hw].
    assert (Hd : forall k x, In (k, x) d -> k <> "botocore" /\ replace_types fetch x c = Ok (x, c)).
    { intros k x Hx. split; [intros ->; apply Hk; constructor; now apply (in_map fst) in Hx|]. apply IH; [now apply (vsize_dict_In d k) | now apply (Hw k) |]. intros K. apply Hk. now apply key_member with k x. }
    assert (A : forall new, NoDup (map fst (new ++ d)) -> members d new c = Ok ((new ++ d)%list, c)).
    { clear IH Hk Hw Hn. induction d as [|[k x] d IHd]; intros new Hn; cbn [members]; [now rewrite app_nil_r|]. destruct (Hd k x (or_introl eq_refl)) as [N E]. apply String.eqb_neq in N. rewrite N, E. cbn [bind fst snd].
      rewrite set_assoc_new.
      - rewrite IHd; [now rewrite <- app_assoc | intros n y Hy; apply Hd; now right |]. rewrite <- app_assoc. exact Hn.
      - rewrite map_app in Hn. cbn [map fst] in Hn. apply NoDup_remove_2 in Hn. intros K. apply Hn. apply in_or_app. now left. }
    rewrite A by exact Hn. reflexivity.
Qed.

(** * When the references can be replaced *)
Lemma has_slash a b : has_char "/" (a ++ "/" ++ b) = true.
Proof. rewrite has_char_app. change (has_char "/" ("/" ++ b)) with true. apply orb_true_r. Qed.
Lemma app_inj_last a b a' b' : has_char "/" b = false -> has_char "/" b' = false -> a ++ "/" ++ b = a' ++ "/" ++ b' -> a = a' /\ b = b'.
Proof.
  revert a'. induction a as [|c a IH]; intros a' H H' E; destruct a' as [|c' a']; cbn [append] in E.
  - injection E as ->. now split.
  - injection E as _ ->. change (has_char "/" (a' ++ "/" ++ b') = false) in H. now rewrite has_slash in H.
  - injection E as _ <-. change (has_char "/" (a ++ "/" ++ b) = false) in H'. now rewrite has_slash in H'.
  - injection E as <- E. destruct (IH a' H H' E) as [-> ->]. now split.
Qed.
Lemma reference_unique s a b a' b' : type_reference s a b -> type_reference s a' b' -> a = a' /\ b = b'.
Proof.
  intros [H [E|[-> E]]] [H' [E'|[-> E']]]; subst.
  - now apply app_inj_last.
  - now rewrite has_slash in H'.
  - now rewrite has_slash in H.
  - now split.
Qed.
Lemma allowed_total s l c : fetched c -> enumeration fetch s l -> exists r, allowed_of fetch s c = Ok r.
Proof.
  intros [_ F] [service [type [sh [enum [R [Ef [Et _]]]]]]]. destruct (reference_unique _ _ _ _ _ R (reference_parts s)) as [-> ->]. unfold allowed_of. destruct (assoc (service_of s) c) as [sh'|] eqn:Ea; cbn [bind].
  - rewrite Ea. assert (sh' = sh) by (apply F in Ea; congruence). subst. rewrite Et. now eexists.
  - rewrite Ef. cbn [bind]. rewrite assoc_app_last, Ea, String.eqb_refl, Et. now eexists.
Qed.
Definition all_good (v : val) : Prop := forall r, reference_in r v -> exists s l, r = VStr s /\ enumeration fetch s l.
Definition total (v : val) : Prop := forall c, fetched c -> exists r, replace_types fetch v c = Ok r.
Lemma members_total d : (forall k x, In (k, x) d -> wf x /\ (k <> "botocore" -> total x) /\ (k = "botocore" -> exists s l, x = VStr s /\ enumeration fetch s l)) ->
  forall new c, fetched c -> exists r, members d new c = Ok r.
Proof.
  induction d as [|[k x] d IH]; intros H new c Hf; cbn [members]; [now eexists|]. assert (H' : forall k' y, In (k', y) d -> wf y /\ (k' <> "botocore" -> total y) /\ (k' = "botocore" -> exists s l, y = VStr s /\ enumeration fetch s l)) by (intros k' y Hy; apply H; now right).
  destruct (H k x (or_introl eq_refl)) as [Hw [Ht Hb]]. destruct (String.eqb_spec k "botocore") as [->|N].
  - destruct (Hb eq_refl) as [s [l [-> El]]]. destruct (allowed_total s l c Hf El) as [[a c1] Ea]. rewrite Ea. cbn [bind fst snd]. apply IH; [exact H'|]. apply (allowed_ok s c a c1 Hf Ea).
  - destruct (Ht N c Hf) as [[y c1] Ey]. rewrite Ey. cbn [bind fst snd]. apply IH; [exact H'|]. destruct (types_sound x Hw c y c1 Hf Ey) as [_ [K _]]. exact K.
Qed.
Lemma items_total l : (forall x, In x l -> wf x /\ total x) -> forall c, fetched c -> exists r, items l c = Ok r.
Proof.
  induction l as [|x l IH]; intros H c Hf; cbn [items]; [now eexists|]. destruct (H x (or_introl eq_refl)) as [Hw Ht]. destruct (Ht c Hf) as [[y c1] Ey]. rewrite Ey. cbn [bind fst snd].
  destruct (types_sound x Hw c y c1 Hf Ey) as [_ [K _]]. destruct (IH (fun z Hz => H z (or_intror Hz)) c1 K) as [[ys c2] E]. rewrite E. cbn [bind]. now eexists.
Qed.
Lemma good_total v : wf v -> all_good v -> total v.
Proof.
  induction v as [v IH] using vsize_ind. intros Hw Hg c Hf. destruct v as [|b|z|q|s|l|d]; try (now eexists).
  - rewrite replace_list. destruct (items_total l) with (c := c) as [[l' c1] E]; [|exact Hf|rewrite E; now eexists].
    intros x Hx. split; [now apply (wf_list l)|]. apply IH; [now apply vsize_list_In | now apply (wf_list l) |]. intros r Hr. apply Hg. now apply reference_item with x.
  - rewrite replace_dict. apply wf_dict in Hw as [Hn Hw]. destruct (members_total d) with (new := @nil (string * val)) (c := c) as [[d' c1] E]; [|exact Hf|rewrite E; now eexists].
    intros k x Hx. split; [now apply (Hw k)|]. split.
    + intros _. apply IH; [now apply (vsize_dict_In d k) | now apply (Hw k) |]. intros r Hr. apply Hg. now apply reference_member with k x.
    + intros ->. apply Hg. now constructor.
Qed.
Lemma members_good d : (forall k x, In (k, x) d -> wf x /\ forall c r, fetched c -> replace_types fetch x c = Ok r -> all_good x) ->
  forall new c r, fetched c -> members d new c = Ok r -> forall k x, In (k, x) d -> all_good x /\ (k = "botocore" -> exists s l, x = VStr s /\ enumeration fetch s l).
Proof.
  induction d as [|[k x] d IH]; intros H new c r Hf E k0 x0 Hi; [now elim Hi|]. cbn [members] in E.
  assert (H' : forall k' y, In (k', y) d -> wf y /\ forall c r, fetched c -> replace_types fetch y c = Ok r -> all_good y) by (intros k' y Hy; apply (H k'); now right).
  destruct (H k x (or_introl eq_refl)) as [Hw Hx]. destruct (String.eqb_spec k "botocore") as [->|N].
  - destruct x as [|b|z|q|s|l|d0]; try discriminate E. destruct (allowed_of fetch s c) as [[a c1]|e] eqn:Ea; [|discriminate E]. cbn [bind fst snd] in E. destruct (allowed_ok s c a c1 Hf Ea) as [F1 [_ [l [El _]]]].
    destruct Hi as [Q|Hi]; [injection Q as <- <-|exact (IH H' _ _ _ F1 E k0 x0 Hi)]. split; [intros r0 K; inversion K|]. intros _. now exists s, l.
  - destruct (replace_types fetch x c) as [[y c1]|e] eqn:Ey; [|discriminate E]. cbn [bind fst snd] in E. destruct (types_sound x Hw c y c1 Hf Ey) as [_ [F1 _]].
    destruct Hi as [Q|Hi]; [injection Q as <- <-|exact (IH H' _ _ _ F1 E k0 x0 Hi)]. split; [exact (Hx c (y, c1) Hf Ey) | intros K; contradiction].
Qed.
Lemma items_good l : (forall x, In x l -> wf x /\ forall c r, fetched c -> replace_types fetch x c = Ok r -> all_good x) ->
  forall c r, fetched c -> items l c = Ok r -> forall x, In x l -> all_good x.
Proof.
  induction l as [|x l IH]; intros H c r Hf E x0 Hi; [now elim Hi|]. cbn [items] in E. destruct (H x (or_introl eq_refl)) as [Hw Hx].
  destruct (replace_types fetch x c) as [[y c1]|e] eqn:Ey; [|discriminate E]. cbn [bind fst snd] in E. destruct (types_sound x Hw c y c1 Hf Ey) as [_ [F1 _]]. destruct (items l c1) as [[ys c2]|e] eqn:Ei; [|discriminate E].
  destruct Hi as [<-|Hi]; [exact (Hx c (y, c1) Hf Ey)|]. apply (IH (fun z Hz => H z (or_intror Hz)) c1 (ys, c2) F1 Ei x0 Hi).
Qed.
Lemma total_good v : wf v -> forall c r, fetched c -> replace_types fetch v c = Ok r -> all_good v.
Proof.
  induction v as [v IH] using vsize_ind. intros Hw c r Hf E. destruct v as [|b|z|q|s|l|d]; try (intros r0 K; solve [inversion K]).
  - rewrite replace_list in E. destruct (items l c) as [x|e] eqn:Ei; [|discriminate E]. intros r0 K. inversion K as [| |l0 x0 Hi Hr]; subst. revert r0 Hr K. cut (all_good x0); [intros A r0 Hr _; exact (A r0 Hr)|].
    apply (items_good l) with (c := c) (r := x); try assumption. intros y Hy. split; [now apply (wf_list l)|]. apply IH; [now apply vsize_list_In | now apply (wf_list l)].
  - rewrite replace_dict in E. apply wf_dict in Hw as [Hn Hw]. destruct (members d [] c) as [x|e] eqn:Ei; [|discriminate E].
    assert (A : forall k y, In (k, y) d -> all_good y /\ (k = "botocore" -> exists s l, y = VStr s /\ enumeration fetch s l)).
    { apply (members_good d) with (new := @nil (string * val)) (c := c) (r := x); try assumption. intros k y Hy. split; [now apply (Hw k)|]. apply IH; [now apply (vsize_dict_In d k) | now apply (Hw k)]. }
    intros r0 K. inversion K as [d0 Hi|d0 n x0 Hi Hr|]; subst; [exact (proj2 (A _ _ Hi) eq_refl) | exact (proj1 (A _ _ Hi) r0 Hr)].
Qed.
(** The references are replaced exactly when each is a text that refers to an enumeration. *)
Lemma c89_when v : wf v -> ((exists r, replace_types fetch v [] = Ok r) <-> forall r, reference_in r v -> exists s l, r = VStr s /\ enumeration fetch s l).
Proof.
  intros Hw. assert (F0 : fetched []) by (split; [constructor | discriminate]). split.
  - intros [r E]. exact (total_good v Hw [] r F0 E).
  - intros H. exact (good_total v Hw H [] F0).
Qed.
End Types.
(** * The specification that is written *)
Lemma c89_made walk load apply_patch region fetch spec v : processed walk load apply_patch region fetch spec = Ok v <->
  exists for_all for_region s c, in_order load (walk "all") for_all /\ in_order load (walk region) for_region /\ patched apply_patch (for_all ++ for_region) spec s /\
    replace_types fetch s [] = Ok (v, c).
Proof.
  unfold processed. split.
  - destruct (patch_spec walk load apply_patch spec "all") as [a|] eqn:Ea; [|discriminate]. cbn [bind].
    destruct (patch_spec walk load apply_patch a region) as [b|] eqn:Eb; [|discriminate]. cbn [bind].
    destruct (replace_types fetch b []) as [[v' c]|] eqn:Er; [|discriminate]. cbn [bind fst]. intros [= ->].
    apply c89_patches in Ea as [ps [O1 P1]]. apply c89_patches in Eb as [qs [O2 P2]]. exists ps, qs, b, c. split; [exact O1|]. split; [exact O2|]. split; [|exact Er].
    apply patched_app. eauto.
  - intros (ps & qs & s & c & O1 & O2 & P & E). apply patched_app in P as [a [P1 P2]].
    assert (Ea : patch_spec walk load apply_patch spec "all" = Ok a) by (apply c89_patches; eauto).
    assert (Eb : patch_spec walk load apply_patch a region = Ok s) by (apply c89_patches; eauto).
    rewrite Ea. cbn [bind]. rewrite Eb. cbn [bind]. rewrite E. reflexivity.
Qed.
