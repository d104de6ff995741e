(** Proofs about blocks of addresses and Fn::Cidr (C32). *)
From Coq Require Import Lia ZArith QArith Permutation.
From Verif.Model Require Import Base Helpers Rules Search Refs ConditionRules Relationship Limits Parameters Policies Functions.
From Verif.Spec Require Import Paths ConditionUse FunctionArguments.
From Verif.Proofs Require Import BaseFacts SearchProofs ConditionUseProofs FormatProofs FunctionProofs.
Import Verif.Model.Rules.
Local Open Scope string_scope.

Lemma join_split_aux c s : forall acc, join_str (String c "") (split_aux c s acc) = acc ++ s.
Proof.
  induction s as [|a s IH]; intros acc; cbn [split_aux]; [cbn [join_str]; now rewrite append_nil_r|].
  destruct (char_eqb a c) eqn:E.
  - apply char_eqb_eq in E. subst a. specialize (IH ""). destruct (split_aux c s "") as [|y l] eqn:Es.
    + exfalso. destruct s; cbn [split_aux] in Es; [discriminate|]. destruct (char_eqb a c); [discriminate|].
      clear IH. revert Es. generalize ("" ++ String a "")%string. induction s as [|b s IH]; intros u; cbn [split_aux]; [discriminate|]. destruct (char_eqb b c); [discriminate|]. apply IH.
    + rewrite join_cons, IH. reflexivity.
  - rewrite IH. rewrite append_assoc. reflexivity.
Qed.
Lemma join_split c s : join_str (String c "") (split_on c s) = s.
Proof. unfold split_on. now rewrite join_split_aux. Qed.
Lemma split_aux_free c s : forall acc, has_char c acc = false -> Forall (fun x => has_char c x = false) (split_aux c s acc).
Proof.
  induction s as [|a s IH]; intros acc Ha; cbn [split_aux]; [repeat constructor; exact Ha|].
  destruct (char_eqb a c) eqn:E; [constructor; [exact Ha | now apply IH]|]. apply IH. rewrite has_char_app, Ha. cbn [has_char]. now rewrite E.
Qed.
Lemma split_free c s : Forall (fun x => has_char c x = false) (split_on c s).
Proof. now apply split_aux_free. Qed.

(** * Octets and masks *)
Definition digits : list ascii := list_ascii_of_string "0123456789".
Lemma in_digits lo hi a : in_range lo hi a = true -> 48 <= lo -> hi <= 57 -> In a digits.
Proof.
  unfold in_range. intros H Hl Hh. apply andb_prop in H as [H1 H2]. apply Nat.leb_le in H1, H2.
  assert (Hc : 48 <= code a <= 57) by lia. clear - Hc. unfold code in Hc. rewrite <- (ascii_nat_embedding a).
  generalize dependent (nat_of_ascii a). intros n Hn. do 48 (destruct n as [|n]; [lia|]). do 10 (destruct n as [|n]; [cbn; tauto|]). lia.
Qed.
Fixpoint upto (n : nat) (z : Z) : list Z := match n with 0%nat => [z] | S n => z :: upto n (z + 1) end.
Lemma in_upto n : forall z x, In x (upto n z) <-> (z <= x <= z + Z.of_nat n)%Z.
Proof.
  induction n as [|n IH]; intros z x; cbn [upto In]; [cbn; lia|]. rewrite IH. rewrite Nat2Z.inj_succ. lia.
Qed.
Definition all_words : list string :=
  (flat_map (fun a => [String a ""]) digits ++ flat_map (fun a => map (fun b => String a (String b "")) digits) digits ++
   flat_map (fun a => flat_map (fun b => map (fun c => String a (String b (String c ""))) digits) digits) digits)%list.
Definition octets : list string := map str_of_Z (upto 255 0).
Definition masks : list string := map str_of_Z (upto 32 0).
Lemma octet_words : forallb (fun s => implb (octet s) (smem s octets)) all_words = true.
Proof. vm_compute. reflexivity. Qed.
Lemma mask_words : forallb (fun s => implb (mask s) (smem s masks)) all_words = true.
Proof. vm_compute. reflexivity. Qed.
Lemma octets_octet : forallb octet octets = true.
Proof. vm_compute. reflexivity. Qed.
Lemma masks_mask : forallb mask masks = true.
Proof. vm_compute. reflexivity. Qed.
Lemma word1 a : In a digits -> In (String a "") all_words.
Proof. intros H. apply in_or_app. left. apply in_flat_map. exists a. split; [exact H | now left]. Qed.
Lemma word2 a b : In a digits -> In b digits -> In (String a (String b "")) all_words.
Proof. intros Ha Hb. apply in_or_app. right. apply in_or_app. left. apply in_flat_map. exists a. split; [exact Ha|]. now apply in_map with (f := fun b => String a (String b "")). Qed.
Lemma word3 a b c : In a digits -> In b digits -> In c digits -> In (String a (String b (String c ""))) all_words.
Proof.
  intros Ha Hb Hc. apply in_or_app. right. apply in_or_app. right. apply in_flat_map. exists a. split; [exact Ha|]. apply in_flat_map. exists b. split; [exact Hb|].
  now apply in_map with (f := fun c => String a (String b (String c ""))).
Qed.
Lemma char_digit a d : char_eqb a d = true -> In d digits -> In a digits.
Proof. intros H Hd. apply char_eqb_eq in H. now subst. Qed.
Lemma is_digit_in a : is_digit a = true -> In a digits.
Proof. intros H. apply (in_digits 48 57 a H); lia. Qed.
Lemma octet_word s : octet s = true -> In s all_words.
Proof.
  destruct s as [|a [|b [|c [|d s]]]]; try discriminate; cbn [octet]; intros H.
  - apply word1. now apply is_digit_in.
  - apply andb_prop in H as [H1 H2]. apply word2; [apply (in_digits 49 57 a H1); lia | now apply is_digit_in].
  - apply orb_prop in H as [H|H]; [apply orb_prop in H as [H|H]|]; apply andb_prop in H as [H H3]; apply andb_prop in H as [H1 H2]; apply word3;
      first [apply (char_digit _ _ H1); cbn; tauto | apply (char_digit _ _ H2); cbn; tauto | now apply is_digit_in | apply (in_digits _ _ _ H2); lia | apply (in_digits _ _ _ H3); lia].
Qed.
Lemma mask_word s : mask s = true -> In s all_words.
Proof.
  destruct s as [|a [|b [|c s]]]; try discriminate; cbn [mask]; intros H.
  - apply word1. now apply is_digit_in.
  - apply orb_prop in H as [H|H]; apply andb_prop in H as [H1 H2]; apply word2;
      first [apply (char_digit _ _ H1); cbn; tauto | now apply is_digit_in | apply (in_digits _ _ _ H1); lia | apply (in_digits _ _ _ H2); lia].
Qed.
Lemma in_words_of n s : In s (map str_of_Z (upto n 0)) <-> exists z, (0 <= z <= Z.of_nat n)%Z /\ s = str_of_Z z.
Proof.
  rewrite in_map_iff. split.
  - intros [z [<- H]]. apply in_upto in H. exists z. split; [lia|reflexivity].
  - intros [z [H ->]]. exists z. split; [reflexivity|]. apply in_upto. lia.
Qed.
Lemma octet_spec s : octet s = true <-> exists z, (0 <= z <= 255)%Z /\ s = str_of_Z z.
Proof.
  rewrite <- (in_words_of 255 s). fold octets. split.
  - intros H. pose proof (proj1 (forallb_forall _ _) octet_words s (octet_word s H)) as W. cbv beta in W. rewrite H in W. now apply smem_iff.
  - intros H. exact (proj1 (forallb_forall _ _) octets_octet s H).
Qed.
Lemma mask_spec s : mask s = true <-> exists z, (0 <= z <= 32)%Z /\ s = str_of_Z z.
Proof.
  rewrite <- (in_words_of 32 s). fold masks. split.
  - intros H. pose proof (proj1 (forallb_forall _ _) mask_words s (mask_word s H)) as W. cbv beta in W. rewrite H in W. now apply smem_iff.
  - intros H. exact (proj1 (forallb_forall _ _) masks_mask s H).
Qed.

(** * Blocks *)
Lemma number_free c z : is_digit c = false -> c <> "-"%char -> has_char c (str_of_Z z) = false.
Proof. intros H1 H2. apply free_has. now apply str_of_Z_free. Qed.
Lemma cidr_body_spec s : cidr_body s = true <-> cidr_range s.
Proof.
  split.
  - unfold cidr_body. intros H. pose proof (join_split "/" s) as Es. destruct (split_on "/" s) as [|ip [|m [|x l]]]; try discriminate.
    pose proof (join_split "." ip) as Ei. destruct (split_on "." ip) as [|a [|b [|c [|d [|y l]]]]]; try discriminate.
    apply andb_prop in H as [H H5]. apply andb_prop in H as [H H4]. apply andb_prop in H as [H H3]. apply andb_prop in H as [H1 H2].
    apply octet_spec in H1 as [za [Ha ->]], H2 as [zb [Hb ->]], H3 as [zc [Hc ->]], H4 as [zd [Hd ->]]. apply mask_spec in H5 as [zm [Hm ->]].
    exists za, zb, zc, zd, zm. split; [tauto|]. cbn [join_str] in Es, Ei. rewrite <- Es, <- Ei. cbn [append]. rewrite !append_assoc. cbn [append].
    repeat (rewrite append_assoc; cbn [append]). reflexivity.
  - intros [a [b [c [d [n [[Ha [Hb [Hc [Hd Hn]]]] ->]]]]]]. unfold cidr_body.
    assert (F : forall z, has_char "/" (str_of_Z z) = false) by (intros z; apply number_free; [reflexivity|discriminate]).
    assert (G : forall z, has_char "." (str_of_Z z) = false) by (intros z; apply number_free; [reflexivity|discriminate]).
    set (ip := str_of_Z a ++ "." ++ str_of_Z b ++ "." ++ str_of_Z c ++ "." ++ str_of_Z d).
    replace (str_of_Z a ++ "." ++ str_of_Z b ++ "." ++ str_of_Z c ++ "." ++ str_of_Z d ++ "/" ++ str_of_Z n) with (ip ++ String "/" (str_of_Z n))
      by (unfold ip; rewrite !append_assoc; reflexivity).
    rewrite split_on_app; [|unfold ip; rewrite !has_char_app, !F; reflexivity]. rewrite split_on_nochar by apply F.
    unfold ip. change (str_of_Z a ++ "." ++ str_of_Z b ++ "." ++ str_of_Z c ++ "." ++ str_of_Z d) with (join_str (String "." "") [str_of_Z a; str_of_Z b; str_of_Z c; str_of_Z d]).
    rewrite split_on_join; [|discriminate|repeat (apply Forall_cons; [apply G|]); apply Forall_nil].
    rewrite !(proj2 (octet_spec _)) by eauto. rewrite (proj2 (mask_spec _)) by eauto. reflexivity.
Qed.
Lemma drop_spec s : (exists t, s = t ++ String "010" "" /\ drop_last_newline s = t) \/ ((forall t, s <> t ++ String "010" "") /\ drop_last_newline s = s).
Proof.
  induction s as [|a s IH]; [right; split; [|reflexivity]; intros [|x t]; discriminate|].
  destruct s as [|b s].
  - cbn [drop_last_newline]. destruct (char_eqb a newline) eqn:E.
    + apply char_eqb_eq in E. subst a. left. exists "". split; reflexivity.
    + right. split; [|reflexivity]. intros [|x [|y t]] H; cbn [append] in H; [|discriminate|discriminate]. injection H as ->. discriminate.
  - change (drop_last_newline (String a (String b s))) with (String a (drop_last_newline (String b s))). destruct IH as [[t [E1 E2]]|[H E2]].
    + left. exists (String a t). split; [cbn [append]; congruence | congruence].
    + right. split; [|congruence]. intros [|x t] E; cbn [append] in E; [discriminate|]. injection E as -> E. exact (H t E).
Qed.
Lemma range_no_newline s t : cidr_range s -> s <> t ++ String "010" "".
Proof.
  intros [a [b [c [d [n [_ ->]]]]]] E. assert (F : forall z, has_char "010" (str_of_Z z) = false) by (intros z; apply number_free; [reflexivity|discriminate]).
  apply (f_equal (has_char "010")) in E. rewrite !has_char_app, !F in E. destruct (has_char "010" t); discriminate.
Qed.
Lemma cidr_matches_spec s : cidr_matches s = true <-> cidr_range s \/ exists t, s = t ++ String "010" "" /\ cidr_range t.
Proof.
  unfold cidr_matches. rewrite cidr_body_spec. destruct (drop_spec s) as [[t [E ->]]|[H ->]].
  - split; [intros H; right; eauto|]. intros [H|[t' [E' H]]].
    + exfalso. exact (range_no_newline _ _ H E).
    + rewrite E in E'. assert (t = t') as ->; [|exact H]. clear - E'. revert t' E'. induction t as [|a t IH]; intros [|b t'] E; cbn [append] in E.
      * reflexivity.
      * injection E as _ E. destruct t'; discriminate.
      * injection E as _ E. destruct t; discriminate.
      * injection E as -> E. f_equal. now apply IH.
  - split; [now left|]. intros [Hr|[t [E _]]]; [exact Hr|]. exfalso. exact (H t E).
Qed.

(** * Fn::Cidr *)
Lemma cidr_block_places q v : places q (cidr_block q v) (fun r => r = [PIdx 0] /\ ~ block_ok v).
Proof.
  destruct v as [|b|z|f|s|l|[|[k x] [|m d]]]; cbn [cidr_block];
    try (apply places_one; intros r; split; [intros [H _]; exact H | intros ->; split; [reflexivity|]; intros [[s0 [H _]]|[[k0 [x0 [H _]]]|[d0 [H _]]]]; discriminate]).
  - destruct (cidr_matches s) eqn:E.
    + p_none H. destruct H as [_ H]. apply H. left. exists s. split; [reflexivity|]. now apply cidr_matches_spec.
    + apply places_one. intros r. split; [intros [H _]; exact H | intros ->; split; [reflexivity|]].
      intros [[s0 [[= <-] H]]|[[k0 [x0 [H _]]]|[d0 [H _]]]]; try discriminate. apply cidr_matches_spec in H. congruence.
  - p_none H. destruct H as [_ H]. apply H. right; right. eexists. split; [reflexivity|discriminate].
  - destruct (smem k cidr_functions) eqn:E.
    + p_none H. destruct H as [_ H]. apply H. right; left. apply is_call. now apply smem_in.
    + apply places_one. intros r. split; [intros [H _]; exact H | intros ->; split; [reflexivity|]].
      intros [[s0 [H _]]|[H|[d0 [[= <-] H]]]]; [discriminate| |cbn in H; lia]. revert H. apply not_calls. now apply smem_notin.
  - p_none H. destruct H as [_ H]. apply H. right; right. eexists. split; [reflexivity|discriminate].
Qed.
Lemma cidr_number_places q w i v : places q (cidr_number w i q v) (fun r => r = [PIdx i] /\ ~ count_ok v).
Proof.
  destruct v as [|b|z|f|s|l|[|[k x] [|m d]]]; cbn [cidr_number];
    try (apply places_one; intros r; split; [intros [H _]; exact H | intros ->; split; [reflexivity|]; intros [[[z0 H]|[b0 H]]|[[k0 [x0 [H _]]]|[d0 [H _]]]]; discriminate]).
  - p_none H. destruct H as [_ H]. apply H. left. right. eauto.
  - p_none H. destruct H as [_ H]. apply H. left. left. eauto.
  - p_none H. destruct H as [_ H]. apply H. right; right. eexists. split; [reflexivity|discriminate].
  - destruct (smem k cidr_functions) eqn:E.
    + p_none H. destruct H as [_ H]. apply H. right; left. apply is_call. now apply smem_in.
    + apply places_one. intros r. split; [intros [H _]; exact H | intros ->; split; [reflexivity|]].
      intros [[[z0 H]|[b0 H]]|[H|[d0 [[= <-] H]]]]; try discriminate; [|cbn in H; lia]. revert H. apply not_calls. now apply smem_notin.
  - p_none H. destruct H as [_ H]. apply H. right; right. eexists. split; [reflexivity|discriminate].
Qed.
Lemma no_size q : places q (cidr_number "sizeMask" 2 q VNull) (fun r => r = [PIdx 2]).
Proof. apply places_one. reflexivity. Qed.
Lemma cidr_checks : checks "Fn::Cidr" (fun p v => Ok (cidr_check p v)) cidr_fault.
Proof.
  apply checks_places. intros p v ms [= <-]. set (q := (p ++ [PKey "Fn::Cidr"])%list).
  destruct v as [| | | |s|[|b [|c [|m [|y l]]]]|d];
    try (apply places_here; intros r; split; [intros H; inversion H as [v0 Ha Hb E1 E2|b0 c0 rest Hl Ho E1 E2|b0 c0 rest Hl Ho E1 E2| |]; subst; [reflexivity|cbn in Hl; lia|cbn in Hl; lia] | intros ->; apply cf_shape; intros; discriminate]);
    try (apply places_here; intros r; split; [intros H; inversion H; reflexivity | intros ->; apply cf_shape; intros; discriminate]).
  - apply places_iff with (fun r => (r = [PIdx 0] /\ ~ block_ok b) \/ (r = [PIdx 1] /\ ~ count_ok c) \/ r = [PIdx 2]).
    + cbn [cidr_check]. apply places_app; [apply cidr_block_places|]. apply places_app; [apply cidr_number_places | apply no_size].
    + intros r. split.
      * intros [[-> H]|[[-> H]| ->]]; [apply (cf_block p b c []); [cbn; lia|exact H] | apply (cf_count p b c []); [cbn; lia|exact H] | apply cf_no_size].
      * intros H. inversion H as [v0 Ha Hb E1 E2|b0 c0 rest Hl Ho E1 E2|b0 c0 rest Hl Ho E1 E2|b0 c0 m Ho E1 E2|b0 c0 E1 E2]; subst; auto.
        exfalso. exact (Ha b c eq_refl).
  - apply places_iff with (fun r => (r = [PIdx 0] /\ ~ block_ok b) \/ (r = [PIdx 1] /\ ~ count_ok c) \/ (r = [PIdx 2] /\ ~ count_ok m)).
    + cbn [cidr_check]. apply places_app; [apply cidr_block_places|]. apply places_app; apply cidr_number_places.
    + intros r. split.
      * intros [[-> H]|[[-> H]|[-> H]]]; [apply (cf_block p b c [m]); [cbn; lia|exact H] | apply (cf_count p b c [m]); [cbn; lia|exact H] | now apply cf_size].
      * intros H. inversion H as [v0 Ha Hb E1 E2|b0 c0 rest Hl Ho E1 E2|b0 c0 rest Hl Ho E1 E2|b0 c0 m0 Ho E1 E2|b0 c0 E1 E2]; subst; auto.
        exfalso. exact (Hb b c m eq_refl).
Qed.

(** The parameters that are used in Fn::Cidr. *)
Lemma in_py_nodup s l : In (VStr s) (py_nodup l) <-> In (VStr s) l.
Proof.
  induction l as [|a l IH]; [reflexivity|]. cbn [py_nodup]. destruct (py_in a l) eqn:E.
  - rewrite IH. split; [now right|]. intros [->|H]; [|exact H]. unfold py_in in E. apply existsb_exists in E as [y [Hy He]].
    apply py_eq_text in He. now subst y.
  - cbn [In]. rewrite IH. reflexivity.
Qed.
Lemma in_py_set order l out s : (forall l, Permutation (order l) l) -> py_set order l = Ok out -> In (VStr s) out <-> In (VStr s) l.
Proof.
  intros Ho. unfold py_set. destruct (forallb hashable l); [|discriminate]. intros [= <-]. rewrite <- (in_py_nodup s l).
  split; apply Permutation_in; [apply Ho | apply Permutation_sym, Ho].
Qed.
Lemma in_cidr_refs template globals i s : wf template -> wf globals ->
  In (VStr s) (flat_map (fun pv => cidr_ref i (snd pv)) (search_deep_keys "Fn::Cidr" template globals)) <-> cidr_uses template globals i s.
Proof.
  intros Hw Hg. rewrite in_flat_map. unfold cidr_uses. split.
  - intros [[q v] [Hi H]]. apply in_search_deep in Hi as [p [-> Hi]]; try assumption. cbn [snd] in H. unfold cidr_ref in H. destruct v as [| | | |t|l|d]; try (exfalso; exact H).
    destruct (Nat.eqb (List.length l) 2 || Nat.eqb (List.length l) 3) eqn:E; [|destruct H]. exists p, l. split; [exact Hi|].
    split; [apply orb_prop in E as [E|E]; apply Nat.eqb_eq in E; auto|].
    destruct (nth_error l i) as [[| | | |t|l'|[|[k x] [|m d]]]|]; try (exfalso; exact H). destruct (String.eqb k "Ref") eqn:Ek; [|destruct H]. apply String.eqb_eq in Ek. subst k.
    destruct H as [->|[]]. reflexivity.
  - intros [p [l [Hi [Hl Hn]]]]. exists (p ++ [PKey "Fn::Cidr"], VList l)%list. split; [apply in_search_deep; eauto|]. cbn [snd cidr_ref]. rewrite Hn.
    assert (E : Nat.eqb (List.length l) 2 || Nat.eqb (List.length l) 3 = true) by (destruct Hl as [-> | ->]; reflexivity). rewrite E. now left.
Qed.
Lemma qle_bool q : Qle_bool 1 q && Qle_bool q 256 = true <-> Qle (1 # 1) q /\ Qle q (256 # 1).
Proof. rewrite Bool.andb_true_iff, !Qle_bool_iff. reflexivity. Qed.
Lemma outside_spec v b : outside_256 v = Ok b -> b = false <-> exists q, number_is v q /\ Qle (1 # 1) q /\ Qle q (256 # 1).
Proof.
  unfold outside_256. intros H.
  assert (Hn : forall q, number_is v q <-> num_of v = Some q).
  { intros q. unfold number_is. destruct v as [|[]|z|f|s|l|d]; cbn [num_of]; split;
      try (intros [E|[[z0 [E _]]|[b0 [E _]]]]; discriminate); try discriminate; try (intros [E|[[z0 [E _]]|[b0 [[= <-] ->]]]]; [discriminate|discriminate|reflexivity]).
    - intros [= <-]. right; right. exists true. auto.
    - intros [= <-]. right; right. exists false. auto.
    - intros [E|[[z0 [[= <-] ->]]|[b0 [E _]]]]; [discriminate|reflexivity|discriminate].
    - intros [= <-]. right; left. eauto.
    - intros [[= ->]|[[z0 [E _]]|[b0 [E _]]]]; [reflexivity|discriminate|discriminate].
    - intros [= ->]. now left. }
  destruct (truthy v) eqn:Et.
  - destruct (num_of v) as [q|] eqn:Eq; [|discriminate]. injection H as <-. rewrite Bool.negb_false_iff, qle_bool. split.
    + intros H. exists q. split; [now apply Hn|exact H].
    + intros [q' [H1 H2]]. apply Hn in H1. congruence.
  - injection H as <-. split; [discriminate|]. intros [q [H1 [H2 H3]]]. exfalso. apply Hn in H1. clear Hn. 
    destruct v as [|[]|z|f|s|l|d]; cbn [num_of] in H1; try discriminate; injection H1 as <-; cbn [truthy] in Et.
    + revert H2. compute. congruence.
    + apply Bool.negb_false_iff, Z.eqb_eq in Et. subst z. revert H2. compute. congruence.
    + apply Bool.negb_false_iff, Qeq_bool_iff in Et. rewrite Et in H2. revert H2. compute. congruence.
Qed.
Lemma cidr_bound_spec p o key text ms : cidr_bound p (VDict o) key text = Ok ms ->
  forall q, In q (map rm_path ms) <-> q = (p ++ [PKey key])%list /\ ~ bound_ok o key.
Proof.
  unfold cidr_bound. cbn [vget bind]. set (v := match assoc key o with Some x => x | None => VNull end). intros H q.
  destruct (outside_256 v) as [b|] eqn:E; [|discriminate]. cbn [bind] in H. apply outside_spec in E.
  assert (Hb : bound_ok o key <-> b = false).
  { rewrite E. unfold bound_ok, v. destruct (assoc key o) as [x|] eqn:Ex.
    - split; [intros [v' [q' [[= <-] H']]]; eauto | intros [q' H']; eauto].
    - split; [intros [v' [q' [H' _]]]; discriminate|]. intros [q' [[H'|[[z [H' _]]|[b' [H' _]]]] _]]; discriminate. }
  rewrite Hb. destruct b; injection H as <-; cbn [map In].
  - split; [intros [<-|[]]; split; [reflexivity|discriminate] | intros [-> _]; now left].
  - split; [intros [] | intros [_ H']; congruence].
Qed.
Lemma cidr_parameter_spec template str_of t1 t2 n ms : plain_parameters template -> cidr_parameter template str_of t1 t2 (VStr n) = Ok ms ->
  forall q, In q (map rm_path ms) <-> cidr_parameter_fault template n q.
Proof.
  intros [d [-> Hp]] H q. unfold cidr_parameter, get_parameters in H. cbn [vget_def bind] in H.
  destruct (assoc "Parameters" d) as [x|] eqn:Ep.
  2: { cbn in H. injection H as <-. split; [intros []|]. intros Hf. inversion Hf; subst; match goal with Hd : VDict d = VDict _ |- _ => injection Hd as <- end; congruence. }
  destruct (Hp x eq_refl) as [ps [-> Hm]].
  assert (Hr : (if truthy (VDict ps) then VDict ps else VDict []) = VDict ps) by (destruct ps; reflexivity).
  rewrite Hr in H. clear Hr. cbn [vget_def bind] in H. destruct (assoc n ps) as [y|] eqn:En.
  2: { cbn in H. injection H as <-. split; [intros []|]. intros Hf. inversion Hf; subst; match goal with Hd : VDict d = VDict _ |- _ => injection Hd as <- end; congruence. }
  destruct (Hm n y (assoc_In _ _ _ En)) as [o ->]. destruct (truthy (VDict o)) eqn:Et.
  2: { destruct o; [|discriminate]. injection H as <-. split; [intros []|]. intros Hf. inversion Hf as [d0 ps0 o0 Hd Hps Ho Hne Hty E|d0 ps0 o0 key Hd Hps Ho Hty Hk Hb E]; subst; injection Hd as <-.
       - assert (o0 = []) by congruence. contradiction.
       - assert (o0 = []) by congruence. subst o0. discriminate. }
  cbn [vget bind] in H. set (t := match assoc "Type" o with Some x => x | None => VNull end) in H.
  assert (Hty : eq_str "Number" t = true <-> assoc "Type" o = Some (VStr "Number")).
  { unfold t. destruct (assoc "Type" o) as [[| | | |s|l|e]|]; cbn [eq_str]; split; try discriminate.
    - intros E. apply String.eqb_eq in E. now subst.
    - intros [= ->]. reflexivity. }
  cbv zeta in H. cbn [key_text] in H. destruct (eq_str "Number" t) eqn:E.
  - destruct (cidr_bound [PKey "Parameters"; PKey n] (VDict o) "MinValue" t1) as [a|] eqn:Ea; [|discriminate]. cbn [bind] in H.
    destruct (cidr_bound [PKey "Parameters"; PKey n] (VDict o) "MaxValue" t2) as [b|] eqn:Eb; [|discriminate]. cbn [bind] in H. injection H as <-.
    rewrite map_app, in_app_iff, (cidr_bound_spec _ _ _ _ _ Ea q), (cidr_bound_spec _ _ _ _ _ Eb q). pose proof (proj1 Hty eq_refl) as Ht. clear Hty E. rename Ht into E. cbn [app]. split.
    + intros [[-> H]|[-> H]]; [apply (cp_bound (VDict d) n d ps o "MinValue") | apply (cp_bound (VDict d) n d ps o "MaxValue")]; auto; [now left | right; now left].
    + intros Hf. inversion Hf as [d0 ps0 o0 Hd Hps Ho Hne Hty E1|d0 ps0 o0 key Hd Hps Ho Hty Hk Hb E1]; subst; injection Hd as <-; assert (ps0 = ps) by congruence; subst ps0; assert (o0 = o) by congruence; subst o0.
      * contradiction.
      * destruct Hk as [<-|[<-|[]]]; [left|right]; auto.
  - injection H as <-. assert (Hn : assoc "Type" o <> Some (VStr "Number")) by (rewrite <- Hty; discriminate). clear Hty. cbn [map rm_path In]. split.
    + intros [<-|[]]. apply (cp_type (VDict d) n d ps o); auto. intros ->. discriminate.
    + intros Hf. inversion Hf as [d0 ps0 o0 Hd Hps Ho Hne Hty E1|d0 ps0 o0 key Hd Hps Ho Hty Hk Hb E1]; subst; injection Hd as <-; [now left|].
      assert (ps0 = ps) by congruence; subst ps0; assert (o0 = o) by congruence; subst o0. contradiction.
Qed.
Lemma cidr_parameter_other template str_of t1 t2 v ms : plain_parameters template -> (forall s, v <> VStr s) -> cidr_parameter template str_of t1 t2 v = Ok ms -> ms = [].
Proof.
  intros [d [-> Hp]] Hv H. unfold cidr_parameter, get_parameters in H. cbn [vget_def bind] in H.
  destruct (assoc "Parameters" d) as [x|] eqn:Ep.
  - destruct (Hp x eq_refl) as [ps [-> _]]. assert (Hr : (if truthy (VDict ps) then VDict ps else VDict []) = VDict ps) by (destruct ps; reflexivity).
    rewrite Hr in H. destruct v as [| | | |s| |]; try (now injection H as <-). exfalso. exact (Hv s eq_refl).
  - destruct v as [| | | |s| |]; now injection H as <-.
Qed.
Lemma cidr_parameters_spec template globals str_of order i t1 t2 l ms : wf template -> wf globals -> plain_parameters template -> (forall l, Permutation (order l) l) ->
  py_set order (flat_map (fun pv => cidr_ref i (snd pv)) (search_deep_keys "Fn::Cidr" template globals)) = Ok l ->
  concat_res (cidr_parameter template str_of t1 t2) l = Ok ms ->
  forall q, In q (map rm_path ms) <-> exists n, cidr_uses template globals i n /\ cidr_parameter_fault template n q.
Proof.
  intros Hw Hg Hp Ho Hs Hm q. apply concat_res_inv in Hm as [g [Hg' ->]]. rewrite in_map_iff. split.
  - intros [m [<- H]]. apply in_flat_map in H as [v [Hv Hm]]. specialize (Hg' v Hv). destruct v as [| | | |n|l'|d];
      try (apply cidr_parameter_other in Hg'; [rewrite Hg' in Hm; destruct Hm | exact Hp | intros s0; discriminate]).
    exists n. split; [apply (in_cidr_refs template globals i n Hw Hg); apply (in_py_set order _ _ n Ho Hs); exact Hv|].
    apply (cidr_parameter_spec _ _ _ _ _ _ Hp Hg'). now apply in_map.
  - intros [n [Hu Hf]]. assert (Hv : In (VStr n) l) by (apply (in_py_set order _ _ n Ho Hs); now apply in_cidr_refs).
    apply (cidr_parameter_spec _ _ _ _ _ _ Hp (Hg' _ Hv)) in Hf. apply in_map_iff in Hf as [m [E Hm]]. exists m. split; [exact E|]. apply in_flat_map. eauto.
Qed.
Lemma c32_cidr template globals str_of order ms : wf template -> wf globals -> plain_parameters template -> (forall l, Permutation (order l) l) ->
  cidr_match template globals str_of order = Ok ms ->
  exists a b, ms = (a ++ b)%list /\ judged "Fn::Cidr" template globals cidr_fault a /\
    forall q, In q (map rm_path b) <-> exists i n, (i = 1 \/ i = 2) /\ cidr_uses template globals i n /\ cidr_parameter_fault template n q.
Proof.
  intros Hw Hg Hp Ho H. unfold cidr_match in H. cbv zeta in H.
  destruct (py_set order (flat_map (fun pv => cidr_ref 1 (snd pv)) (search_deep_keys "Fn::Cidr" template globals))) as [l1|] eqn:E1; [|discriminate]. cbn [bind] in H.
  destruct (concat_res (cidr_count_parameter template str_of) l1) as [a|] eqn:Ea; [|discriminate]. cbn [bind] in H.
  destruct (py_set order (flat_map (fun pv => cidr_ref 2 (snd pv)) (search_deep_keys "Fn::Cidr" template globals))) as [l2|] eqn:E2; [|discriminate]. cbn [bind] in H.
  destruct (concat_res (cidr_mask_parameter template str_of) l2) as [b|] eqn:Eb; [|discriminate]. cbn [bind] in H. injection H as <-.
  exists (flat_map (fun pv => cidr_check (fst pv) (snd pv)) (search_deep_keys "Fn::Cidr" template globals)), (a ++ b)%list. split; [reflexivity|]. split.
  - apply judged_flat; try assumption. exact cidr_checks.
  - intros q. rewrite map_app, in_app_iff.
    rewrite (cidr_parameters_spec _ _ _ _ _ _ _ _ _ Hw Hg Hp Ho E1 Ea q), (cidr_parameters_spec _ _ _ _ _ _ _ _ _ Hw Hg Hp Ho E2 Eb q). split.
    + intros [[n H]|[n H]]; [exists 1, n | exists 2, n]; tauto.
    + intros [i [n [[->| ->] H]]]; [left|right]; eauto.
Qed.
