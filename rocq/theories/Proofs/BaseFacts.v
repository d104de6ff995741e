(** General facts about the helpers of Model/Base.v. *)
From Coq Require Import Lia ZifyBool ZifyNat Permutation.
From Verif.Model Require Import Base.

(** Induction on values through lists and dicts. *)
Section ValInd.
Variable P : val -> Prop.
Hypothesis Hnull : P VNull.
Hypothesis Hbool : forall b, P (VBool b).
Hypothesis Hint : forall z, P (VInt z).
Hypothesis Hfloat : forall q, P (VFloat q).
Hypothesis Hstr : forall s, P (VStr s).
Hypothesis Hlist : forall l, Forall P l -> P (VList l).
Hypothesis Hdict : forall d, Forall (fun kv => P (snd kv)) d -> P (VDict d).
Fixpoint val_ind' (v : val) : P v :=
  match v with
  | VNull => Hnull
  | VBool b => Hbool b
  | VInt z => Hint z
  | VFloat q => Hfloat q
  | VStr s => Hstr s
  | VList l => Hlist l ((fix go (l : list val) : Forall P l :=
      match l with
      | [] => Forall_nil _
      | x :: xs => Forall_cons x (val_ind' x) (go xs)
      end) l)
  | VDict d => Hdict d ((fix go (d : list (string * val)) : Forall (fun kv => P (snd kv)) d :=
      match d with
      | [] => Forall_nil _
      | x :: xs => Forall_cons x (val_ind' (snd x)) (go xs)
      end) d)
  end.
End ValInd.

(** * Strings *)
Lemma append_nil_r (s : string) : (s ++ "")%string = s.
Proof. induction s as [|c s IH]; cbn; [reflexivity | now rewrite IH]. Qed.

Lemma append_assoc (a b c : string) : ((a ++ b) ++ c)%string = (a ++ (b ++ c))%string.
Proof. induction a as [|x a IH]; cbn; [reflexivity | now rewrite IH]. Qed.

Lemma prefix_iff (p s : string) : String.prefix p s = true <-> exists t, s = (p ++ t)%string.
Proof.
  revert s; induction p as [|c p IH]; intros s.
  - split; [intros _; exists s; reflexivity | intros _; destruct s; reflexivity].
  - destruct s as [|d s]; cbn.
    + split; [discriminate | intros [t Ht]; discriminate].
    + destruct (ascii_dec c d) as [->|Hn].
      * rewrite IH. split; intros [t Ht]; exists t; [now rewrite Ht | now inversion Ht].
      * split; [discriminate | intros [t Ht]; inversion Ht; congruence].
Qed.

Lemma smem_iff (s : string) (l : list string) : smem s l = true <-> In s l.
Proof.
  unfold smem; rewrite existsb_exists; split.
  - intros [x [Hx He]]; apply String.eqb_eq in He; now subst.
  - intros H; exists s; split; [exact H | apply String.eqb_refl].
Qed.

Lemma smem_false (s : string) (l : list string) : smem s l = false <-> ~ In s l.
Proof. rewrite <- smem_iff; destruct (smem s l); split; intros H; congruence || (exfalso; now apply H). Qed.

Lemma char_eqb_refl c : char_eqb c c = true.
Proof. apply Ascii.eqb_refl. Qed.

Lemma char_eqb_eq a b : char_eqb a b = true <-> a = b.
Proof. apply Ascii.eqb_eq. Qed.

Lemma str_leb_refl s : str_leb s s = true.
Proof. induction s as [|c s IH]; cbn [str_leb]; [reflexivity|]. now rewrite Nat.ltb_irrefl, Nat.eqb_refl. Qed.

Lemma code_inj a b : code a = code b -> a = b.
Proof. unfold code; intros H. rewrite <- (ascii_nat_embedding a), <- (ascii_nat_embedding b). now rewrite H. Qed.

Lemma str_leb_total a b : str_leb a b = true \/ str_leb b a = true.
Proof.
  revert b; induction a as [|x a IH]; intros b; [now left|].
  destruct b as [|y b]; [now right|]. cbn [str_leb].
  destruct (Nat.ltb_spec (code x) (code y)) as [Hlt|Hge]; [now left|].
  destruct (Nat.ltb_spec (code y) (code x)) as [Hlt'|Hge'].
  - right; reflexivity.
  - assert (He : code x = code y) by lia. rewrite He, !Nat.eqb_refl. apply IH.
Qed.

Lemma str_leb_trans a b c : str_leb a b = true -> str_leb b c = true -> str_leb a c = true.
Proof.
  revert b c; induction a as [|x a IH]; intros b c; [reflexivity|].
  destruct b as [|y b]; [discriminate|]. destruct c as [|z c]; [intros _ H; exact H|]. cbn [str_leb].
  destruct (Nat.ltb_spec (code x) (code y)) as [H1|H1]; intros Hab;
    destruct (Nat.ltb_spec (code y) (code z)) as [H2|H2]; intros Hbc;
    destruct (Nat.ltb_spec (code x) (code z)) as [H3|H3]; try reflexivity;
    destruct (Nat.eqb_spec (code x) (code z)) as [E3|E3];
    destruct (Nat.eqb_spec (code x) (code y)) as [E1|E1];
    destruct (Nat.eqb_spec (code y) (code z)) as [E2|E2]; try discriminate; try (exfalso; lia).
  now apply IH with b.
Qed.

Lemma str_leb_antisym a b : str_leb a b = true -> str_leb b a = true -> a = b.
Proof.
  revert b; induction a as [|x a IH]; intros b; destruct b as [|y b]; try discriminate; [reflexivity|]. cbn [str_leb].
  destruct (Nat.ltb_spec (code x) (code y)) as [H1|H1]; intros Hab;
    destruct (Nat.ltb_spec (code y) (code x)) as [H2|H2]; intros Hba; try lia.
  - destruct (Nat.eqb_spec (code y) (code x)); [lia | discriminate].
  - destruct (Nat.eqb_spec (code x) (code y)); [lia | discriminate].
  - destruct (Nat.eqb_spec (code x) (code y)) as [E1|]; [|discriminate].
    rewrite <- E1, Nat.eqb_refl in Hba. f_equal; [now apply code_inj | now apply IH].
Qed.

(** * split_on and join *)
Lemma split_aux_nochar c s acc : has_char c s = false -> split_aux c s acc = [(acc ++ s)%string].
Proof.
  revert acc; induction s as [|a s IH]; intros acc; cbn.
  - intros _; now rewrite append_nil_r.
  - intros H; apply orb_false_iff in H as [H1 H2]. rewrite H1, IH by exact H2. now rewrite append_assoc.
Qed.
Lemma split_aux_app c s t acc :
  has_char c s = false -> split_aux c (s ++ String c t) acc = (acc ++ s)%string :: split_aux c t "".
Proof.
  revert acc; induction s as [|a s IH]; intros acc; cbn.
  - intros _; now rewrite char_eqb_refl, append_nil_r.
  - intros H; apply orb_false_iff in H as [H1 H2]. rewrite H1, IH by exact H2. now rewrite append_assoc.
Qed.
Lemma split_on_nochar c s : has_char c s = false -> split_on c s = [s].
Proof. intros H; unfold split_on; now rewrite split_aux_nochar. Qed.
Lemma split_on_app c s t : has_char c s = false -> split_on c (s ++ String c t) = s :: split_on c t.
Proof. intros H; unfold split_on; now rewrite split_aux_app. Qed.
Lemma split_on_join c l :
  l <> [] -> Forall (fun s => has_char c s = false) l -> split_on c (join_str (String c "") l) = l.
Proof.
  induction l as [|x l IH]; [congruence|]; intros _ H; inversion H as [|? ? Hx Hl]; subst.
  destruct l as [|y l]; [now apply split_on_nochar|].
  change (join_str (String c "") (x :: y :: l)) with (x ++ String c (join_str (String c "") (y :: l)))%string.
  rewrite split_on_app by exact Hx. f_equal. apply IH; [discriminate | exact Hl].
Qed.
Lemma has_char_app c s t : has_char c (s ++ t)%string = has_char c s || has_char c t.
Proof. induction s as [|a s IH]; cbn; [reflexivity|]. now rewrite IH, orb_assoc. Qed.

(** * Association lists *)
Lemma assoc_In {A} k (d : list (string * A)) v : assoc k d = Some v -> In (k, v) d.
Proof.
  induction d as [|[k' v'] d IH]; cbn; [discriminate|].
  destruct (String.eqb_spec k k') as [->|Hn]; [intros H; inversion H; now left | intros H; right; now apply IH].
Qed.
Lemma assoc_None {A} k (d : list (string * A)) : assoc k d = None <-> ~ In k (keys d).
Proof.
  induction d as [|[k' v'] d IH]; cbn; [split; [intros _ [] | reflexivity]|].
  destruct (String.eqb_spec k k') as [->|Hn].
  - split; [discriminate | intros H; exfalso; apply H; now left].
  - rewrite IH. split; intros H; [intros [He|Hi]; [congruence | now apply H] | intros Hi; apply H; now right].
Qed.
Lemma assoc_Some_key {A} k (d : list (string * A)) : In k (keys d) <-> exists v, assoc k d = Some v.
Proof.
  destruct (assoc k d) as [v|] eqn:E.
  - split; [intros _; now exists v | intros _]. apply assoc_In in E. unfold keys. now apply in_map with (f := fst) in E.
  - apply assoc_None in E. split; [intros H; contradiction | intros [v Hv]; discriminate].
Qed.
Lemma assoc_NoDup {A} k v (d : list (string * A)) : NoDup (keys d) -> In (k, v) d -> assoc k d = Some v.
Proof.
  induction d as [|[k' v'] d IH]; cbn; [intros _ []|].
  intros Hnd; inversion Hnd as [|? ? Hni Hnd']; subst.
  intros [He|Hi]; [inversion He; subst; now rewrite String.eqb_refl|].
  destruct (String.eqb_spec k k') as [->|Hn]; [|now apply IH].
  exfalso; apply Hni. now apply in_map with (f := fst) in Hi.
Qed.
Lemma mem_assoc_iff {A} k (d : list (string * A)) : mem_assoc k d = true <-> In k (keys d).
Proof.
  unfold mem_assoc. rewrite assoc_Some_key. destruct (assoc k d) as [v|].
  - split; [intros _; now exists v | reflexivity].
  - split; [discriminate | intros [v Hv]; discriminate].
Qed.
Lemma assoc_set_same {A} k (v : A) d : assoc k (set_assoc k v d) = Some v.
Proof.
  induction d as [|[k' v'] d IH]; cbn; [now rewrite String.eqb_refl|].
  destruct (String.eqb_spec k k') as [->|Hn]; cbn; [now rewrite String.eqb_refl|].
  apply String.eqb_neq in Hn. now rewrite Hn.
Qed.
Lemma assoc_set_other {A} k k' (v : A) d : k <> k' -> assoc k (set_assoc k' v d) = assoc k d.
Proof.
  intros Hn; induction d as [|[k'' v'] d IH]; cbn.
  - apply String.eqb_neq in Hn; now rewrite Hn.
  - destruct (String.eqb_spec k' k'') as [->|Hn']; cbn.
    + destruct (String.eqb_spec k k''); [congruence | reflexivity].
    + destruct (String.eqb_spec k k''); [reflexivity | exact IH].
Qed.
Lemma keys_set_in {A} k (v : A) d x : In x (keys (set_assoc k v d)) <-> x = k \/ In x (keys d).
Proof.
  rewrite !assoc_Some_key.
  destruct (string_dec x k) as [->|Hn].
  - rewrite assoc_set_same. split; [now left | intros _; now exists v].
  - rewrite assoc_set_other by exact Hn. split; [now right | intros [?|H]; [congruence | exact H]].
Qed.
Lemma keys_set_NoDup {A} k (v : A) d : NoDup (keys d) -> NoDup (keys (set_assoc k v d)).
Proof.
  induction d as [|[k' v'] d IH]; cbn; intros H.
  - constructor; [intros [] | constructor].
  - inversion H as [|? ? Hni Hnd]; subst.
    destruct (String.eqb_spec k k') as [->|Hn]; cbn; [now constructor|].
    constructor; [|now apply IH].
    intros Hi; apply keys_set_in in Hi as [->|Hi]; [congruence | now apply Hni].
Qed.
Lemma assoc_app {A} k (d e : list (string * A)) :
  assoc k (d ++ e) = match assoc k d with Some v => Some v | None => assoc k e end.
Proof. induction d as [|[k' v'] d IH]; cbn; [reflexivity|]. destruct (String.eqb k k'); [reflexivity | exact IH]. Qed.
Lemma assoc_filter_key {A} k (f : string -> bool) (d : list (string * A)) :
  assoc k (filter (fun kv => f (fst kv)) d) = if f k then assoc k d else None.
Proof.
  induction d as [|[k' v'] d IH]; cbn; [now destruct (f k)|].
  destruct (f k') eqn:Hf; cbn.
  - destruct (String.eqb_spec k k') as [->|Hn]; [now rewrite Hf | exact IH].
  - rewrite IH. destruct (String.eqb_spec k k') as [->|Hn]; [now rewrite Hf | reflexivity].
Qed.

(** * Enumeration *)
Lemma enum_from_nth {A} (l : list A) i j x : In (j, x) (enum_from i l) <-> i <= j /\ nth_error l (j - i) = Some x.
Proof.
  revert i; induction l as [|y l IH]; intros i; cbn.
  - split; [intros [] | intros [_ H]; destruct (j - i); discriminate].
  - rewrite IH. split.
    + intros [He|[Hle Hn]].
      * inversion He; subst. split; [lia|]. now rewrite Nat.sub_diag.
      * split; [lia|]. replace (j - i) with (S (j - S i)) by lia. exact Hn.
    + intros [Hle Hn]. destruct (Nat.eq_dec i j) as [->|Hne].
      * rewrite Nat.sub_diag in Hn. inversion Hn; subst. now left.
      * right. split; [lia|]. replace (j - i) with (S (j - S i)) in Hn by lia. exact Hn.
Qed.
Lemma enum_nth {A} (l : list A) j x : In (j, x) (enum l) <-> nth_error l j = Some x.
Proof.
  unfold enum. rewrite enum_from_nth, Nat.sub_0_r. split; [now intros [_ H] | intros H; split; [lia | exact H]].
Qed.
Lemma enum_from_snd {A} (l : list A) i : map snd (enum_from i l) = l.
Proof. revert i; induction l as [|x l IH]; intros i; cbn; [reflexivity | now rewrite IH]. Qed.
Lemma enum_from_fst {A} (l : list A) i : map fst (enum_from i l) = seq i (List.length l).
Proof. revert i; induction l as [|x l IH]; intros i; cbn; [reflexivity | now rewrite IH]. Qed.
Lemma enum_from_length {A} (l : list A) i : List.length (enum_from i l) = List.length l.
Proof. rewrite <- (enum_from_snd l i) at 2. now rewrite map_length. Qed.
Lemma enum_NoDup_fst {A} (l : list A) i : NoDup (map fst (enum_from i l)).
Proof. rewrite enum_from_fst. apply seq_NoDup. Qed.

(** * Results *)
Lemma concat_res_Ok {A B} (f : A -> res (list B)) (g : A -> list B) l :
  (forall x, In x l -> f x = Ok (g x)) -> concat_res f l = Ok (flat_map g l).
Proof.
  induction l as [|x l IH]; intros H; [reflexivity|]. cbn.
  rewrite (H x) by now left. cbn. rewrite IH by (intros y Hy; apply H; now right). reflexivity.
Qed.
Lemma concat_res_inv {A B} (f : A -> res (list B)) l out :
  concat_res f l = Ok out -> exists g, (forall x, In x l -> f x = Ok (g x)) /\ out = flat_map g l.
Proof.
  intros H. exists (fun x => match f x with Ok a => a | Err _ => [] end).
  revert out H; induction l as [|x l IH]; intros out; cbn; intros H.
  - inversion H; subst. split; [intros ? [] | reflexivity].
  - destruct (f x) as [a|e] eqn:E; [|discriminate]. cbn in H.
    destruct (concat_res f l) as [b|e] eqn:E2; [|discriminate]. inversion H; subst.
    destruct (IH b eq_refl) as [H1 H2]. split.
    + intros y [->|Hy]; [now rewrite E | now apply H1].
    + cbn. now rewrite <- H2.
Qed.
Lemma concat_res_total {A B} (f : A -> res (list B)) l :
  (forall x, In x l -> exists a, f x = Ok a) -> exists out, concat_res f l = Ok out.
Proof.
  induction l as [|x l IH]; intros H; [now exists []|]. cbn.
  destruct (H x) as [a Ha]; [now left|]. rewrite Ha; cbn.
  destruct IH as [b Hb]; [intros y Hy; apply H; now right|]. rewrite Hb; cbn. now exists (a ++ b).
Qed.
Lemma map_res_inv {A B} (f : A -> res B) l out :
  map_res f l = Ok out -> Forall2 (fun x y => f x = Ok y) l out.
Proof.
  revert out; induction l as [|x l IH]; intros out; cbn; intros H.
  - inversion H; constructor.
  - destruct (f x) as [a|e] eqn:E; [|discriminate]. cbn in H.
    destruct (map_res f l) as [b|e] eqn:E2; [|discriminate]. inversion H; subst.
    constructor; [exact E | now apply IH].
Qed.
Lemma map_res_Ok {A B} (f : A -> res B) (g : A -> B) l :
  (forall x, In x l -> f x = Ok (g x)) -> map_res f l = Ok (map g l).
Proof.
  induction l as [|x l IH]; intros H; [reflexivity|]. cbn.
  rewrite (H x) by now left. cbn. rewrite IH by (intros y Hy; apply H; now right). reflexivity.
Qed.
Lemma concat_res_ext {A B} (f g : A -> res (list B)) l :
  (forall x, In x l -> f x = g x) -> concat_res f l = concat_res g l.
Proof.
  induction l as [|x l IH]; intros H; [reflexivity|]. cbn.
  rewrite (H x) by now left. now rewrite IH by (intros y Hy; apply H; now right).
Qed.

Lemma pelem_eqb_eq a b : pelem_eqb a b = true <-> a = b.
Proof.
  destruct a, b; cbn; split; intros H; try discriminate.
  - apply String.eqb_eq in H; now subst.
  - inversion H; apply String.eqb_refl.
  - apply Nat.eqb_eq in H; now subst.
  - inversion H; apply Nat.eqb_refl.
Qed.
Lemma path_eqb_eq a b : path_eqb a b = true <-> a = b.
Proof.
  revert b; induction a as [|x a IH]; intros [|y b]; cbn; split; intros H; try discriminate; try reflexivity.
  - apply andb_true_iff in H as [H1 H2]. apply pelem_eqb_eq in H1. apply IH in H2. now subst.
  - inversion H; subst. apply andb_true_iff; split; [now apply pelem_eqb_eq | now apply IH].
Qed.

Lemma eq_str_true s v : eq_str s v = true <-> v = VStr s.
Proof.
  destruct v; cbn; split; intros H; try discriminate.
  - apply String.eqb_eq in H; now subst.
  - inversion H; apply String.eqb_refl.
Qed.

(** Induction on the size of values, for functions that look several levels down. *)
Fixpoint vsize (v : val) : nat :=
  match v with
  | VList l => S (fold_right (fun x n => vsize x + n) 0 l)
  | VDict d => S (fold_right (fun kv n => vsize (snd kv) + n) 0 d)
  | _ => 1
  end.
Lemma vsize_list_In l x : In x l -> vsize x < vsize (VList l).
Proof.
  cbn. induction l as [|y l IH]; cbn; [intros []|]. intros [->|H]; [lia|]. apply IH in H. lia.
Qed.
Lemma vsize_dict_In d k x : In (k, x) d -> vsize x < vsize (VDict d).
Proof.
  cbn. induction d as [|[k' y] d IH]; cbn; [intros []|]. intros [H|H]; [inversion H; subst; lia|]. apply IH in H. lia.
Qed.
Lemma vsize_ind (P : val -> Prop) :
  (forall v, (forall w, vsize w < vsize v -> P w) -> P v) -> forall v, P v.
Proof.
  intros H v. remember (vsize v) as n eqn:E. revert v E.
  induction n as [n IH] using lt_wf_ind. intros v ->. apply H. intros w Hw. now apply (IH (vsize w)).
Qed.
