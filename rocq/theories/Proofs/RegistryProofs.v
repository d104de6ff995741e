(** What str() of a value contains (C87). *)
From Coq Require Import List String Ascii QArith Lia Bool.
From Verif.Model Require Import Base Helpers Locate Node Search Rules Refs Parameters Functions ValueRules Registry.
From Verif.Spec Require Import Values Registry.
From Verif.Proofs Require Import BaseFacts PlaceholderProofs PropertyRuleProofs DynRefProofs CidrProofs.
Import Verif.Model.Rules.
Import ListNotations.
Local Open Scope string_scope.
Local Open Scope nat_scope.

(** * Text that is looked for *)
Definition escapes : string := "\'""nrtx0123456789abcdef".
Definition raw_char (a : ascii) : bool := String.eqb (char_repr single_quote a) (String a "") && String.eqb (char_repr double_quote a) (String a "").
Fixpoint all_chars (f : ascii -> bool) (s : string) : bool := match s with EmptyString => true | String a s' => f a && all_chars f s' end.
Definition needle_ok (n : string) : bool :=
  match n with
  | EmptyString => false
  | String h _ =>
      all_chars (fun c => negb (has_char c n)) "[],} '""\" && negb (has_char h escapes) && negb (has_char h "-+.e0123456789") &&
      forallb (fun x => negb (contains_text n x)) ["None"; "True"; "False"; "{"; ":"] && all_chars raw_char n
  end.
Lemma prefix_break c n : forall a b, has_char c n = false -> String.prefix n (a ++ String c b) = String.prefix n a.
Proof.
  intros a. revert n. induction a as [|x a IH]; intros n b H.
  - destruct n as [|h n]; [reflexivity|]. cbn [append String.prefix has_char] in *. apply orb_false_iff in H as [H _]. destruct (ascii_dec h c) as [->|]; [|reflexivity]. unfold char_eqb in H. now rewrite Ascii.eqb_refl in H.
  - destruct n as [|h n]; [reflexivity|]. cbn [append String.prefix]. destruct (ascii_dec h x); [|reflexivity]. apply IH. cbn [has_char] in H. now apply orb_false_iff in H as [_ H].
Qed.
Lemma contains_empty n : n <> "" -> contains_text n "" = false.
Proof. destruct n; [now intros [] | reflexivity]. Qed.
Lemma contains_break c n : has_char c n = false -> n <> "" -> forall a b, contains_text n (a ++ String c b) = contains_text n a || contains_text n b.
Proof.
  intros H Hn. induction a as [|x a IH]; intros b.
  - rewrite (contains_empty n Hn). cbn [append contains_text]. pose proof (prefix_break c n "" b H) as K. cbn [append] in K. unfold starts_with. rewrite K. destruct n; [now elim Hn | reflexivity].
  - cbn [append contains_text]. unfold starts_with. change (String x (a ++ String c b)) with (String x a ++ String c b). rewrite (prefix_break c n (String x a) b H), IH. now rewrite orb_assoc.
Qed.
Lemma contains_skip h n t s : has_char h t = false -> contains_text (String h n) (t ++ s) = contains_text (String h n) s.
Proof.
  induction t as [|x t IH]; intros H; [reflexivity|]. cbn [has_char] in H. apply orb_false_iff in H as [H1 H2]. cbn [append contains_text]. rewrite (IH H2). unfold starts_with. cbn [String.prefix]. destruct (ascii_dec h x) as [->|]; [|reflexivity]. unfold char_eqb in H1. now rewrite Ascii.eqb_refl in H1.
Qed.

(** * Texts between quotes *)
Lemma hex_escape n : n < 16 -> has_char (hex_digit n) escapes = true.
Proof. intros H. do 16 (destruct n as [|n]; [reflexivity|]). lia. Qed.
Lemma char_repr_cases q a : q = single_quote \/ q = double_quote -> char_repr q a = String a "" /\ a <> "\"%char \/ exists t, char_repr q a = String "\" t /\ all_chars (fun c => has_char c escapes) t = true /\ char_repr q a <> String a "".
Proof.
  intros Hq. unfold char_repr. destruct (Ascii.eqb a q || Ascii.eqb a "\") eqn:E.
  - right. eexists. split; [reflexivity|]. split; [|discriminate]. apply orb_true_iff in E as [E|E]; apply Ascii.eqb_eq in E as ->; [destruct Hq as [->| ->]; reflexivity | reflexivity].
  - apply orb_false_iff in E as [_ E]. apply Ascii.eqb_neq in E. destruct (Nat.eqb (nat_of_ascii a) 10); [right; eexists; repeat split; discriminate|]. destruct (Nat.eqb (nat_of_ascii a) 13); [right; eexists; repeat split; discriminate|]. destruct (Nat.eqb (nat_of_ascii a) 9); [right; eexists; repeat split; discriminate|].
    destruct (printable a); [now left|]. right. eexists. split; [reflexivity|]. split; [|discriminate]. cbn [all_chars].
    assert (Hn : nat_of_ascii a < 256) by apply nat_ascii_bounded. rewrite hex_escape by (apply Nat.div_lt_upper_bound; lia). rewrite hex_escape by (apply Nat.mod_upper_bound; lia). reflexivity.
Qed.
Lemma all_has f s c : all_chars f s = true -> has_char c s = true -> f c = true.
Proof. induction s as [|a s IH]; [discriminate|]. cbn [all_chars has_char]. rewrite andb_true_iff, orb_true_iff. intros [H1 H2] [K|K]; [apply Ascii.eqb_eq in K as <-; exact H1 | now apply IH]. Qed.
Lemma raw_repr q a : q = single_quote \/ q = double_quote -> raw_char a = true -> char_repr q a = String a "".
Proof. unfold raw_char. rewrite andb_true_iff, !String.eqb_eq. intros [->| ->] [H1 H2]; assumption. Qed.
Lemma prefix_chars q s : q = single_quote \/ q = double_quote -> forall n, all_chars raw_char n = true -> String.prefix n (chars_repr q s) = String.prefix n s.
Proof.
  intros Hq. induction s as [|a s IH]; intros [|h n] Hn; try reflexivity; [destruct (chars_repr q (String a s)); reflexivity|]. cbn [all_chars] in Hn. apply andb_true_iff in Hn as [Hh Hn]. apply (raw_repr q h Hq) in Hh.
  cbn [chars_repr]. destruct (char_repr_cases q a Hq) as [[E _]|[t [E [_ Na]]]].
  - rewrite E. cbn [append String.prefix]. now rewrite IH.
  - rewrite E. cbn [append String.prefix]. destruct (ascii_dec h "\"%char) as [->|]; [exfalso; unfold char_repr in Hh; cbn [Ascii.eqb] in Hh; destruct Hq as [->| ->]; vm_compute in Hh; discriminate|]. destruct (ascii_dec h a) as [->|]; [contradiction | reflexivity].
Qed.
Lemma contains_chars q h n s : q = single_quote \/ q = double_quote -> all_chars raw_char (String h n) = true -> has_char h escapes = false -> contains_text (String h n) (chars_repr q s) = contains_text (String h n) s.
Proof.
  intros Hq Hn Hh. induction s as [|a s IH]; [reflexivity|]. pose proof (prefix_chars q (String a s) Hq (String h n) Hn) as Hp. cbn [chars_repr] in *. destruct (char_repr_cases q a Hq) as [[E _]|[t [E [Ht Na]]]]; rewrite E in *.
  - cbn [append contains_text] in *. unfold starts_with. now rewrite Hp, IH.
  - cbn [all_chars] in Hn. apply andb_true_iff in Hn as [Hr _]. apply (raw_repr q h Hq) in Hr.
    rewrite contains_skip. 2:{ cbn [has_char]. apply orb_false_iff. split; [apply Ascii.eqb_neq; intros K; subst h; discriminate|]. destruct (has_char h t) eqn:K; [|reflexivity]. pose proof (all_has _ _ _ Ht K) as K'. cbv beta in K'. congruence. }
    rewrite IH. cbn [contains_text]. unfold starts_with. cbn [String.prefix]. destruct (ascii_dec h a) as [->|]; [congruence | reflexivity].
Qed.
Lemma quote_cases s : quote_of s = single_quote \/ quote_of s = double_quote.
Proof. unfold quote_of. destruct (has_char single_quote s && negb (has_char double_quote s)); auto. Qed.
Section Needle.
Variables (h : ascii) (n0 : string).
Let n := String h n0.
Hypothesis Hn : needle_ok n = true.
Lemma needle_parts : all_chars (fun c => negb (has_char c n)) "[],} '""\" = true /\ has_char h escapes = false /\ has_char h "-+.e0123456789" = false /\
  (forall x, In x ["None"; "True"; "False"; "{"; ":"] -> contains_text n x = false) /\ all_chars raw_char n = true.
Proof using Hn.
  unfold needle_ok, n in Hn. apply andb_prop in Hn as [H H5]. apply andb_prop in H as [H H4]. apply andb_prop in H as [H H3]. apply andb_prop in H as [H1 H2].
  split; [exact H1|]. split; [now apply negb_true_iff|]. split; [now apply negb_true_iff|]. split; [|exact H5]. intros x Hx. apply negb_true_iff. exact (proj1 (forallb_forall _ _) H4 x Hx).
Qed.
Lemma breaks c : has_char c "[],} '""\" = true -> forall a b, contains_text n (a ++ String c b) = contains_text n a || contains_text n b.
Proof using Hn. intros Hc. apply contains_break; [|discriminate]. destruct needle_parts as [H _]. apply negb_true_iff. exact (all_has _ _ _ H Hc). Qed.
Lemma breaks_first c b : has_char c "[],} '""\" = true -> contains_text n (String c b) = contains_text n b.
Proof using Hn. intros Hc. exact (breaks c Hc "" b). Qed.
Lemma quote_breaks s : has_char (quote_of s) "[],} '""\" = true.
Proof. destruct (quote_cases s) as [->| ->]; reflexivity. Qed.
Lemma contains_repr_then s r : contains_text n (text_repr s ++ r) = contains_text n s || contains_text n r.
Proof using Hn.
  unfold text_repr. cbv zeta. cbn [append]. rewrite (breaks_first _ _ (quote_breaks s)), str_app_assoc. cbn [append]. rewrite (breaks _ (quote_breaks s)).
  destruct needle_parts as [_ [H2 [_ [_ H5]]]]. unfold n in *. now rewrite (contains_chars _ h n0 s (quote_cases s) H5 H2).
Qed.
Lemma contains_repr s : contains_text n (text_repr s) = contains_text n s.
Proof using Hn. rewrite <- (str_app_nil (text_repr s)), contains_repr_then. rewrite (contains_empty n) by discriminate. apply orb_false_r. Qed.
Lemma contains_join l : contains_text n (join_str ", " l) = existsb (contains_text n) l.
Proof using Hn.
  induction l as [|x [|y l] IH]; [now apply contains_empty|cbn [join_str existsb]; now rewrite orb_false_r|]. cbn [existsb] in *. rewrite <- IH. change (join_str ", " (x :: y :: l)) with (x ++ String "," (String " " (join_str ", " (y :: l)))). rewrite (breaks "," eq_refl), (breaks_first " " _ eq_refl). reflexivity.
Qed.
Lemma contains_leaf s : (forall c, has_char c s = true -> has_char c "-+.e0123456789" = true) -> contains_text n s = false.
Proof using Hn.
  intros H. rewrite <- (str_app_nil s). unfold n. rewrite contains_skip; [now apply (contains_empty n)|]. destruct (has_char h s) eqn:E; [|reflexivity]. apply H in E. destruct needle_parts as [_ [_ [K _]]]. congruence.
Qed.
Lemma contains_open d : contains_text n (String "{" (join_str ", " (map (fun kv => text_repr (fst kv) ++ snd kv) d))) = existsb (fun kv => contains_text n (fst kv) || contains_text n (snd kv)) d.
Proof using Hn.
  assert (Ho : contains_text n "{" = false) by (destruct needle_parts as [_ [_ [_ [K _]]]]; apply K; cbn; auto).
  assert (E : existsb (fun kv => contains_text n (fst kv) || contains_text n (snd kv)) d = contains_text n (join_str ", " (map (fun kv => text_repr (fst kv) ++ snd kv) d))).
  { rewrite contains_join. induction d as [|[k x] d IH]; [reflexivity|]. cbn [map existsb fst snd]. now rewrite IH, contains_repr_then. }
  rewrite E. clear E. destruct d as [|[k x] d]; [exact Ho|].
  assert (E : exists r, join_str ", " (map (fun kv => text_repr (fst kv) ++ snd kv) ((k, x) :: d)) = String (quote_of k) r).
  { cbn [map fst snd]. destruct (map (fun kv => text_repr (fst kv) ++ snd kv) d); eexists; reflexivity. }
  destruct E as [r ->]. change (String "{" (String (quote_of k) r)) with ("{" ++ String (quote_of k) r). rewrite (breaks _ (quote_breaks k)), Ho, (breaks_first _ _ (quote_breaks k)). reflexivity.
Qed.
Lemma number_chars z c : has_char c (str_of_Z z) = true -> has_char c "-+.e0123456789" = true.
Proof.
  intros H. destruct (is_digit c) eqn:E.
  - unfold is_digit, in_range, code in E. apply andb_true_iff in E as [E1 E2]. apply Nat.leb_le in E1, E2. rewrite <- (ascii_nat_embedding c). revert E1 E2. generalize (nat_of_ascii c). intros m H1 H2. do 58 (destruct m as [|m]; [first [lia | reflexivity]|]). lia.
  - destruct (ascii_dec c "-"%char) as [->|Nc]; [reflexivity|]. pose proof (number_free c z E Nc). congruence.
Qed.
Variable float_text : Q -> string.
Hypothesis Hf : plain_float float_text.
Lemma has_in c s : has_char c s = true <-> In c (list_ascii_of_string s).
Proof. induction s as [|a s IH]; [split; [discriminate | intros []]|]. cbn [has_char list_ascii_of_string In]. rewrite orb_true_iff, IH. unfold char_eqb. now rewrite Ascii.eqb_eq. Qed.
Lemma repr_contains v : contains_text n (py_repr float_text v) = true <-> exists s, holds_text v s /\ contains_text n s = true.
Proof using Hn Hf.
  assert (Hleaf : forall x, contains_text n x = false -> (forall s, ~ holds_text v s) -> (contains_text n x = true <-> exists s, holds_text v s /\ contains_text n s = true)).
  { intros x Hx Hv. rewrite Hx. split; [discriminate|]. intros [s [K _]]. now elim (Hv s). }
  destruct needle_parts as [_ [_ [_ [Hw _]]]].
  revert Hleaf. induction v as [v IH] using vsize_ind. intros Hleaf. destruct v as [|b|z|q|s|l|d].
  - apply Hleaf; [apply Hw; cbn; auto | intros s K; inversion K].
  - destruct b; (apply Hleaf; [apply Hw; cbn; auto | intros s K; inversion K]).
  - apply Hleaf; [|intros s K; inversion K]. apply contains_leaf. apply number_chars.
  - apply Hleaf; [|intros s K; inversion K]. apply contains_leaf. intros c Hc. apply has_in. cbn [py_repr] in Hc. apply has_in in Hc. apply Hf in Hc. cbn [list_ascii_of_string In] in *. intuition auto 20.
  - cbn [py_repr]. rewrite contains_repr. split; [intros H; exists s; split; [constructor | exact H]|]. intros [s' [K H]]. inversion K; subst. exact H.
  - cbn [py_repr]. change ("[" ++ ?x) with (String "[" x). rewrite (breaks_first "[" _ eq_refl), (breaks "]" eq_refl), (contains_empty n) by discriminate. rewrite orb_false_r, contains_join, existsb_exists.
    assert (IHl : forall x, In x l -> (contains_text n (py_repr float_text x) = true <-> exists s, holds_text x s /\ contains_text n s = true)).
    { intros x Hx. apply IH; [now apply vsize_list_In|]. intros y Hy Hv. rewrite Hy. split; [discriminate|]. intros [s [K _]]. now elim (Hv s). }
    split.
    + intros [y [Hy H]]. apply in_map_iff in Hy as [x [<- Hx]]. apply (IHl x Hx) in H as [s [Hs H]]. exists s. split; [now apply (ht_item l x) | exact H].
    + intros [s [K H]]. inversion K as [|? x ? Hx Hs| |]; subst. exists (py_repr float_text x). split; [now apply in_map|]. apply (IHl x Hx). eauto.
  - cbn [py_repr]. change ("{" ++ ?x) with (String "{" x).
    assert (E : map (fun kv => text_repr (fst kv) ++ ": " ++ py_repr float_text (snd kv)) d = map (fun kv => text_repr (fst kv) ++ snd kv) (map (fun kv => (fst kv, ": " ++ py_repr float_text (snd kv))) d)) by (rewrite map_map; reflexivity).
    rewrite E. clear E. match goal with |- contains_text n (String "{" (?x ++ "}")) = true <-> _ => change (String "{" (x ++ "}")) with (String "{" x ++ "}") end.
    rewrite (breaks "}" eq_refl), (contains_empty n) by discriminate. rewrite orb_false_r, contains_open, existsb_exists.
    assert (IHd : forall k x, In (k, x) d -> (contains_text n (py_repr float_text x) = true <-> exists s, holds_text x s /\ contains_text n s = true)).
    { intros k x Hx. apply IH; [exact (vsize_dict_In d k x Hx)|]. intros y Hy Hv. rewrite Hy. split; [discriminate|]. intros [s [K _]]. now elim (Hv s). }
    assert (Ec : forall r, contains_text n (": " ++ r) = contains_text n r) by (intros r; change (": " ++ r) with (":" ++ String " " r); rewrite (breaks " " eq_refl), Hw; [reflexivity | cbn; auto 6]).
    split.
    + intros [y [Hy H]]. apply in_map_iff in Hy as [[k x] [<- Hx]]. cbn [fst snd] in H. rewrite Ec in H. apply orb_true_iff in H as [H|H]; [exists k; split; [now apply (ht_name d k x) | exact H]|]. apply (IHd k x Hx) in H as [s [Hs H]]. exists s. split; [now apply (ht_member d k x) | exact H].
    + intros [s [K H]]. inversion K as [| |? k x Hx|? k x ? Hx Hs]; subst.
      * exists (s, ": " ++ py_repr float_text x). split; [now apply (in_map (fun kv => (fst kv, ": " ++ py_repr float_text (snd kv))) d (s, x))|]. cbn [fst snd]. rewrite H. reflexivity.
      * exists (k, ": " ++ py_repr float_text x). split; [now apply (in_map (fun kv => (fst kv, ": " ++ py_repr float_text (snd kv))) d (k, x))|]. cbn [fst snd]. rewrite Ec. apply orb_true_iff. right. apply (IHd k x Hx). eauto.
Qed.
End Needle.
