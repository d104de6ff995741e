(** Proofs for C35. *)
From Coq Require Import Lia Sorting.Sorted Permutation.
From Verif.Model Require Import Base Rules Formatters.
From Verif.Spec Require Import Options Report.
From Verif.Proofs Require Import BaseFacts OptionProofs PlaceholderProofs.
Local Open Scope string_scope.

(** * Decimal numbers *)
Lemma digit_is d : (0 <= d < 10)%Z -> is_digit (digit_char d) = true /\ Z.of_nat (code (digit_char d) - 48) = d.
Proof.
  intros H. assert (D : d = 0%Z \/ d = 1%Z \/ d = 2%Z \/ d = 3%Z \/ d = 4%Z \/ d = 5%Z \/ d = 6%Z \/ d = 7%Z \/ d = 8%Z \/ d = 9%Z) by lia.
  decompose [or] D; subst d; split; reflexivity.
Qed.
Lemma parse_dec f : forall n acc, (0 <= n < 2 ^ Z.of_nat f)%Z -> parse_digits (dec_aux f n acc) 0 = parse_digits acc n.
Proof.
  induction f as [|f IH]; intros n acc H. { cbn in H. assert (n = 0%Z) by lia. now subst n. }
  cbn [dec_aux]. pose proof (Z.mod_pos_bound n 10 ltac:(lia)) as Hm. destruct (digit_is (n mod 10) Hm) as [D1 D2].
  rewrite Nat2Z.inj_succ, Z.pow_succ_r in H by lia. destruct (Z.ltb_spec n 10).
  - cbn [parse_digits]. rewrite D1, D2. rewrite Z.mod_small by lia. f_equal. 
  - rewrite IH.
    + cbn [parse_digits]. rewrite D1, D2. f_equal. pose proof (Z.div_mod n 10). lia.
    + split; [apply Z.div_pos; lia|]. apply Z.div_lt_upper_bound; lia.
Qed.
Lemma parse_str_of_nonneg n : (0 <= n)%Z -> parse_digits (dec_aux (dec_fuel n) n "") 0 = Some n.
Proof.
  intros H. rewrite parse_dec; [reflexivity|]. unfold dec_fuel. rewrite Z.abs_eq by lia. split; [lia|]. rewrite Nat2Z.inj_succ, Z2Nat.id by apply Z.log2_nonneg.
  destruct (Z.eq_dec n 0) as [->|]; [reflexivity|]. destruct (Z.log2_spec n); lia.
Qed.
Fixpoint all_digits (s : string) : Prop := match s with EmptyString => True | String c r => is_digit c = true /\ all_digits r end.
Lemma dec_digits f : forall n acc, (0 <= n)%Z -> all_digits acc -> all_digits (dec_aux f n acc).
Proof.
  induction f as [|f IH]; intros n acc H Ha; [exact Ha|]. cbn [dec_aux]. pose proof (Z.mod_pos_bound n 10 ltac:(lia)) as Hm. destruct (digit_is (n mod 10) Hm) as [D1 D2].
  destruct (Z.ltb n 10); [now split|]. apply IH; [apply Z.div_pos; lia | now split].
Qed.
Lemma dec_fuel_opp n : dec_fuel (- n) = dec_fuel n.
Proof. unfold dec_fuel. now rewrite Z.abs_opp. Qed.
Lemma str_of_Z_inj a b : str_of_Z a = str_of_Z b -> a = b.
Proof.
  assert (Hd : forall x y, (0 <= x)%Z -> String "-" y <> dec_aux (dec_fuel x) x "").
  { intros x y Hx E. pose proof (dec_digits (dec_fuel x) x "" Hx I) as K. rewrite <- E in K. destruct K as [K _]. discriminate. }
  unfold str_of_Z. destruct (Z.ltb_spec a 0), (Z.ltb_spec b 0).
  - intros E0. assert (E : dec_aux (dec_fuel a) (- a) "" = dec_aux (dec_fuel b) (- b) "") by (injection E0; auto). rewrite <- (dec_fuel_opp a), <- (dec_fuel_opp b) in E.
    pose proof (parse_str_of_nonneg (- a) ltac:(lia)) as Ka. pose proof (parse_str_of_nonneg (- b) ltac:(lia)) as Kb. rewrite E in Ka. rewrite Ka in Kb. injection Kb as Kb. lia.
  - intros E. exfalso. eapply (Hd b); [lia | exact E].
  - intros E. exfalso. eapply (Hd a); [lia | symmetry; exact E].
  - intros E. pose proof (parse_str_of_nonneg a ltac:(lia)) as Ka. pose proof (parse_str_of_nonneg b ltac:(lia)) as Kb. rewrite E in Ka. congruence.
Qed.
Lemma digits_free c s : is_digit c = false -> all_digits s -> free_of c s.
Proof. intros Hc. induction s as [|a s IH]; cbn; [auto|]. intros [H1 H2]. split; [intros ->; congruence | auto]. Qed.
Lemma str_of_Z_free c z : is_digit c = false -> c <> "-"%char -> free_of c (str_of_Z z).
Proof.
  intros Hc Hm. unfold str_of_Z. destruct (Z.ltb_spec z 0); [split; [congruence|]|]; apply digits_free; auto; apply dec_digits; try lia; exact I.
Qed.

(** * Separators *)
Lemma cut_inj c a : forall a' r r', free_of c a -> free_of c a' -> a ++ String c r = a' ++ String c r' -> a = a' /\ r = r'.
Proof.
  induction a as [|x a IH]; intros [|y a'] r r' H H'; cbn.
  - intros [= ->]. auto.
  - intros [= -> _]. destruct H' as [K _]. congruence.
  - intros [= -> _]. destruct H as [K _]. congruence.
  - intros [= -> E]. destruct H as [_ H], H' as [_ H']. destruct (IH _ _ _ H H' E) as [-> ->]. auto.
Qed.
Lemma free_has c s : free_of c s <-> has_char c s = false.
Proof.
  induction s as [|a s IH]; cbn; [tauto|]. rewrite IH, orb_false_iff. unfold char_eqb. rewrite Ascii.eqb_neq. tauto.
Qed.
Lemma free_times c d n : c <> d -> free_of c (times n d).
Proof. intros H. induction n as [|n IH]; cbn; auto. Qed.

(** * Line ends in messages *)
Lemma sub_free s : forall n b, free_of lf (sub_breaks s n b).
Proof.
  assert (Hf : forall n (b : bool) r, free_of lf r -> free_of lf ((if b then " " else "") ++ times n cr ++ r)).
  { intros n b r H. apply free_app. split; [destruct b; cbn; [split; [discriminate | exact I] | exact I]|]. apply free_app. split; [apply free_times; discriminate | exact H]. }
  induction s as [|c s IH]; intros n b; cbn [sub_breaks]; [apply Hf; exact I|].
  destruct (char_eqb c lf) eqn:E1; [apply IH|]. destruct (char_eqb c cr) eqn:E2; [apply IH|]. apply Hf. split; [|apply IH]. now apply Ascii.eqb_neq in E1.
Qed.
Lemma times_snoc n c r : times n c ++ String c r = times (S n) c ++ r.
Proof. induction n as [|n IH]; cbn; [reflexivity|]. f_equal. exact IH. Qed.
Lemma line_end_times n : line_end (times n cr ++ String lf "").
Proof. induction n as [|n IH]; cbn; constructor; exact IH. Qed.
Lemma line_end_inv e : line_end e -> exists n, e = times n cr ++ String lf "".
Proof. induction 1 as [|s H [n ->]]; [now exists 0|]. now exists (S n). Qed.
(** Reading a text without line feed that does not end in a carriage return. *)
Lemma sub_plain s : forall n b r, free_of lf s -> s <> "" -> (forall u, s <> u ++ String cr "") ->
  sub_breaks (s ++ r) n b = (if b then " " else "") ++ times n cr ++ s ++ sub_breaks r 0 false.
Proof.
  induction s as [|c s IH]; intros n b r Hf Hn Hc; [congruence|]. destruct Hf as [H1 H2]. cbn [append sub_breaks].
  unfold char_eqb at 1. rewrite (proj2 (Ascii.eqb_neq c lf) H1). destruct (Ascii.eqb_spec c cr) as [->|Hx]; unfold char_eqb.
  - rewrite Ascii.eqb_refl. destruct s as [|c' s]; [exfalso; now apply (Hc "")|].
    rewrite IH; [|exact H2|discriminate|intros u E; apply (Hc (String cr u)); cbn; now rewrite E]. f_equal. rewrite <- times_snoc. reflexivity.
  - rewrite (proj2 (Ascii.eqb_neq c cr) Hx). f_equal. f_equal. cbn [append]. f_equal. destruct s as [|c' s]; [reflexivity|].
    rewrite IH; [reflexivity|exact H2|discriminate|intros u E; apply (Hc (String c u)); cbn; now rewrite E].
Qed.
Lemma sub_end e : line_end e -> forall n b r, sub_breaks (e ++ r) n b = sub_breaks r 0 true.
Proof. induction 1 as [|s H IH]; intros n b r; [reflexivity|]. cbn [append sub_breaks]. cbn [char_eqb]. change (char_eqb "013" lf) with false. change (char_eqb "013" cr) with true. cbn. apply IH. Qed.
Lemma sub_gap g : gap g -> forall n b r, sub_breaks (g ++ r) n b = sub_breaks r 0 true.
Proof.
  induction 1 as [s H|s t H Ht IH]; intros n b r; [now apply sub_end|]. rewrite str_app_assoc. rewrite (sub_end s H). apply IH.
Qed.
Lemma last_cr s : free_of lf s -> exists a n, s = a ++ times n cr /\ free_of lf a /\ forall u, a <> u ++ String cr "".
Proof.
  induction s as [|c s IH]; intros H; [exists "", 0; split; [reflexivity|]; split; [exact I|]; intros [|]; discriminate|].
  destruct H as [H1 H2]. destruct (IH H2) as [a [n [-> [Ha Hu]]]]. destruct a as [|x a].
  - cbn [append]. destruct (Ascii.eqb_spec c cr) as [->|Hc].
    + exists "", (S n). split; [reflexivity|]. split; [exact I|]. intros [|]; discriminate.
    + exists (String c ""), n. split; [reflexivity|]. split; [now split|]. intros [|y [|]]; cbn; congruence.
  - exists (String c (String x a)), n. split; [reflexivity|]. split; [now split|]. intros [|y u]; cbn; [discriminate|]. intros [= -> E]. now apply (Hu u).
Qed.
Lemma sub_times n : forall m b, sub_breaks (times n cr) m b = (if b then " " else "") ++ times (n + m) cr.
Proof.
  induction n as [|n IH]; intros m b; cbn [times sub_breaks].
  - f_equal. cbn [Nat.add]. induction m as [|m IH]; cbn; [reflexivity | now rewrite IH].
  - change (char_eqb cr lf) with false. change (char_eqb cr cr) with true. cbn [Nat.add]. cbv iota. rewrite IH. f_equal. f_equal. lia.
Qed.
Lemma app_nil_s s : s ++ "" = s.
Proof. induction s as [|c s IH]; cbn; [reflexivity | now rewrite IH]. Qed.
Lemma sub_last s b : free_of lf s -> sub_breaks s 0 b = (if b then " " else "") ++ s.
Proof.
  intros H. destruct (last_cr s H) as [a [n [-> [Ha Hu]]]]. destruct a as [|x a].
  - cbn [append]. rewrite sub_times. now rewrite Nat.add_0_r.
  - rewrite sub_plain by (auto; discriminate). f_equal. cbn [times append]. f_equal. rewrite sub_times. now rewrite Nat.add_0_r.
Qed.
(** After a gap that goes no further. *)
Lemma sub_after r : (forall e v, line_end e -> r <> e ++ v) -> sub_breaks r 0 true = " " ++ sub_breaks r 0 false.
Proof.
  intros H. assert (G : forall r n, (forall e v, line_end e -> times n cr ++ r <> e ++ v) -> sub_breaks r n true = " " ++ sub_breaks r n false); [|now apply (G r 0)].
  clear r H. induction r as [|c r IH]; intros n H; [reflexivity|]. cbn [sub_breaks]. destruct (Ascii.eqb_spec c lf) as [->|H1]; unfold char_eqb.
  - exfalso. apply (H (times n cr ++ String lf "") r); [apply line_end_times|]. now rewrite str_app_assoc.
  - rewrite (proj2 (Ascii.eqb_neq c lf) H1). destruct (Ascii.eqb_spec c cr) as [->|H2].
    + apply IH. intros e v He. rewrite <- (times_snoc n cr r). now apply H.
    + reflexivity.
Qed.
Lemma one_line_sub s t : one_line s t -> one_line_message s = t.
Proof.
  unfold one_line_message. induction 1 as [s H|s g r t Hs Hc Hg Hr Ht IH]; [now rewrite sub_last|].
  destruct s as [|c s].
  - cbn [append]. rewrite sub_gap by exact Hg. rewrite sub_after by exact Hr. now rewrite IH.
  - rewrite sub_plain by (auto; discriminate). cbn [times append]. rewrite sub_gap by exact Hg. rewrite sub_after by exact Hr. now rewrite IH.
Qed.
Lemma first_gap s : free_of lf s \/ exists a e r, s = a ++ e ++ r /\ free_of lf a /\ (forall u, a <> u ++ String cr "") /\ line_end e.
Proof.
  induction s as [|c s IH]; [now left|]. destruct (Ascii.eqb_spec c lf) as [->|Hc].
  - right. exists "", (String lf ""), s. split; [reflexivity|]. split; [exact I|]. split; [intros [|]; discriminate | constructor].
  - destruct IH as [H|[a [e [r [-> [Ha [Hu He]]]]]]]; [left; now split|]. right. destruct a as [|x a].
    + destruct (Ascii.eqb_spec c cr) as [->|Hx].
      * exists "", (String cr e), r. split; [reflexivity|]. split; [exact I|]. split; [intros [|]; discriminate | now constructor].
      * exists (String c ""), e, r. split; [reflexivity|]. split; [now split|]. split; [intros [|y [|]]; cbn; congruence | exact He].
    + exists (String c (String x a)), e, r. split; [reflexivity|]. split; [now split|]. split; [|exact He]. intros [|y u]; cbn; [discriminate|]. intros [= -> E]. now apply (Hu u).
Qed.
Lemma start_end s : (exists e v, line_end e /\ s = e ++ v) \/ forall e v, line_end e -> s <> e ++ v.
Proof.
  induction s as [|c s IH]; [right; intros e v []; discriminate|]. destruct (Ascii.eqb_spec c lf) as [->|Hc]; [left; exists (String lf ""), s; split; [constructor | reflexivity]|].
  destruct (Ascii.eqb_spec c cr) as [->|Hx].
  - destruct IH as [[e [v [He ->]]]|H]; [left; exists (String cr e), v; split; [now constructor | reflexivity]|]. right. intros e v He. inversion He; subst; cbn; [intros [=]|]. intros [= E]. now apply (H s0 v).
  - right. intros e v He. inversion He; subst; cbn; intros [= E]; contradiction.
Qed.
Lemma len_app a b : String.length (a ++ b) = String.length a + String.length b.
Proof. induction a as [|c a IH]; cbn; [reflexivity | now rewrite IH]. Qed.
Lemma line_end_len e : line_end e -> 0 < String.length e.
Proof. destruct 1; cbn; lia. Qed.
Lemma longest_gap n : forall e s, line_end e -> String.length s <= n -> exists g r, e ++ s = g ++ r /\ gap g /\ String.length r <= String.length s /\ forall e' v, line_end e' -> r <> e' ++ v.
Proof.
  induction n as [|n IH]; intros e s He Hn.
  - destruct s as [|]; [|cbn in Hn; lia]. exists e, "". split; [reflexivity|]. split; [now constructor|]. split; [lia|]. intros e' v []; discriminate.
  - destruct (start_end s) as [[e' [v [He' ->]]]|H].
    + pose proof (line_end_len _ He') as Hl. rewrite len_app in Hn. destruct (IH e' v He') as [g [r [E [Hg [Hr Hm]]]]]; [lia|]. exists (e ++ g), r. split; [rewrite str_app_assoc; now rewrite E|].
      split; [now constructor|]. split; [rewrite len_app; lia | exact Hm].
    + exists e, s. split; [reflexivity|]. split; [now constructor|]. split; [lia | exact H].
Qed.
Lemma one_line_total_n n : forall s, String.length s <= n -> exists t, one_line s t.
Proof.
  induction n as [|n IH]; intros s Hn; [destruct s; [exists ""; now constructor | cbn in Hn; lia]|].
  destruct (first_gap s) as [H|[a [e [r [-> [Ha [Hu He]]]]]]]; [exists s; now constructor|].
  destruct (longest_gap (String.length r) e r He (le_n _)) as [g [r' [E [Hg [Hr Hm]]]]]. rewrite !len_app in Hn. pose proof (line_end_len _ He).
  destruct (IH r') as [t Ht]; [lia|]. exists (a ++ " " ++ t). rewrite E. now constructor.
Qed.
Lemma one_line_total s : exists t, one_line s t.
Proof. exact (one_line_total_n _ s (le_n _)). Qed.
Lemma one_line_iff s t : one_line_message s = t <-> one_line s t.
Proof.
  split; [|apply one_line_sub]. intros <-. destruct (one_line_total s) as [t Ht]. now rewrite (one_line_sub _ _ Ht).
Qed.

(** * The parseable report *)
Lemma parseable_inj m m' : plain_names m -> plain_names m' -> parseable m = parseable m' -> same_finding m m'.
Proof.
  intros [A1 [A2 [A3 A4]]] [B1 [B2 [B3 B4]]] E. unfold parseable in E. cbn [append] in E.
  assert (Z : forall z, free_of ":" (str_of_Z z)) by (intros z; apply str_of_Z_free; [reflexivity | discriminate]).
  apply cut_inj in E as [E1 E]; auto. apply cut_inj in E as [E2 E]; auto. apply cut_inj in E as [E3 E]; auto. apply cut_inj in E as [E4 E]; auto. apply cut_inj in E as [E5 E]; auto.
  apply cut_inj in E as [E6 E]; auto.
  repeat split; auto using str_of_Z_inj. exists (one_line_message (f_msg m)). split; apply one_line_iff; congruence.
Qed.
Lemma parseable_free m : free_of "010" (f_file m) -> free_of "010" (f_rule m) -> has_char lf (parseable m) = false.
Proof.
  intros H1 H2. apply free_has. unfold parseable. assert (Z : forall z, free_of lf (str_of_Z z)) by (intros z; apply str_of_Z_free; [reflexivity | discriminate]).
  assert (C : free_of lf ":") by (split; [discriminate | exact I]). repeat (apply free_app; split); auto. apply sub_free.
Qed.
Lemma printed_lines format ms out : (forall m, In m ms -> has_char lf (format m) = false) -> print_matches format ms = Some out -> split_on lf out = map format ms.
Proof.
  intros H. destruct ms as [|m ms]; [discriminate|]. unfold print_matches. intros E. assert (Eo : out = join_str (String lf "") (map format (m :: ms))) by congruence. rewrite Eo. apply split_on_join; [discriminate|]. apply Forall_forall. intros s Hs. apply in_map_iff in Hs as [x [<- Hx]]. now apply H.
Qed.
Lemma c35_parseable_lines ms : (forall m, In m ms -> free_of "010" (f_file m) /\ free_of "010" (f_rule m)) ->
  (print_matches parseable ms = None <-> ms = []) /\ forall out, print_matches parseable ms = Some out -> split_on lf out = map parseable ms.
Proof.
  intros H. split; [destruct ms; split; [reflexivity|reflexivity|discriminate|discriminate]|]. intros out. apply printed_lines. intros m Hm. destruct (H m Hm). now apply parseable_free.
Qed.
Lemma lines_inj format (P : finding -> Prop) (Q : finding -> finding -> Prop) ms ms' :
  (forall m, P m -> has_char lf (format m) = false) -> (forall m m', P m -> P m' -> format m = format m' -> Q m m') ->
  (forall m, In m ms -> P m) -> (forall m, In m ms' -> P m) -> print_matches format ms = print_matches format ms' -> Forall2 Q ms ms'.
Proof.
  intros Hf Hq H H' E. destruct (print_matches format ms) as [out|] eqn:E1.
  - symmetry in E. apply printed_lines in E1; [|auto]. apply printed_lines in E; [|auto]. rewrite E1 in E. clear E1 out.
    revert ms' H' E. induction ms as [|m ms IH]; intros [|m' ms'] H' E; try discriminate; constructor; injection E as E1 E2.
    + apply Hq; [apply H; now left | apply H'; now left | exact E1].
    + apply IH; [intros x Hx; apply H; now right | intros x Hx; apply H'; now right | exact E2].
  - destruct ms; [|discriminate]. destruct ms'; [constructor | discriminate].
Qed.
Lemma c35_parseable ms ms' : (forall m, In m ms -> plain_names m) -> (forall m, In m ms' -> plain_names m) ->
  print_matches parseable ms = print_matches parseable ms' -> Forall2 same_finding ms ms'.
Proof.
  apply lines_inj; [intros m [H1 [_ [H2 _]]]; now apply parseable_free | intros m m'; apply parseable_inj].
Qed.
Lemma c35_message s t : one_line_message s = t <-> one_line s t.
Proof. apply one_line_iff. Qed.
Lemma c35_line m t : parseable m = t <-> parseable_line m t.
Proof.
  unfold parseable_line. split.
  - intros <-. exists (one_line_message (f_msg m)). split; [now apply one_line_iff | reflexivity].
  - intros [msg [H ->]]. apply one_line_iff in H. subst msg. reflexivity.
Qed.
Lemma c35_message_kept s : free_of "010" s -> one_line_message s = s.
Proof. intros H. apply one_line_iff. now constructor. Qed.

(** * The standard report *)
Lemma standard_inj m m' r r' : plain_finding m -> plain_finding m' -> standard m ++ r = standard m' ++ r' ->
  f_file m = f_file m' /\ f_line m = f_line m' /\ f_col m = f_col m' /\ f_rule m = f_rule m' /\ f_msg m = f_msg m' /\ r = r'.
Proof.
  intros [[A1 [A2 [A3 A4]]] [A5 A6]] [[B1 [B2 [B3 B4]]] [B5 B6]] E. unfold standard in E. rewrite !str_app_assoc in E. cbn [append] in E. rewrite !str_app_assoc in E. cbn [append] in E. rewrite !str_app_assoc in E. cbn [append] in E. rewrite !str_app_assoc in E. cbn [append] in E.
  assert (Z : forall z c, is_digit c = false -> c <> "-"%char -> free_of c (str_of_Z z)) by (intros z c; apply str_of_Z_free).
  apply cut_inj in E as [E1 E]; auto. apply cut_inj in E as [E2 E]; auto. apply cut_inj in E as [E3 E]; auto. apply cut_inj in E as [E4 E]; [|apply Z; [reflexivity | discriminate]..].
  apply cut_inj in E as [E5 E]; [|apply Z; [reflexivity | discriminate]..]. repeat split; auto using str_of_Z_inj.
Qed.
Lemma join_cons sep x y l : join_str sep (x :: y :: l) = x ++ sep ++ join_str sep (y :: l).
Proof. reflexivity. Qed.
Lemma standard_not_empty m r : standard m ++ r <> "".
Proof. unfold standard. destruct (f_rule m); discriminate. Qed.
Lemma c35_standard ms ms' : (forall m, In m ms -> plain_finding m) -> (forall m, In m ms' -> plain_finding m) ->
  print_matches standard ms = print_matches standard ms' -> Forall2 shown_alike ms ms'.
Proof.
  intros H H' E. assert (E' : join_str (String lf "") (map standard ms) = join_str (String lf "") (map standard ms') /\ (ms = [] <-> ms' = [])).
  { destruct ms as [|m ms], ms' as [|m' ms']; try discriminate; [split; [reflexivity | tauto]|]. split; [unfold print_matches in E; congruence | split; discriminate]. }
  clear E. destruct E' as [E K]. revert ms' H' E K. induction ms as [|m ms IH]; intros [|m' ms'] H' E K; [constructor | exfalso; now discriminate (proj1 K eq_refl) | exfalso; now discriminate (proj2 K eq_refl) |].
  assert (Hm : plain_finding m) by (apply H; now left). assert (Hm' : plain_finding m') by (apply H'; now left).
  destruct ms as [|x ms], ms' as [|x' ms'].
  - cbn [map join_str] in E. rewrite <- (app_nil_s (standard m)), <- (app_nil_s (standard m')) in E. destruct (standard_inj _ _ _ _ Hm Hm' E) as [E1 [E2 [E3 [E4 [E5 _]]]]]. repeat constructor; auto.
  - exfalso. cbn [map] in E. rewrite join_cons in E. cbn [join_str] in E. rewrite <- (app_nil_s (standard m)) in E. destruct (standard_inj _ _ _ _ Hm Hm' E) as [_ [_ [_ [_ [_ E']]]]]. discriminate.
  - exfalso. cbn [map] in E. rewrite join_cons in E. cbn [join_str] in E. rewrite <- (app_nil_s (standard m')) in E. destruct (standard_inj _ _ _ _ Hm Hm' E) as [_ [_ [_ [_ [_ E']]]]]. discriminate.
  - cbn [map] in E. rewrite !join_cons in E. destruct (standard_inj _ _ _ _ Hm Hm' E) as [E1 [E2 [E3 [E4 [E5 E6]]]]]. constructor; [repeat split; auto|]. cbn [append] in E6. injection E6 as E6.
    apply IH; [intros y Hy; apply H; now right | intros y Hy; apply H'; now right | exact E6 | split; discriminate].
Qed.

(** * The JSON report *)
Lemma c35_json rule_info path_of ms ms' : json_report rule_info path_of ms = json_report rule_info path_of ms' -> ms = ms'.
Proof.
  unfold json_report. intros [= E]. revert ms' E. induction ms as [|m ms IH]; intros [|m' ms'] E; try discriminate; [reflexivity|].
  cbn [map] in E. injection E as E1 _ E2 E3 _ E4 E5 E6 _ E7 _ _ E8. f_equal; [|now apply IH]. destruct m, m'; cbn in *. congruence.
Qed.

(** * The JUnit report *)
Lemma junit_failures ms rules : flat_map failures (flat_map (junit_case ms) rules) =
  map failure_of (flat_map (fun r => filter (fun m => String.eqb (f_rule m) (jr_id r)) ms) (filter jr_enabled rules)).
Proof.
  induction rules as [|r rules IH]; [reflexivity|]. cbn [flat_map filter]. rewrite flat_map_app, IH. unfold junit_case. destruct (jr_enabled r).
  - cbn [flat_map failures]. rewrite app_nil_r, map_app. reflexivity.
  - destruct (String.eqb _ _); reflexivity.
Qed.
Lemma filter_nil {A} (f : A -> bool) l : (forall x, In x l -> f x = false) -> filter f l = [].
Proof. induction l as [|x l IH]; intros H; cbn; [reflexivity|]. rewrite (H x (or_introl eq_refl)). apply IH. intros y Hy. apply H. now right. Qed.
Lemma spread ids : forall ms, NoDup ids -> (forall m : finding, In m ms -> In (f_rule m) ids) ->
  Permutation (flat_map (fun i => filter (fun m => String.eqb (f_rule m) i) ms) ids) ms.
Proof.
  induction ids as [|i ids IH]; intros ms Hn H.
  - destruct ms as [|m ms]; [constructor | exfalso; exact (H m (or_introl eq_refl))].
  - inversion Hn as [|? ? Hi Hn']; subst. cbn [flat_map].
    assert (P : Permutation (filter (fun m => String.eqb (f_rule m) i) ms ++ filter (fun m => negb (String.eqb (f_rule m) i)) ms)%list ms).
    { clear. induction ms as [|m ms IH]; cbn; [constructor|]. destruct (String.eqb _ _); cbn; [now constructor|]. etransitivity; [symmetry; apply Permutation_middle | now constructor]. }
    etransitivity; [|exact P]. apply Permutation_app_head.
    etransitivity; [|apply (IH (filter (fun m => negb (String.eqb (f_rule m) i)) ms) Hn')].
    + assert (Q : flat_map (fun j => filter (fun m => String.eqb (f_rule m) j) ms) ids = flat_map (fun j => filter (fun m => String.eqb (f_rule m) j) (filter (fun m => negb (String.eqb (f_rule m) i)) ms)) ids); [|rewrite Q; reflexivity].
      clear - Hi. induction ids as [|j ids IH]; [reflexivity|]. cbn [flat_map]. rewrite IH by (intros K; apply Hi; now right). f_equal.
      assert (Hj : j <> i) by (intros ->; apply Hi; now left). clear - Hj. induction ms as [|m ms IH]; [reflexivity|]. cbn [filter]. destruct (String.eqb_spec (f_rule m) i) as [E|E]; cbn [negb filter].
      * destruct (String.eqb_spec (f_rule m) j); [congruence | exact IH].
      * destruct (String.eqb (f_rule m) j); [now f_equal | exact IH].
    + intros m Hm. apply filter_In in Hm as [Hm Hx]. destruct (H m Hm) as [Ei|]; [rewrite Ei, String.eqb_refl in Hx; discriminate | assumption].
Qed.
Lemma c35_junit rules ms : NoDup (map jr_id rules) -> existsb jr_enabled rules = true ->
  (forall m, In m ms -> exists r, In r rules /\ jr_enabled r = true /\ jr_id r = f_rule m) ->
  exists cs, junit rules ms = Some cs /\ Permutation (flat_map failures cs) (map failure_of ms).
Proof.
  intros Hn He H. unfold junit. rewrite He. eexists. split; [reflexivity|]. rewrite junit_failures. apply Permutation_map.
  assert (E : flat_map (fun r => filter (fun m => String.eqb (f_rule m) (jr_id r)) ms) (filter jr_enabled rules) = flat_map (fun i => filter (fun m => String.eqb (f_rule m) i) ms) (map jr_id (filter jr_enabled rules))).
  { induction (filter jr_enabled rules) as [|r l IH]; cbn; [reflexivity | now rewrite IH]. }
  rewrite E. apply spread.
  - clear - Hn. induction rules as [|r rules IH]; cbn; [constructor|]. inversion Hn as [|? ? Hi Hn']; subst. destruct (jr_enabled r); cbn; [|now apply IH]. constructor; [|now apply IH].
    intros K. apply Hi. apply in_map_iff in K as [x [Ex Hx]]. apply filter_In in Hx as [Hx _]. apply in_map_iff. eauto.
  - intros m Hm. destruct (H m Hm) as [r [H1 [H2 H3]]]. apply in_map_iff. exists r. split; [exact H3|]. apply filter_In. auto.
Qed.

(** * The pretty report *)
Lemma grouped_ok ms : grouped (group_by_file ms) /\ List.concat (map snd (group_by_file ms)) = ms.
Proof.
  induction ms as [|m ms [IH1 IH2]]; [split; [exact I | reflexivity]|]. cbn [group_by_file]. destruct (group_by_file ms) as [|[n g] gs] eqn:E.
  - cbn in IH2. subst ms. split; [|reflexivity]. split; [discriminate|]. split; [intros x [<-|[]]; reflexivity|]. split; [discriminate | exact I].
  - destruct IH1 as [G1 [G2 [G3 G4]]]. destruct (String.eqb_spec (f_file m) n) as [Em|Em].
    + split; [|cbn in *; now rewrite IH2]. split; [discriminate|]. split; [intros x [<-|Hx]; auto|]. auto.
    + split; [|cbn in *; now rewrite IH2]. split; [discriminate|]. split; [intros x [<-|[]]; reflexivity|]. split; [intros n' g' r' [= <- <- <-]; auto|]. cbn; auto.
Qed.
Definition by_levels (ms : list finding) : list finding := (of_level Error ms ++ of_level Warning ms ++ of_level Informational ms ++ of_level Unknown ms)%list.
Lemma by_levels_perm ms : Permutation (by_levels ms) ms.
Proof.
  unfold by_levels, of_level. induction ms as [|m ms IH]; [constructor|]. cbn [filter].
  destruct (severity_of (f_rule m)); cbn [severity_eqb].
  - etransitivity; [|apply perm_skip; exact IH]. rewrite !app_assoc. rewrite <- !app_assoc. rewrite (app_assoc _ _ ((m :: _) ++ _)%list). cbn [app]. etransitivity; [symmetry; apply Permutation_middle|]. now rewrite <- app_assoc.
  - cbn [app]. now constructor.
  - etransitivity; [|apply perm_skip; exact IH]. cbn [app]. symmetry. apply Permutation_middle.
  - etransitivity; [|apply perm_skip; exact IH]. rewrite !app_assoc. etransitivity; [symmetry; apply Permutation_middle|]. reflexivity.
Qed.
Lemma of_level_rank s ms m : In m (of_level s ms) -> severity_of (f_rule m) = s.
Proof. intros H. apply filter_In in H as [_ H]. destruct (severity_of (f_rule m)), s; cbn in H; congruence. Qed.
Lemma sorted_app {A} (R : A -> A -> Prop) l1 : forall l2, StronglySorted R l1 -> StronglySorted R l2 -> (forall a b, In a l1 -> In b l2 -> R a b) -> StronglySorted R (l1 ++ l2)%list.
Proof.
  induction l1 as [|x l1 IH]; intros l2 H1 H2 H; [exact H2|]. inversion H1 as [|? ? Hs Hx]; subst. cbn. constructor.
  - apply IH; auto. intros a b Ha Hb. apply H; [now right | exact Hb].
  - apply Forall_forall. intros y Hy. apply in_app_or in Hy as [Hy|Hy]; [now apply (proj1 (Forall_forall _ _) Hx) | apply H; [now left | exact Hy]].
Qed.
Lemma level_sorted s ms : StronglySorted by_level (of_level s ms).
Proof.
  assert (H : forall l, (forall m, In m l -> severity_of (f_rule m) = s) -> StronglySorted by_level l); [|apply H; intros m; apply of_level_rank].
  induction l as [|m l IH]; intros H; constructor; [apply IH; intros x Hx; apply H; now right|]. apply Forall_forall. intros x Hx. unfold by_level. rewrite (H m (or_introl eq_refl)), (H x (or_intror Hx)). lia.
Qed.
Lemma by_levels_sorted ms : StronglySorted by_level (by_levels ms).
Proof.
  unfold by_levels. repeat apply sorted_app; try apply level_sorted; intros a b Ha Hb; apply of_level_rank in Ha; unfold by_level; rewrite Ha;
    repeat (apply in_app_or in Hb as [Hb|Hb]; [apply of_level_rank in Hb; rewrite Hb; cbn; lia|]); apply of_level_rank in Hb; rewrite Hb; cbn; lia.
Qed.
Lemma filter_filter {A} (f g : A -> bool) l : filter f (filter g l) = filter (fun x => g x && f x) l.
Proof. induction l as [|x l IH]; cbn; [reflexivity|]. destruct (g x); cbn; [destruct (f x); now rewrite IH | exact IH]. Qed.
Lemma by_levels_stable ms s : of_level s (by_levels ms) = of_level s ms.
Proof.
  unfold by_levels. unfold of_level at 1. rewrite !filter_app. unfold of_level. rewrite !filter_filter.
  assert (N : forall t, t <> s -> filter (fun x => severity_eqb (severity_of (f_rule x)) t && severity_eqb (severity_of (f_rule x)) s) ms = []).
  { intros t Ht. apply filter_nil. intros m _. destruct (severity_of (f_rule m)), t, s; cbn; congruence. }
  assert (Y : filter (fun x => severity_eqb (severity_of (f_rule x)) s && severity_eqb (severity_of (f_rule x)) s) ms = filter (fun m => severity_eqb (severity_of (f_rule m)) s) ms).
  { apply filter_ext. intros m. destruct (severity_eqb _ _); reflexivity. }
  destruct s; rewrite Y, !N by discriminate; cbn; now rewrite ?app_nil_r.
Qed.
Lemma count_of_level s ms : List.length (of_level s ms) = count_level s ms.
Proof.
  unfold of_level. induction ms as [|m ms IH]; [reflexivity|]. cbn [filter count_level]. destruct (severity_of (f_rule m)), s; cbn; now rewrite IH.
Qed.
Lemma count_all ms : count_level Error ms + count_level Warning ms + count_level Informational ms + count_level Unknown ms = List.length ms.
Proof. induction ms as [|m ms IH]; [reflexivity|]. cbn [count_level List.length]. destruct (severity_of (f_rule m)); cbn; lia. Qed.
Lemma c35_pretty tty templates rules ms : exists gs blocks,
  grouped gs /\ List.concat (map snd gs) = ms /\
  Forall2 (fun g b => exists fs, Permutation fs (snd g) /\ StronglySorted by_level fs /\ (forall s, of_level s fs = of_level s (snd g)) /\
     b = (colored tty (fst g) (String "027" "[4m") :: map (pretty_line tty) fs ++ [""])%list) gs blocks /\
  pretty tty templates rules ms = join_str (String lf "") (List.concat blocks ++ [pretty_summary tty templates rules ms])%list.
Proof.
  destruct (grouped_ok ms) as [G1 G2]. exists (group_by_file ms), (map (pretty_block tty) (group_by_file ms)). split; [exact G1|]. split; [exact G2|]. split.
  - clear. induction (group_by_file ms) as [|g gs IH]; cbn; constructor; auto. exists (by_levels (snd g)). split; [apply by_levels_perm|]. split; [apply by_levels_sorted|]. split; [apply by_levels_stable | reflexivity].
  - unfold pretty. now rewrite flat_map_concat_map.
Qed.
Lemma c35_summary templates rules ms : pretty_summary false templates rules ms =
  "Cfn-lint scanned " ++ str_of_nat templates ++ " templates against " ++ str_of_nat rules ++ " rules and found " ++ str_of_nat (count_level Error ms) ++ " errors, " ++
  str_of_nat (count_level Warning ms) ++ " warnings, and " ++ str_of_nat (count_level Informational ms) ++ " informational violations" /\
  count_level Error ms + count_level Warning ms + count_level Informational ms + count_level Unknown ms = List.length ms.
Proof. split; [|apply count_all]. unfold pretty_summary, colored. cbv zeta. now rewrite !count_of_level. Qed.
Lemma pad_free_inj n a b r r' : free_of " " a -> free_of " " b -> String.length a < n -> String.length b < n -> pad n a ++ r = pad n b ++ r' -> a = b /\ r = r'.
Proof.
  intros Ha Hb La Lb. unfold pad. rewrite !str_app_assoc.
  destruct (n - String.length a) as [|i] eqn:Ei; [lia|]. destruct (n - String.length b) as [|j] eqn:Ej; [lia|]. cbn [times append]. intros E. apply cut_inj in E as [-> E]; auto. split; [reflexivity|].
  assert (i = j) by lia. subst j. clear - E. induction i as [|i IH]; [exact E|]. cbn in E. injection E as E. auto.
Qed.
Lemma c35_pretty_line m m' : free_of " " (f_rule m) -> free_of " " (f_rule m') -> String.length (f_rule m) < 10 -> String.length (f_rule m') < 10 ->
  pretty_line false m = pretty_line false m' -> f_line m = f_line m' /\ f_col m = f_col m' /\ f_rule m = f_rule m' /\ f_msg m = f_msg m'.
Proof.
  intros Hr Hr' L L' E. unfold pretty_line, colored in E. unfold pad at 1 3 in E. repeat first [rewrite str_app_assoc in E | progress cbn [append] in E].
  assert (Z : forall z, free_of ":" (str_of_Z z)) by (intros z; apply str_of_Z_free; [reflexivity | discriminate]).
  apply cut_inj in E as [E1 E]; auto. apply cut_inj in E as [E2 E]; auto. rewrite E1, E2 in E.
  assert (C : forall n a b, times n " " ++ a = times n " " ++ b -> a = b) by (induction n as [|n IH]; cbn; [auto | intros a b [= K]; auto]).
  apply C in E. apply pad_free_inj in E as [E3 E4]; auto. auto using str_of_Z_inj.
Qed.

(** * Refutations and witnesses *)
Lemma c35_colon : exists m m', print_matches parseable [m] = print_matches parseable [m'] /\ f_file m <> f_file m' /\ f_line m <> f_line m'.
Proof.
  exists (mkFinding 1 1 1 1 "t" "E1" "x:2:2:2:2:E2:y"), (mkFinding 2 2 2 2 "t:1:1:1:1:E1:x" "E2" "y"). repeat split; discriminate.
Qed.
Lemma c35_standard_forged : exists m m1 m2, print_matches standard [m] = print_matches standard [m1; m2].
Proof.
  exists (mkFinding 2 2 2 2 "t" "E1" ("a" ++ String lf ("t:1:1" ++ String lf (String lf "E2 b")))), (mkFinding 1 1 1 1 "t" "E1" "a"), (mkFinding 2 2 2 2 "t" "E2" "b"). reflexivity.
Qed.
Lemma c35_return : exists s, free_of "010" (one_line_message s) /\ ~ free_of "013" (one_line_message s).
Proof. exists (String "a" (String "013" "b")). split; [apply sub_free|]. cbn. intros [_ [H _]]. now apply H. Qed.
Lemma c35_junit_base rules ms m : In m ms -> (forall r, In r rules -> jr_id r <> f_rule m) ->
  forall cs, junit rules ms = Some cs -> junit rules (filter (fun x => negb (String.eqb (f_rule x) (f_rule m))) ms) = Some cs.
Proof.
  intros _ H cs. unfold junit. destruct (existsb jr_enabled rules); [|discriminate]. intros [= <-]. f_equal. induction rules as [|r rules IH]; [reflexivity|]. cbn [flat_map]. rewrite IH by (intros x Hx; apply H; now right). f_equal.
  unfold junit_case. destruct (jr_enabled r); [|reflexivity]. f_equal. f_equal. f_equal. rewrite filter_filter. apply filter_ext. intros x.
  destruct (String.eqb_spec (f_rule x) (jr_id r)) as [E|E]; [|now destruct (String.eqb _ _)]. destruct (String.eqb_spec (f_rule x) (f_rule m)) as [E'|E']; [|reflexivity]. exfalso. apply (H r (or_introl eq_refl)). congruence.
Qed.
Lemma c35_junit_lost rules ms m : junit_of_run [(rules, ms); ([], [m])] = None.
Proof. reflexivity. Qed.
Lemma c35_junit_crash rules ms : (forall r, In r rules -> jr_id r <> "E0001") -> (forall m, In m ms -> f_rule m = "E0001") ->
  forall cs, junit_of_run [(rules, ms)] = Some cs -> flat_map failures cs = [].
Proof.
  intros H Hm cs. unfold junit_of_run. cbn [map fst last snd List.concat]. rewrite app_nil_r. unfold junit. destruct (existsb jr_enabled rules); [|discriminate]. intros [= <-]. rewrite junit_failures.
  assert (E : flat_map (fun r => filter (fun m => String.eqb (f_rule m) (jr_id r)) ms) (filter jr_enabled rules) = []); [|now rewrite E].
  induction rules as [|r rules IH]; [reflexivity|]. cbn [filter]. assert (IH' := IH (fun x Hx => H x (or_intror Hx))). destruct (jr_enabled r); [|exact IH']. cbn [flat_map]. rewrite IH', app_nil_r.
  apply filter_nil. intros x Hx. rewrite (Hm x Hx). apply String.eqb_neq. intros K. now apply (H r (or_introl eq_refl)).
Qed.
Definition two : list finding :=
  [mkFinding 3 7 3 12 "a.yaml" "W2001" ("first" ++ String cr (String lf (String lf "second: line"))); mkFinding 4 1 5 2 "b.yaml" "E3002" "x, y"].
Lemma two_plain : forall m, In m two -> plain_names m.
Proof. intros m [<-|[<-|[]]]; unfold plain_names; cbn; repeat split; discriminate. Qed.
Lemma two_printed : print_matches parseable two = Some ("a.yaml:3:7:3:12:W2001:first second: line" ++ String lf "b.yaml:4:1:5:2:E3002:x, y").
Proof. reflexivity. Qed.
Definition one_plain : list finding := [mkFinding 4 1 5 2 "b.yaml" "E3002" "x: y z"].
Lemma one_plain_plain : forall m, In m one_plain -> plain_finding m.
Proof. intros m [<-|[]]; unfold plain_finding, plain_names; cbn; repeat split; discriminate. Qed.
Definition some_rules : list jrule := [mkJR "W2001" "unused" false true; mkJR "E3002" "properties" false true; mkJR "I1" "" true false].
Lemma some_rules_fit : NoDup (map jr_id some_rules) /\ existsb jr_enabled some_rules = true /\ forall m, In m two -> exists r, In r some_rules /\ jr_enabled r = true /\ jr_id r = f_rule m.
Proof.
  split; [cbn; repeat constructor; cbn; intuition discriminate|]. split; [reflexivity|]. intros m [<-|[<-|[]]]; [exists (mkJR "W2001" "unused" false true) | exists (mkJR "E3002" "properties" false true)]; (split; [cbn; tauto | split; reflexivity]).
Qed.
