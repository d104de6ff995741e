(** Proofs for C11 and C12: white space, strings and numbers. *)
From Coq Require Import List NArith ZArith Lia Bool.
From Verif.Model Require Import Base Json.
From Verif.Spec Require Import JsonText.
Import ListNotations.
Local Open Scope N_scope.
Local Notation length := List.length.

Ltac neq H := rewrite (proj2 (N.eqb_neq _ _)) by H.

(** * White space *)
Lemma ws_iff c : is_ws c = true <-> In c [32; 9; 10; 13].
Proof.
  unfold is_ws. rewrite !orb_true_iff, !N.eqb_eq. cbn. intuition.
Qed.
Lemma white_nil : white [].
Proof. intros c []. Qed.
Lemma white_cons c s : white (c :: s) <-> is_ws c = true /\ white s.
Proof. rewrite ws_iff. unfold white. split; [intros H; split; [apply H; now left | intros x Hx; apply H; now right] | intros [H1 H2] x [<-|Hx]; auto]. Qed.
Lemma white_app a b : white (a ++ b) <-> white a /\ white b.
Proof. unfold white. split; [intros H; split; intros c Hc; apply H; apply in_or_app; auto | intros [H1 H2] c Hc; apply in_app_or in Hc as [Hc|Hc]; auto]. Qed.
Definition no_white_head (s : text) : Prop := match s with [] => True | c :: _ => is_ws c = false end.
Lemma skip_white w : forall p r, white w -> no_white_head r -> skip p (w ++ r) = ((length w + p)%nat, r).
Proof.
  induction w as [|c w IH]; intros p r Hw Hr; cbn [app].
  - destruct r as [|x r]; cbn; [reflexivity|]. cbn in Hr. now rewrite Hr.
  - apply white_cons in Hw as [Hc Hw]. cbn [skip]. rewrite Hc. rewrite IH by auto. f_equal. cbn. lia.
Qed.
Lemma skip_inv s : forall p p1 s1, skip p s = (p1, s1) -> exists w, s = w ++ s1 /\ white w /\ p1 = (length w + p)%nat /\ no_white_head s1.
Proof.
  induction s as [|c s IH]; intros p p1 s1; cbn [skip].
  - intros [= <- <-]. exists []. repeat split; auto using white_nil.
  - destruct (is_ws c) eqn:E.
    + intros H. destruct (IH _ _ _ H) as [w [-> [Hw [-> Hn]]]]. exists (c :: w). split; [reflexivity|]. split; [now apply white_cons|]. split; [cbn; lia | exact Hn].
    + intros [= <- <-]. exists []. repeat split; auto using white_nil.
Qed.

Section Lex.
Variable int16 : text -> option Z.
Variable other : N -> option Z.
Notation H4 := (lax_hex4 int16).
Notation DG := (lax_digit other).

(** * Strings *)
Lemma unicode_iff a b c d u : unicode_escape int16 a b c d = Some u <-> H4 a b c d u.
Proof.
  unfold unicode_escape, lax_hex4. destruct (N.eqb_spec b 120), (N.eqb_spec b 88); cbn; intuition discriminate.
Qed.
Lemma high_iff u : high u = true <-> is_high u.
Proof. unfold high, is_high. rewrite andb_true_iff, !Z.leb_le. tauto. Qed.
Lemma low_iff u : low u = true <-> is_low u.
Proof. unfold low, is_low. rewrite andb_true_iff, !Z.leb_le. tauto. Qed.
Lemma backslash_iff e c : backslash e = Some c <-> simple_escape e c.
Proof.
  unfold backslash, simple_escape. cbn [In].
  repeat match goal with |- context [if e =? ?n then _ else _] => destruct (N.eqb_spec e n) as [->|]; [split; [intros [= <-]; tauto | intros; intuition congruence]|] end.
  split; [discriminate | intuition congruence].
Qed.
Lemma escape_u c : ~ simple_escape 117 c.
Proof. unfold simple_escape. cbn. intuition congruence. Qed.
Lemma scan_complete ks kt : chars H4 ks kt -> forall begin p rest, scanstring int16 begin p (ks ++ 34 :: rest) = JOk (kt, S (length ks + p), rest).
Proof.
  induction 1 as [|c s t N1 N2 N3 Hs IH|e c s t He Hs IH|a b c d u s t Hh H0 Hn Hs IH|a b c d u a' b' c' d' v s t Hh Hu Hh' Hv Hs IH]; intros begin p rest.
  - reflexivity.
  - cbn [app scanstring]. neq ltac:(exact N1). neq ltac:(exact N2). rewrite (proj2 (N.ltb_ge _ _) N3). rewrite IH. cbn. repeat f_equal. lia.
  - cbn [app scanstring]. change (92 =? 34) with false. change (92 =? 92) with true. cbv iota.
    destruct (N.eqb_spec e 117) as [->|]; [now apply escape_u in He|]. rewrite (proj2 (backslash_iff e c) He). rewrite IH. cbn. repeat f_equal. lia.
  - assert (E : cons_chr u (scanstring int16 begin (6 + p) (s ++ 34 :: rest)) = JOk (Z.to_N u :: t, S (length (92 :: 117 :: a :: b :: c :: d :: s) + p), rest)).
    { unfold cons_chr. rewrite (proj2 (Z.ltb_ge _ _) H0), IH. cbn. repeat f_equal. lia. }
    cbn [app scanstring]. change (92 =? 34) with false. change (92 =? 92) with true. change (117 =? 117) with true. cbv iota.
    rewrite (proj2 (unicode_iff a b c d u) Hh). inversion Hs; subst; cbn [app] in E |- *.
    + change (34 =? 92) with false. rewrite andb_false_r. cbn [andb]. destruct rest; exact E.
    + neq ltac:(assumption). rewrite andb_false_r. cbn [andb]. destruct (s0 ++ 34 :: rest); exact E.
    + destruct (N.eqb_spec e 117) as [->|]; [exfalso; eapply escape_u; eassumption|]. rewrite !andb_false_r. exact E.
    + change (92 =? 92) with true. change (117 =? 117) with true. rewrite !andb_true_r. destruct (high u) eqn:Eh; [|exact E]. rewrite (proj2 (unicode_iff _ _ _ _ _) H).
      destruct (low u0) eqn:El; [|exact E]. apply high_iff in Eh. apply low_iff in El. exfalso. exact (Hn Eh _ _ _ _ _ _ eq_refl H El).
    + change (92 =? 92) with true. change (117 =? 117) with true. rewrite !andb_true_r. destruct (high u) eqn:Eh; [|exact E]. rewrite (proj2 (unicode_iff _ _ _ _ _) H).
      destruct (low u0) eqn:El; [|exact E]. apply high_iff in Eh. apply low_iff in El. exfalso. exact (Hn Eh _ _ _ _ _ _ eq_refl H El).
  - cbn [app scanstring]. change (92 =? 34) with false. change (92 =? 92) with true. change (117 =? 117) with true. cbv iota.
    rewrite (proj2 (unicode_iff a b c d u) Hh), (proj2 (high_iff u) Hu). cbn [andb]. rewrite (proj2 (unicode_iff a' b' c' d' v) Hh'), (proj2 (low_iff v) Hv).
    unfold cons_chr. unfold is_high in Hu. unfold is_low in Hv. rewrite (proj2 (Z.ltb_ge _ _)) by (unfold joined; lia). rewrite IH. cbn [jbind fst snd]. f_equal. f_equal. f_equal; [f_equal; unfold joined; f_equal; lia | cbn; lia].
Qed.
Lemma cons_chr_inv u r q : cons_chr u r = JOk q -> (0 <= u)%Z /\ exists t p s, r = JOk (t, p, s) /\ q = (Z.to_N u :: t, p, s).
Proof.
  unfold cons_chr. destruct (Z.ltb_spec u 0); [discriminate|]. destruct r as [[[t p] s]| |]; cbn; try discriminate. intros [= <-]. split; [assumption|]. eauto 6.
Qed.
Lemma cons_char_inv c r q : cons_char c r = JOk q -> exists t p s, r = JOk (t, p, s) /\ q = (c :: t, p, s).
Proof. destruct r as [[[t p] s]| |]; cbn; try discriminate. intros [= <-]. eauto 6. Qed.
Lemma scan_sound n : forall s begin p t p' rest, (length s <= n)%nat -> scanstring int16 begin p s = JOk (t, p', rest) ->
  exists ks, s = ks ++ 34 :: rest /\ p' = S (length ks + p) /\ chars H4 ks t.
Proof.
  induction n as [|n IH]; intros s begin p t p' rest Hn; [destruct s; [discriminate | cbn in Hn; lia]|].
  destruct s as [|c s1]; [discriminate|]. cbn [scanstring]. destruct (N.eqb_spec c 34) as [->|Hq].
  { intros [= <- <- <-]. exists []. repeat split. constructor. }
  destruct (N.eqb_spec c 92) as [->|Hb].
  2: { destruct (N.ltb_spec c 32); [discriminate|]. intros E. apply cons_char_inv in E as [t' [p1 [s' [E [= -> -> ->]]]]]. cbn in Hn. apply IH in E as [ks [-> [-> Hc]]]; [|lia].
       exists (c :: ks). repeat split; [cbn; lia|]. now constructor. }
  destruct s1 as [|e s2]; [discriminate|]. destruct (N.eqb_spec e 117) as [->|He].
  2: { destruct (backslash e) as [ch|] eqn:Eb; [|discriminate]. intros E. apply cons_char_inv in E as [t' [p1 [s' [E [= -> -> ->]]]]]. cbn in Hn. apply IH in E as [ks [-> [-> Hc]]]; [|lia].
       exists (92 :: e :: ks). repeat split; [cbn; lia|]. constructor; [now apply backslash_iff | exact Hc]. }
  destruct s2 as [|h1 [|h2 [|h3 [|h4 s6]]]]; try discriminate. destruct (unicode_escape int16 h1 h2 h3 h4) as [u|] eqn:Eu; [|discriminate]. apply unicode_iff in Eu. cbn in Hn.
  assert (Hunit : (is_high u -> forall a b c d v s', s6 = 92 :: 117 :: a :: b :: c :: d :: s' -> H4 a b c d v -> ~ is_low v) ->
    cons_chr u (scanstring int16 begin (6 + p) s6) = JOk (t, p', rest) -> exists ks, 92 :: 117 :: h1 :: h2 :: h3 :: h4 :: s6 = ks ++ 34 :: rest /\ p' = S (length ks + p) /\ chars H4 ks t).
  { intros Hx E. apply cons_chr_inv in E as [H0 [t' [p1 [s' [E [= -> -> ->]]]]]]. apply IH in E as [ks [-> [-> Hc]]]; [|lia].
    exists (92 :: 117 :: h1 :: h2 :: h3 :: h4 :: ks). split; [reflexivity|]. split; [cbn; lia|]. apply ch_unit; auto. intros Hh a b c d v r' -> Hv. eapply (Hx Hh); [cbn; reflexivity | exact Hv]. }
  destruct s6 as [|c' [|e' s8]]; [apply Hunit; intros; discriminate | apply Hunit; intros; discriminate|].
  destruct (high u && (c' =? 92) && (e' =? 117)) eqn:Ec.
  2: { apply Hunit. intros Hh a b c d v s' [= -> -> _] _ _. apply high_iff in Hh. rewrite Hh in Ec. discriminate. }
  apply andb_true_iff in Ec as [Ec E1]. apply andb_true_iff in Ec as [Eh E2]. apply N.eqb_eq in E1, E2. subst c' e'.
  destruct s8 as [|g1 [|g2 [|g3 [|g4 s12]]]]; try discriminate. destruct (unicode_escape int16 g1 g2 g3 g4) as [v|] eqn:Ev; [|discriminate]. destruct (low v) eqn:El.
  2: { apply Hunit. intros _ a b c d v' s' [= <- <- <- <- <-] Hv Hl. apply unicode_iff in Hv. rewrite Ev in Hv. injection Hv as <-. apply low_iff in Hl. congruence. }
  apply unicode_iff in Ev. intros E. apply cons_chr_inv in E as [H0 [t' [p1 [s' [E [= -> -> ->]]]]]]. cbn in Hn. apply IH in E as [ks [-> [-> Hc]]]; [|lia].
  exists (92 :: 117 :: h1 :: h2 :: h3 :: h4 :: 92 :: 117 :: g1 :: g2 :: g3 :: g4 :: ks). split; [reflexivity|]. split; [cbn; lia|].
  replace (joined u v) with (65536 + (u - 55296) * 1024 + (v - 56320))%Z by (unfold joined; lia). apply ch_pair; auto; [now apply high_iff | now apply low_iff].
Qed.

(** * Numbers *)
Lemma digit_iff c d : Json.digit other c = Some d <-> DG c d.
Proof.
  assert (Hd : digit c d <-> 48 <= c <= 57 /\ d = (Z.of_N c - 48)%Z) by (split; [intros [x Hx]; auto | intros [H ->]; now constructor]).
  unfold Json.digit, lax_digit. rewrite Hd. destruct (N.leb_spec 48 c), (N.leb_spec c 57), (N.ltb_spec c 128); cbn [andb]; split; intros K; try lia; try discriminate.
  - injection K as <-. left. lia.
  - destruct K as [[_ ->]|[K _]]; [reflexivity | lia].
  - right. auto.
  - destruct K as [[K _]|[_ K]]; [lia | exact K].
Qed.
Definition no_digit_head (s : text) : Prop := match s with [] => True | c :: _ => Json.digit other c = None end.
Lemma seq_digits z s r : digit_seq DG z s r -> forall rest, no_digit_head rest -> digits other (s ++ rest) = (s, rest) /\ digits_value other z s = r.
Proof.
  induction 1 as [z|z c d s r Hd Hs IH]; intros rest Hr.
  - split; [|reflexivity]. destruct rest as [|x rest]; [reflexivity|]. cbn in *. now rewrite Hr.
  - apply digit_iff in Hd. cbn [app digits digits_value]. rewrite Hd. destruct (IH rest Hr) as [E1 E2]. rewrite E1. auto.
Qed.
Lemma digits_inv s : forall ds r, digits other s = (ds, r) -> s = ds ++ r /\ no_digit_head r /\ forall z, digit_seq DG z ds (digits_value other z ds).
Proof.
  induction s as [|c s IH]; intros ds r; cbn [digits].
  - intros [= <- <-]. split; [reflexivity|]. split; [exact I|]. intros z. constructor.
  - destruct (Json.digit other c) as [d|] eqn:Ed.
    + destruct (digits other s) as [ds' r'] eqn:E. cbn [fst snd]. intros [= <- <-]. destruct (IH _ _ eq_refl) as [-> [Hr Hs]]. split; [reflexivity|]. split; [exact Hr|].
      intros z. cbn [digits_value]. rewrite Ed. exact (ds_cons _ z c d _ _ (proj1 (digit_iff c d) Ed) (Hs _)).
    + intros [= <- <-]. split; [reflexivity|]. split; [exact Ed|]. intros z. constructor.
Qed.
(** What may come after a value. *)
Definition follow (s : text) : Prop := match s with [] => True | c :: _ => In c [32; 9; 10; 13; 44; 93; 125] end.
Lemma ascii_digit c : c < 48 \/ 57 < c < 128 -> Json.digit other c = None.
Proof. intros H. unfold Json.digit. destruct (N.leb_spec 48 c), (N.leb_spec c 57); cbn [andb]; try lia; destruct (N.ltb_spec c 128); try reflexivity; lia. Qed.
Lemma follow_digit s : follow s -> no_digit_head s.
Proof. destruct s as [|c s]; cbn; [auto|]. intros H. apply ascii_digit. destruct H as [<-|[<-|[<-|[<-|[<-|[<-|[<-|[]]]]]]]]; lia. Qed.
Lemma exponent_complete ex rest : exponent_text DG ex -> follow rest -> exponent other (ex ++ rest) = (ex, rest).
Proof.
  intros H Hf. destruct H as [|e sg s He Hsg Hs [z Hz]].
  - destruct rest as [|c rest]; [reflexivity|]. cbn [app]. unfold exponent. cbn in Hf. rewrite (proj2 (N.eqb_neq c 101)), (proj2 (N.eqb_neq c 69)) by (intuition subst; discriminate). reflexivity.
  - destruct (seq_digits _ _ _ Hz rest (follow_digit _ Hf)) as [E _]. unfold exponent. cbn [app].
    assert (Ee : (e =? 101) || (e =? 69) = true) by (destruct He as [->| ->]; reflexivity). rewrite Ee.
    destruct Hsg as [->|[->| ->]]; cbn [app].
    + destruct s as [|x s]; [congruence|]. cbn [app]. inversion Hz as [|? ? d ? ? Hd Hs']; subst. apply digit_iff in Hd.
      rewrite (proj2 (N.eqb_neq x 43)), (proj2 (N.eqb_neq x 45)) by (intros ->; rewrite ascii_digit in Hd by lia; discriminate). cbn [orb]. change (x :: s ++ rest) with ((x :: s) ++ rest). rewrite E. reflexivity.
    + change (43 =? 43) with true. cbn [orb]. rewrite E. destruct s; [congruence | reflexivity].
    + change (45 =? 43) with false. change (45 =? 45) with true. cbn [orb]. rewrite E. destruct s; [congruence | reflexivity].
Qed.
Lemma exponent_head ex rest : exponent_text DG ex -> follow rest -> no_digit_head (ex ++ rest) /\ forall r, ex ++ rest <> 46 :: r.
Proof.
  intros H Hf. destruct H as [|e sg s He Hsg Hs Hz].
  - split; [now apply follow_digit|]. intros r E; cbn [app] in E; subst rest; cbn in Hf. intuition discriminate.
  - split; [cbn; apply ascii_digit; destruct He as [->| ->]; lia|]. intros r. destruct He as [->| ->]; discriminate.
Qed.
Lemma fraction_complete fr rest : fraction_text DG fr -> no_digit_head rest -> (forall r, rest <> 46 :: r) -> fraction other (fr ++ rest) = (fr, rest).
Proof.
  intros H Hd Hn. destruct H as [|s Hs [z Hz]].
  - destruct rest as [|c rest]; [reflexivity|]. cbn [app]. unfold fraction. destruct (N.eqb_spec c 46) as [->|]; [now destruct (Hn rest) | reflexivity].
  - destruct (seq_digits _ _ _ Hz rest Hd) as [E _]. unfold fraction. cbn [app]. change (46 =? 46) with true. cbv iota. rewrite E. destruct s; [congruence | reflexivity].
Qed.
Lemma natural_complete s z rest : natural DG s z -> no_digit_head rest -> forall (neg : bool), integer_part other ((if neg then [45] else []) ++ s ++ rest) = Some (neg, s, rest) /\ digits_value other 0 s = z.
Proof.
  intros H Hd neg.
  assert (Hi : forall c s1, (c =? 45) = false -> integer_part other ((if neg then [45] else []) ++ c :: s1) = (if c =? 48 then Some (neg, [c], s1)
      else if (49 <=? c) && (c <=? 57) then Some (neg, c :: fst (digits other s1), snd (digits other s1)) else None)).
  { intros c s1 Hc. unfold integer_part. destruct neg; cbn [app]; [reflexivity|]. now rewrite Hc. }
  destruct H as [|c s z Hc Hz].
  - cbn [app]. rewrite Hi by reflexivity. cbn [app]. split; reflexivity.
  - destruct (seq_digits _ _ _ Hz rest Hd) as [E1 E2]. cbn [app]. rewrite Hi by (apply N.eqb_neq; lia). neq lia. rewrite (proj2 (N.leb_le 49 c)), (proj2 (N.leb_le c 57)) by lia. cbn [andb]. rewrite E1. split; [reflexivity|].
    cbn [digits_value]. assert (Ed : Json.digit other c = Some (Z.of_N c - 48)%Z) by (apply digit_iff; left; constructor; lia). rewrite Ed. exact E2.
Qed.
Lemma number_complete s v rest : number_text DG s v -> follow rest -> number other (s ++ rest) = Some (v, s, rest).
Proof.
  intros H Hf.
  assert (G : forall (neg : bool) ds z fr ex, natural DG ds z -> fraction_text DG fr -> exponent_text DG ex ->
    number other ((if neg then [45] else []) ++ ds ++ fr ++ ex ++ rest) =
    Some (match fr ++ ex with [] => JInt (if neg then - z else z) | fe => JFloat ((if neg then [45] else []) ++ ds ++ fe) end, (if neg then [45] else []) ++ ds ++ fr ++ ex, rest)).
  { intros neg ds z fr ex Hn Hfr Hex. destruct (exponent_head ex rest Hex Hf) as [X1 X2]. unfold number.
    assert (Hd : no_digit_head (fr ++ ex ++ rest)) by (destruct Hfr; cbn [app]; [exact X1 | reflexivity]).
    destruct (natural_complete _ _ _ Hn Hd neg) as [E1 E2]. rewrite E1. rewrite fraction_complete by auto. rewrite exponent_complete by auto. rewrite E2. reflexivity. }
  destruct H as [s z Hn|s z Hn|sg s z fr ex Hsg Hn Hfr Hex Hne].
  - specialize (G false s z [] [] Hn (fr_none _) (ex_none _)). cbn [app] in G. rewrite app_nil_r in G. exact G.
  - specialize (G true s z [] [] Hn (fr_none _) (ex_none _)). cbn [app] in G. rewrite app_nil_r in G. exact G.
  - destruct Hsg as [->| ->].
    + specialize (G false s z fr ex Hn Hfr Hex). cbn [app] in G |- *. rewrite <- !app_assoc. rewrite G. destruct (fr ++ ex) eqn:E; [congruence|]. reflexivity.
    + specialize (G true s z fr ex Hn Hfr Hex). cbn [app] in G |- *. rewrite <- !app_assoc. rewrite G. destruct (fr ++ ex) eqn:E; [congruence|]. reflexivity.
Qed.
Lemma exponent_sound s ex r : exponent other s = (ex, r) -> s = ex ++ r /\ exponent_text DG ex.
Proof.
  unfold exponent. destruct s as [|c s']; [intros [= <- <-]; split; [reflexivity | constructor]|].
  destruct ((c =? 101) || (c =? 69)) eqn:Ee; [|intros [= <- <-]; split; [reflexivity | constructor]].
  assert (Hc : c = 101 \/ c = 69) by (apply orb_true_iff in Ee as [Ee|Ee]; apply N.eqb_eq in Ee; auto).
  assert (G : forall sg s2, s' = sg ++ s2 -> sg = [] \/ sg = [43] \/ sg = [45] ->
    match fst (digits other s2) with [] => ([], c :: s') | ds => (c :: sg ++ ds, snd (digits other s2)) end = (ex, r) -> c :: s' = ex ++ r /\ exponent_text DG ex).
  { intros sg s2 -> Hsg. destruct (digits other s2) as [ds r'] eqn:Ed. destruct (digits_inv _ _ _ Ed) as [-> [_ Hz]]. cbn [fst snd]. destruct ds as [|x ds]; [intros [= <- <-]; split; [reflexivity | constructor]|].
    intros [= <- <-]. split; [cbn; now rewrite <- app_assoc|]. apply ex_some; auto; [discriminate|]. eexists. apply Hz. }
  destruct s' as [|d s'']; [apply (G [] []); auto|]. destruct ((d =? 43) || (d =? 45)) eqn:Ed; [|apply (G [] (d :: s'')); auto].
  apply (G [d] s''); [reflexivity|]. apply orb_true_iff in Ed as [Ed|Ed]; apply N.eqb_eq in Ed; subst; auto.
Qed.
Lemma fraction_sound s fr r : fraction other s = (fr, r) -> s = fr ++ r /\ fraction_text DG fr.
Proof.
  unfold fraction. destruct s as [|c s']; [intros [= <- <-]; split; [reflexivity | constructor]|].
  destruct (N.eqb_spec c 46) as [->|]; [|intros [= <- <-]; split; [reflexivity | constructor]].
  destruct (digits other s') as [ds r'] eqn:Ed. destruct (digits_inv _ _ _ Ed) as [-> [_ Hz]]. cbn [fst snd]. destruct ds as [|x ds]; [intros [= <- <-]; split; [reflexivity | constructor]|].
  intros [= <- <-]. split; [reflexivity|]. constructor; [discriminate|]. eexists. apply Hz.
Qed.
Lemma integer_sound s neg ds r : integer_part other s = Some (neg, ds, r) -> s = (if neg then [45] else []) ++ ds ++ r /\ natural DG ds (digits_value other 0 ds).
Proof.
  unfold integer_part.
  assert (G : forall s1, match s1 with c :: s2 => if c =? 48 then Some (neg, [c], s2) else if (49 <=? c) && (c <=? 57) then Some (neg, c :: fst (digits other s2), snd (digits other s2)) else None | [] => None end = Some (neg, ds, r) ->
    s1 = ds ++ r /\ natural DG ds (digits_value other 0 ds)).
  { intros [|c s2]; [discriminate|]. destruct (N.eqb_spec c 48) as [->|]; [intros [= <- <-]; split; [reflexivity | constructor]|].
    destruct (N.leb_spec 49 c), (N.leb_spec c 57); try discriminate. cbn [andb]. destruct (digits other s2) as [ds' r'] eqn:Ed. destruct (digits_inv _ _ _ Ed) as [-> [_ Hz]]. cbn [fst snd]. intros [= <- <-]. split; [reflexivity|].
    cbn [digits_value]. assert (Ed' : Json.digit other c = Some (Z.of_N c - 48)%Z) by (apply digit_iff; left; constructor; lia). rewrite Ed'. constructor; [lia | apply Hz]. }
  destruct s as [|c s']; [discriminate|]. destruct (N.eqb_spec c 45) as [->|].
  - intros E. assert (neg = true) by (destruct s' as [|x s']; [discriminate|]; destruct (x =? 48); [congruence|]; destruct ((49 <=? x) && (x <=? 57)); [congruence | discriminate]). subst neg. destruct (G s' E) as [-> Hn]. auto.
  - intros E. assert (neg = false) by (destruct (c =? 48); [congruence|]; destruct ((49 <=? c) && (c <=? 57)); [congruence | discriminate]). subst neg. destruct (G (c :: s') E) as [-> Hn]. auto.
Qed.
Lemma number_sound s v t rest : number other s = Some (v, t, rest) -> s = t ++ rest /\ number_text DG t v.
Proof.
  unfold number. destruct (integer_part other s) as [[[neg ds] s1]|] eqn:Ei; [|discriminate]. destruct (integer_sound _ _ _ _ Ei) as [-> Hn]. destruct (fraction other s1) as [fr s2] eqn:Ef. destruct (fraction_sound _ _ _ Ef) as [-> Hfr].
  destruct (exponent other s2) as [ex s3] eqn:Ex. destruct (exponent_sound _ _ _ Ex) as [-> Hex]. intros [= <- <- <-]. split; [now rewrite <- !app_assoc|].
  destruct (fr ++ ex) as [|x fe] eqn:E.
  - apply app_eq_nil in E as [-> ->]. cbn [app]. rewrite app_nil_r. destruct neg; cbn [app]; now constructor.
  - rewrite <- E. apply (nu_float DG _ _ (digits_value other 0 ds)); auto; [destruct neg; auto | rewrite E; discriminate].
Qed.
End Lex.
