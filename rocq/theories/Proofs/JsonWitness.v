(** Proofs for C11 and C12: every value can be written; concrete documents. *)
From Coq Require Import List NArith ZArith Lia Bool.
From Verif.Model Require Import Base Json.
From Verif.Spec Require Import JsonText.
From Verif.Proofs Require Import JsonLexProofs JsonProofs.
Import ListNotations.
Local Open Scope N_scope.
Local Notation length := List.length.

Lemma digit_char n : (0 <= n < 10)%Z -> JsonText.digit (Z.to_N (n + 48)) n.
Proof. intros H. pose proof (dg (Z.to_N (n + 48))) as K. rewrite Z2N.id in K by lia. replace (n + 48 - 48)%Z with n in K by lia. apply K. lia. Qed.
Lemma seq_snoc z s r c d : digit_seq JsonText.digit z s r -> JsonText.digit c d -> digit_seq JsonText.digit z (s ++ [c]) (r * 10 + d).
Proof. induction 1 as [z|z c' d' s r Hd H IH]; intros K; cbn [app]; [econstructor; [exact K | constructor]|]. econstructor; [exact Hd | now apply IH]. Qed.
Lemma natural_exists n : forall z, (0 < z <= Z.of_nat n)%Z -> exists c s, 49 <= c <= 57 /\ digit_seq JsonText.digit (Z.of_N c - 48) s z.
Proof.
  induction n as [|n IH]; intros z Hz; [lia|]. destruct (Z.ltb_spec z 10) as [Hl|Hl].
  - exists (Z.to_N (z + 48)), []. split; [lia|]. rewrite Z2N.id by lia. replace (z + 48 - 48)%Z with z by lia. constructor.
  - pose proof (Z.div_mod z 10 ltac:(lia)) as E. pose proof (Z.mod_pos_bound z 10 ltac:(lia)) as B. destruct (IH (z / 10)%Z) as [c [s [Hc H]]]; [split; [apply Z.div_str_pos; lia | lia]|].
    exists c, (s ++ [Z.to_N (z mod 10 + 48)]). split; [exact Hc|]. pose proof (seq_snoc _ _ _ _ _ H (digit_char _ B)) as K. replace (z / 10 * 10 + z mod 10)%Z with z in K by lia. exact K.
Qed.
Lemma integer_exists z : exists s, number_text JsonText.digit s (JInt z).
Proof.
  assert (G : forall y, (0 <= y)%Z -> exists s, natural JsonText.digit s y).
  { intros y Hy. destruct (Z.eq_dec y 0) as [->|Hn]; [exists [48]; constructor|]. destruct (natural_exists (Z.to_nat y) y ltac:(lia)) as [c [s [Hc H]]]. exists (c :: s). now constructor. }
  destruct (Z.leb_spec 0 z) as [H|H]; [destruct (G z H) as [s Hs]; exists s; now constructor|]. destruct (G (- z)%Z ltac:(lia)) as [s Hs]. exists (45 :: s). replace z with (- - z)%Z by lia. now constructor.
Qed.
Lemma hex_char n : (0 <= n < 16)%Z -> exists c, hex_digit c n.
Proof.
  intros H. destruct (Z.ltb_spec n 10).
  - exists (Z.to_N (n + 48)). replace n with (Z.of_N (Z.to_N (n + 48)) - 48)%Z at 2 by lia. apply hd_digit. lia.
  - exists (Z.to_N (n + 55)). replace n with (Z.of_N (Z.to_N (n + 55)) - 55)%Z at 2 by lia. apply hd_upper. lia.
Qed.
Lemma control_exists c : c < 32 -> exists a b d e, hex4 a b d e (Z.of_N c).
Proof.
  intros H. destruct (hex_char 0 ltac:(lia)) as [o Ho]. destruct (hex_char (Z.of_N c / 16)) as [x Hx]; [split; [apply Z.div_pos; lia | apply Z.div_lt_upper_bound; lia]|].
  destruct (hex_char (Z.of_N c mod 16)) as [y Hy]; [apply Z.mod_pos_bound; lia|]. exists o, o, x, y. pose proof (hx _ _ _ _ _ _ _ _ Ho Ho Hx Hy) as K.
  replace (0 * 4096 + 0 * 256 + Z.of_N c / 16 * 16 + Z.of_N c mod 16)%Z with (Z.of_N c) in K; [exact K|]. pose proof (Z.div_mod (Z.of_N c) 16 ltac:(lia)). lia.
Qed.
Lemma string_exists t : exists s, chars hex4 s t.
Proof.
  induction t as [|c t [s IH]]; [exists []; constructor|]. destruct (N.eq_dec c 34) as [->|N1]; [exists (92 :: 34 :: s); constructor; [cbn; tauto | exact IH]|].
  destruct (N.eq_dec c 92) as [->|N2]; [exists (92 :: 92 :: s); constructor; [cbn; tauto | exact IH]|]. destruct (N.ltb_spec c 32) as [L|L]; [|exists (c :: s); now constructor].
  destruct (control_exists c L) as [a [b [d [e H]]]]. exists (92 :: 117 :: a :: b :: d :: e :: s). replace c with (Z.to_N (Z.of_N c)) by lia. apply ch_unit; [exact H | lia | unfold is_high; lia | exact IH].
Qed.

Fixpoint plain_induct (P : plain -> Prop) (Hn : P PlNull) (Hb : forall b, P (PlBool b)) (Hi : forall z, P (PlInt z)) (Hf : forall t, P (PlFloat t)) (Hc : forall t, P (PlConst t)) (Hs : forall t, P (PlStr t))
  (Ha : forall l, (forall x, In x l -> P x) -> P (PlArr l)) (Ho : forall ms, (forall k x, In (k, x) ms -> P x) -> P (PlObj ms)) (v : plain) : P v.
Proof.
  destruct v as [|b|z|t|t|t|l|ms]; auto.
  - apply Ha. induction l as [|y l IH]; [intros x [] | intros x [<-|Hx]; [|exact (IH x Hx)]]. exact (plain_induct P Hn Hb Hi Hf Hc Hs Ha Ho y).
  - apply Ho. induction ms as [|[k' y] ms IH]; [intros k x [] | intros k x [E|Hx]; [|exact (IH k x Hx)]]. injection E as _ <-. exact (plain_induct P Hn Hb Hi Hf Hc Hs Ha Ho y).
Qed.
Notation rval := (value hex4 JsonText.digit False).
Lemma value_exists x : writable x -> forall p, exists s v, rval p s v /\ without_positions v = x.
Proof.
  induction x as [|b|z|t|t|t|l IH|ms IH] using plain_induct; intros H p.
  - do 2 eexists. split; [apply v_null | reflexivity].
  - destruct b; [exists [116; 114; 117; 101], (JBool true); split; [apply v_true | reflexivity] | exists [102; 97; 108; 115; 101], (JBool false); split; [apply v_false | reflexivity]].
  - destruct (integer_exists z) as [s Hs]. exists s, (JInt z). split; [now apply v_number | reflexivity].
  - inversion H; subst. exists t, (JFloat t). split; [now apply v_number | reflexivity].
  - inversion H.
  - destruct (string_exists t) as [s Hs]. exists (34 :: s ++ [34]), (JStr t). split; [now apply v_string | reflexivity].
  - inversion H as [| | | | |l' Hl E|]; subst. assert (G : l <> [] -> forall q, exists s l', items hex4 JsonText.digit False q s l' /\ map without_positions l' = l).
    { clear H p. induction l as [|x l IHl]; [congruence|]. intros _ q. destruct (IH x (or_introl eq_refl) (Hl x (or_introl eq_refl)) q) as [s [v [Hv Ev]]]. destruct l as [|y l].
      - exists ([] ++ s ++ []), [v]. split; [apply i_last; [apply white_nil | apply white_nil | exact Hv] | cbn; now rewrite Ev].
      - destruct (IHl (fun z Hz => IH z (or_intror Hz)) (fun z Hz => Hl z (or_intror Hz)) ltac:(discriminate) (S (length ([] ++ s ++ []) + q))) as [r [l' [Hi El]]].
        exists ([] ++ s ++ [] ++ 44 :: r), (v :: l'). split; [now apply i_more; try apply white_nil | cbn [map]; now rewrite Ev, El]. }
    destruct l as [|x l].
    + do 2 eexists. split; [apply (v_no_items _ _ _ p []), white_nil | reflexivity].
    + destruct (G ltac:(discriminate) (S p)) as [s [l' [Hi E]]]. do 2 eexists. split; [apply v_items; exact Hi | cbn [without_positions]; now rewrite E].
  - inversion H as [| | | | | |ms' Hl E]; subst. assert (G : ms <> [] -> forall q, exists s ms', members hex4 JsonText.digit False q s ms' /\ map (fun m => (k_text (fst m), without_positions (snd m))) ms' = ms).
    { clear H p. induction ms as [|[k x] ms IHl]; [congruence|]. intros _ q. destruct (string_exists k) as [ks Hk].
      destruct (IH k x (or_introl eq_refl) (Hl k x (or_introl eq_refl)) (length ([] ++ 34%N :: ks ++ 34%N :: [] ++ 58%N :: []) + q)%nat) as [s [v [Hv Ev]]].
      pose proof (me _ _ _ q [] ks k [] [] s [] v white_nil Hk white_nil white_nil white_nil Hv) as Hm. destruct ms as [|y ms].
      - do 2 eexists. split; [apply m_last; exact Hm | cbn; now rewrite Ev].
      - destruct (IHl (fun k' z Hz => IH k' z (or_intror Hz)) (fun k' z Hz => Hl k' z (or_intror Hz)) ltac:(discriminate) (S (length ([] ++ 34 :: ks ++ 34 :: [] ++ 58 :: [] ++ s ++ []) + q))) as [r [ms' [Hi El]]].
        do 2 eexists. split; [apply m_more; [exact Hm | exact Hi]|]. cbn [map fst snd k_text]. now rewrite Ev, El. }
    destruct ms as [|m ms].
    + do 2 eexists. split; [apply (v_no_members _ _ _ p []), white_nil | reflexivity].
    + destruct (G ltac:(discriminate) (S p)) as [s [ms' [Hi E]]]. do 2 eexists. split; [apply v_members; exact Hi | cbn [without_positions]; now rewrite E].
Qed.
Lemma document_exists x : writable x -> exists s v, denotes s v /\ without_positions v = x.
Proof. intros H. destruct (value_exists x H 0) as [s [v [Hv E]]]. exists s, v. split; [|exact E]. exists [], s, []. rewrite app_nil_r. repeat split; try apply white_nil. exact Hv. Qed.

(** A reading of hexadecimal digits; like Python's int it takes a leading plus sign. *)
Definition hex_value (c : N) : option Z :=
  if (48 <=? c) && (c <=? 57) then Some (Z.of_N c - 48)%Z else if (65 <=? c) && (c <=? 70) then Some (Z.of_N c - 55)%Z
  else if (97 <=? c) && (c <=? 102) then Some (Z.of_N c - 87)%Z else None.
Fixpoint hex_fold (z : Z) (s : text) : option Z :=
  match s with [] => Some z | c :: r => match hex_value c with Some d => hex_fold (z * 16 + d) r | None => None end end.
Definition int_hex (s : text) : option Z := match s with c :: r => if c =? 43 then hex_fold 0 r else hex_fold 0 s | [] => None end.
Lemma hex_value_iff c d : hex_digit c d -> hex_value c = Some d.
Proof.
  unfold hex_value. intros [x H|x H|x H].
  - now rewrite (proj2 (N.leb_le 48 x)), (proj2 (N.leb_le x 57)) by lia.
  - rewrite (proj2 (N.leb_gt x 57)) by lia. rewrite andb_false_r. now rewrite (proj2 (N.leb_le 65 x)), (proj2 (N.leb_le x 70)) by lia.
  - rewrite (proj2 (N.leb_gt x 57)), (proj2 (N.leb_gt x 70)) by lia. rewrite !andb_false_r. now rewrite (proj2 (N.leb_le 97 x)), (proj2 (N.leb_le x 102)) by lia.
Qed.
Lemma int_hex_reads : reads_hex int_hex.
Proof.
  intros a b c d u [a' b' c' d' x y z w Ha Hb Hc Hd]. unfold int_hex. rewrite (proj2 (N.eqb_neq a' 43)) by (destruct Ha; lia). cbn [hex_fold]. rewrite (hex_value_iff _ _ Ha), (hex_value_iff _ _ Hb), (hex_value_iff _ _ Hc), (hex_value_iff _ _ Hd). f_equal. lia.
Qed.
Definition no_other (c : N) : option Z := None.

(** What no RFC 8259 document is. *)
Lemma denotes_head s v : denotes s v -> forall c r, s = c :: r -> In c [32; 9; 10; 13; 110; 116; 102; 34; 91; 123; 45] \/ 48 <= c <= 57.
Proof.
  intros [w1 [t [w2 [-> [Hw1 [_ Hv]]]]]] c r E. destruct w1 as [|x w1].
  - assert (G : exists c' t', t = c' :: t' /\ (In c' [110; 116; 102; 34; 91; 123; 45] \/ 48 <= c' <= 57)).
    { inversion Hv; subst; try (do 2 eexists; split; [reflexivity | cbn; tauto]).
      - assert (Q : forall s0 z, natural JsonText.digit s0 z -> exists c0 s', s0 = c0 :: s' /\ 48 <= c0 <= 57) by (intros s0 z []; do 2 eexists; (split; [reflexivity | lia])).
        destruct H as [s0 z H|s0 z H|sg s0 z fr ex Hsg H Hf He Hn]; [destruct (Q _ _ H) as [c0 [s' [-> Hc]]]; do 2 eexists; split; [reflexivity | now right] | do 2 eexists; split; [reflexivity | cbn; tauto]|].
        destruct Hsg as [->| ->]; [|do 2 eexists; split; [reflexivity | cbn; tauto]]. destruct (Q _ _ H) as [c0 [s' [-> Hc]]]. do 2 eexists. split; [reflexivity | now right].
      - contradiction. }
    destruct G as [c' [t' [-> Hc]]]. injection E as <- _. cbn in Hc |- *. tauto.
  - injection E as <- _. left. specialize (Hw1 x (or_introl eq_refl)). cbn in Hw1 |- *. tauto.
Qed.
Lemma c11_constants : exists s v, decode int_hex no_other 1 s = JOk v /\ forall v', ~ denotes s v'.
Proof. exists [78; 97; 78], (JConst [78; 97; 78]). split; [reflexivity|]. intros v' H. destruct (denotes_head _ _ H _ _ eq_refl) as [K|K]; [cbn in K; intuition discriminate | lia]. Qed.
Lemma c11_type_error d int16 other : decode int16 other (S (S d)) [123; 34; 97; 34; 58; 125] = JErr JType.
Proof. reflexivity. Qed.

(** Deep documents. *)
Fixpoint arrays (n : nat) (p : nat) : jv := match n with O => JArr (S p) (2 + p) [] | S m => JArr (S p) (2 + 2 * n + p) [arrays m (S p)] end.
Fixpoint brackets (n : nat) : text := match n with O => [91; 93] | S m => 91 :: brackets m ++ [93] end.
Lemma brackets_length n : length (brackets n) = (2 * n + 2)%nat.
Proof. induction n; cbn [brackets length]; [reflexivity|]. rewrite app_length. cbn [length]. lia. Qed.
Lemma brackets_value n : forall p, rval p (brackets n) (arrays n p).
Proof.
  induction n as [|n IH]; intros p; cbn [brackets arrays]; [exact (v_no_items _ _ _ p [] white_nil)|].
  replace (2 + 2 * S n + p)%nat with (2 + length (brackets n) + p)%nat by (rewrite brackets_length; lia). apply v_items.
  pose proof (i_last _ _ _ (S p) [] (brackets n) [] (arrays n (S p)) white_nil white_nil (IH (S p))) as K. cbn [app] in K. rewrite app_nil_r in K. exact K.
Qed.
Lemma brackets_faultless n : forall p m, ~ faulty (arrays n p) m.
Proof. induction n as [|n IH]; intros p m H; inversion H; subst; [contradiction|]. match goal with K : In _ [_] |- _ => destruct K as [<-|[]] end. eapply IH; eassumption. Qed.
Lemma brackets_deep int16 other n : forall d p rest, (d <= n)%nat -> scan_once int16 other d p (brackets n ++ rest) = JErr JRec.
Proof.
  induction n as [|n IH]; intros d p rest Hd; destruct d as [|d]; try reflexivity; [lia|]. cbn [brackets app]. rewrite <- app_assoc. cbn [app scan_once]. change (91 =? 34) with false. change (91 =? 123) with false. change (91 =? 91) with true. cbv iota. unfold array.
  assert (E : forall q r, skip q (brackets n ++ r) = (q, brackets n ++ r)) by (intros q r; destruct n; reflexivity). rewrite E.
  assert (F : exists r, brackets n ++ 93 :: rest = 91 :: r) by (destruct n; cbn [brackets app]; eexists; reflexivity). destruct F as [r F]. rewrite F. change (91 =? 93) with false. cbv iota. rewrite <- F. cbn [array_loop]. rewrite IH by lia. reflexivity.
Qed.
Lemma c11_deep int16 other d : exists s v, denotes s v /\ (forall m, ~ faulty v m) /\ decode int16 other d s = JErr JRec.
Proof.
  exists (brackets d), (arrays d 0). split; [exists [], (brackets d), []; rewrite app_nil_r; repeat split; try apply white_nil; apply brackets_value|]. split; [apply brackets_faultless|].
  unfold decode. replace (bom (brackets d)) with false by (destruct d; reflexivity). replace (skip 0 (brackets d)) with (0%nat, brackets d) by (destruct d; reflexivity).
  pose proof (brackets_deep int16 other d d 0 [] (le_n d)) as K. rewrite app_nil_r in K. now rewrite K.
Qed.

(** {"a": [1, "A\n"], "b": {}} with a line break. *)
Definition doc : text := [123; 34; 97; 34; 58; 10; 91; 49; 44; 32; 34; 92; 117; 48; 48; 52; 49; 92; 110; 34; 93; 44; 34; 98; 34; 58; 123; 125; 125].
Definition doc_value : jv := JObj 1 29 [(mkKey [97] 1 2, JArr 7 21 [JInt 1; JStr [65; 10]]); (mkKey [98] 22 23, JObj 27 28 [])].
Lemma doc_decodes : decode int_hex no_other 4 doc = JOk doc_value.
Proof. reflexivity. Qed.
Lemma doc_accepted : accepted int_hex no_other doc doc_value /\ (forall m, ~ faulty doc_value m) /\ (nesting doc_value <= 4)%nat.
Proof. apply decode_iff. exact doc_decodes. Qed.
Ltac in_white := let c := fresh in intros c; cbn; tauto.
Lemma doc_denotes : denotes doc doc_value.
Proof.
  exists [], doc, []. split; [reflexivity|]. split; [apply white_nil|]. split; [apply white_nil|]. cbn [length].
  assert (Ha : rval 6 [91; 49; 44; 32; 34; 92; 117; 48; 48; 52; 49; 92; 110; 34; 93] (JArr 7 21 [JInt 1; JStr [65; 10]])).
  { apply (v_items _ _ _ 6 [49; 44; 32; 34; 92; 117; 48; 48; 52; 49; 92; 110; 34]). apply (i_more _ _ _ 7 [] [49] [] (JInt 1) [32; 34; 92; 117; 48; 48; 52; 49; 92; 110; 34]); [apply white_nil | apply white_nil | |].
    - apply v_number, nu_int. apply (na_more _ 49 [] 1); [lia | constructor].
    - apply (i_last _ _ _ 9 [32] [34; 92; 117; 48; 48; 52; 49; 92; 110; 34] []); [in_white | apply white_nil|]. apply (v_string _ _ _ 10 [92; 117; 48; 48; 52; 49; 92; 110]).
      apply (ch_unit _ 48 48 52 49 65 [92; 110] [10]); [|lia | unfold is_high; lia | apply ch_escape; [cbn; tauto | constructor]].
      apply (hx 48 48 52 49 0 0 4 1); [apply (hd_digit 48) | apply (hd_digit 48) | apply (hd_digit 52) | apply (hd_digit 49)]; lia. }
  apply (v_members _ _ _ 0 [34; 97; 34; 58; 10; 91; 49; 44; 32; 34; 92; 117; 48; 48; 52; 49; 92; 110; 34; 93; 44; 34; 98; 34; 58; 123; 125]).
  apply (m_more _ _ _ 1 [34; 97; 34; 58; 10; 91; 49; 44; 32; 34; 92; 117; 48; 48; 52; 49; 92; 110; 34; 93] (mkKey [97] 1 2) _ [34; 98; 34; 58; 123; 125]).
  - apply (me _ _ _ 1 [] [97] [97] [] [10] [91; 49; 44; 32; 34; 92; 117; 48; 48; 52; 49; 92; 110; 34; 93] [] _ white_nil); [apply ch_plain; try lia; constructor | apply white_nil | in_white | apply white_nil | exact Ha].
  - apply m_last. apply (me _ _ _ 22 [] [98] [98] [] [] [123; 125] [] _ white_nil); [apply ch_plain; try lia; constructor | apply white_nil | apply white_nil | apply white_nil|]. apply (v_no_members _ _ _ 26 []), white_nil.
Qed.

(** {"a":1,"a":2,"b":3}: the error names a, and is at the position and of the length of b. *)
Definition doc2 : text := [123; 34; 97; 34; 58; 49; 44; 34; 97; 34; 58; 50; 44; 34; 98; 34; 58; 51; 125].
Lemma c12_position int16 other : decode int16 other 2 doc2 = JErr (JE (MDuplicate [97]) 13 [98]).
Proof. reflexivity. Qed.
Definition doc2_value : jv := JObj 1 19 [(mkKey [97] 1 2, JInt 1); (mkKey [97] 7 8, JInt 2); (mkKey [98] 13 14, JInt 3)].
Lemma doc2_denotes : denotes doc2 doc2_value /\ faulty doc2_value (MDuplicate [97]).
Proof.
  split.
  - exists [], doc2, []. split; [reflexivity|]. split; [apply white_nil|]. split; [apply white_nil|]. cbn [length].
    apply (v_members _ _ _ 0 [34; 97; 34; 58; 49; 44; 34; 97; 34; 58; 50; 44; 34; 98; 34; 58; 51]).
    apply (m_more _ _ _ 1 [34; 97; 34; 58; 49] (mkKey [97] 1 2) _ [34; 97; 34; 58; 50; 44; 34; 98; 34; 58; 51]).
    { apply (me _ _ _ 1 [] [97] [97] [] [] [49] [] _ white_nil); [apply ch_plain; try lia; constructor | apply white_nil | apply white_nil | apply white_nil|]. apply v_number, nu_int. apply (na_more _ 49 [] 1); [lia | constructor]. }
    apply (m_more _ _ _ 7 [34; 97; 34; 58; 50] (mkKey [97] 7 8) _ [34; 98; 34; 58; 51]).
    { apply (me _ _ _ 7 [] [97] [97] [] [] [50] [] _ white_nil); [apply ch_plain; try lia; constructor | apply white_nil | apply white_nil | apply white_nil|]. apply v_number, nu_int. apply (na_more _ 50 [] 2); [lia | constructor]. }
    apply m_last. apply (me _ _ _ 13 [] [98] [98] [] [] [51] [] _ white_nil); [apply ch_plain; try lia; constructor | apply white_nil | apply white_nil | apply white_nil|]. apply v_number, nu_int. apply (na_more _ 51 [] 3); [lia | constructor].
  - apply fa_object. apply (fo_repeated _ [] (mkKey [97] 1 2) (JInt 1) [] (mkKey [97] 7 8) (JInt 2) [(mkKey [98] 13 14, JInt 3)]); reflexivity.
Qed.
