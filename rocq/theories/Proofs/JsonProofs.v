(** Proofs for C11 and C12: values and documents. *)
From Coq Require Import List NArith ZArith Lia Bool.
From Verif.Model Require Import Base Json.
From Verif.Spec Require Import JsonText.
From Verif.Proofs Require Import JsonLexProofs.
Import ListNotations.
Local Open Scope N_scope.
Local Notation length := List.length.

Scheme value_mut := Minimality for value Sort Prop with items_mut := Minimality for items Sort Prop
  with members_mut := Minimality for members Sort Prop with member_mut := Minimality for member Sort Prop.
Combined Scheme grammar_mut from value_mut, items_mut, members_mut, member_mut.

Fixpoint jv_induct (P : jv -> Prop) (Hn : P JNull) (Hb : forall b, P (JBool b)) (Hi : forall z, P (JInt z)) (Hf : forall t, P (JFloat t)) (Hc : forall t, P (JConst t)) (Hs : forall t, P (JStr t))
  (Ha : forall b e l, (forall x, In x l -> P x) -> P (JArr b e l)) (Ho : forall b e ms, (forall k x, In (k, x) ms -> P x) -> P (JObj b e ms)) (v : jv) : P v.
Proof.
  destruct v as [|b|z|t|t|t|b e l|b e ms]; auto.
  - apply Ha. induction l as [|y l IH]; [intros x [] | intros x [<-|Hx]; [|exact (IH x Hx)]]. exact (jv_induct P Hn Hb Hi Hf Hc Hs Ha Ho y).
  - apply Ho. induction ms as [|[k' y] ms IH]; [intros k x [] | intros k x [E|Hx]; [|exact (IH k x Hx)]]. injection E as _ <-. exact (jv_induct P Hn Hb Hi Hf Hc Hs Ha Ho y).
Qed.

(** The error for a value: that of the first object closed with a null or repeated member. *)
Fixpoint last_key (ms : list (jkey * jv)) : jkey :=
  match ms with [] => mkKey [] 0 0 | (k, _) :: r => match r with [] => k | _ => last_key r end end.
Fixpoint fault (v : jv) : option jerr :=
  match v with
  | JArr _ _ l => fold_right (fun x r => match fault x with Some e => Some e | None => r end) None l
  | JObj _ _ ms =>
      match fold_right (fun x r => match fault (snd x) with Some e => Some e | None => r end) None ms with
      | Some e => Some e
      | None => match check_duplicates [] ms with Some m => Some (JE m (k_begin (last_key ms)) (k_text (last_key ms))) | None => None end
      end
  | _ => None
  end.
Definition first_fault (l : list jv) : option jerr := fold_right (fun x r => match fault x with Some e => Some e | None => r end) None l.
Definition first_member_fault (ms : list (jkey * jv)) : option jerr := fold_right (fun x r => match fault (snd x) with Some e => Some e | None => r end) None ms.
Lemma text_eqb_eq a b : text_eqb a b = true <-> a = b.
Proof. unfold text_eqb. destruct (list_eq_dec N.eq_dec a b); split; congruence. Qed.
Lemma check_sound ms : forall seen m, check_duplicates seen ms = Some m ->
  (exists k, In (k, JNull) ms /\ m = MNull (k_text k)) \/
  (exists l1 k v l2, ms = l1 ++ (k, v) :: l2 /\ m = MDuplicate (k_text k) /\ (In (k_text k) seen \/ exists k0 v0, In (k0, v0) l1 /\ k_text k0 = k_text k)).
Proof.
  induction ms as [|[k v] ms IH]; intros seen m; cbn [check_duplicates]; [discriminate|].
  assert (G : (if existsb (text_eqb (k_text k)) seen then Some (MDuplicate (k_text k)) else check_duplicates (k_text k :: seen) ms) = Some m -> v <> JNull ->
     (exists k0, In (k0, JNull) ((k, v) :: ms) /\ m = MNull (k_text k0)) \/
     (exists l1 k0 v0 l2, (k, v) :: ms = l1 ++ (k0, v0) :: l2 /\ m = MDuplicate (k_text k0) /\ (In (k_text k0) seen \/ exists k1 v1, In (k1, v1) l1 /\ k_text k1 = k_text k0))).
  { intros E Hv. destruct (existsb (text_eqb (k_text k)) seen) eqn:Ex.
    - injection E as <-. right. exists [], k, v, ms. split; [reflexivity|]. split; [reflexivity|]. left. apply existsb_exists in Ex as [x [Hx Ex]]. apply text_eqb_eq in Ex. now subst x.
    - apply IH in E as [[k0 [H1 ->]]|[l1 [k0 [v0 [l2 [-> [-> H]]]]]]]; [left; exists k0; split; [now right | reflexivity]|]. right. exists ((k, v) :: l1), k0, v0, l2. split; [reflexivity|]. split; [reflexivity|].
      destruct H as [[H|H]|[k1 [v1 [H1 H2]]]]; [right; exists k, v; split; [now left | exact H] | left; exact H | right; exists k1, v1; split; [now right | exact H2]]. }
  destruct v as [|b|z|t|t|t|b e l|b e ms']; try (intros E; apply G; [exact E | discriminate]).
  intros [= <-]. left. exists k. split; [now left | reflexivity].
Qed.
Lemma check_none ms : forall seen, check_duplicates seen ms = None -> (forall k, ~ In (k, JNull) ms) /\
  forall l1 k v l2, ms = l1 ++ (k, v) :: l2 -> ~ In (k_text k) seen /\ forall k0 v0, In (k0, v0) l1 -> k_text k0 <> k_text k.
Proof.
  induction ms as [|[k v] ms IH]; intros seen; cbn [check_duplicates]; [intros _; split; [intros k [] | intros [|]; discriminate]|].
  assert (G : (if existsb (text_eqb (k_text k)) seen then Some (MDuplicate (k_text k)) else check_duplicates (k_text k :: seen) ms) = None -> v <> JNull ->
     (forall k0, ~ In (k0, JNull) ((k, v) :: ms)) /\ forall l1 k0 v0 l2, (k, v) :: ms = l1 ++ (k0, v0) :: l2 -> ~ In (k_text k0) seen /\ forall k1 v1, In (k1, v1) l1 -> k_text k1 <> k_text k0).
  { destruct (existsb (text_eqb (k_text k)) seen) eqn:Ex; [discriminate|]. intros E Hv. destruct (IH _ E) as [H1 H2]. split; [intros k0 [K|K]; [congruence | now apply (H1 k0)]|].
    assert (Hk : ~ In (k_text k) seen).
    { intros K. assert (existsb (text_eqb (k_text k)) seen = true) by (apply existsb_exists; exists (k_text k); split; [exact K | now apply text_eqb_eq]). congruence. }
    intros [|[k' v'] l1] k0 v0 l2 E0; [injection E0 as -> -> ->; split; [exact Hk | intros k1 v1 []]|]. injection E0 as -> -> E0. destruct (H2 _ _ _ _ E0) as [K1 K2]. split; [intros K; apply K1; now right|].
    intros k1 v1 [K|K]; [injection K as -> ->; intros K; apply K1; now left | eapply K2; eassumption]. }
  destruct v as [|b|z|t|t|t|b e l|b e ms']; try (intros E; apply G; [exact E | discriminate]). discriminate.
Qed.
Lemma check_iff ms : (check_duplicates [] ms = None <-> forall m, ~ faulty_object ms m) /\ forall m, check_duplicates [] ms = Some m -> faulty_object ms m.
Proof.
  assert (S : forall m, check_duplicates [] ms = Some m -> faulty_object ms m).
  { intros m E. apply check_sound in E as [[k [H ->]]|[l1 [k [v [l2 [-> [-> [[]|[k0 [v0 [H1 H2]]]]]]]]]]]; [now constructor|].
    apply in_split in H1 as [a [b ->]]. apply (fo_repeated _ a k0 v0 b k v l2); [now rewrite <- app_assoc | exact H2]. }
  split; [|exact S]. split.
  - intros E m H. destruct (check_none _ _ E) as [H1 H2]. destruct H as [k Hk|l1 k v l2 k' v' l3 E' Ek]; [now apply (H1 k)|].
    specialize (H2 (l1 ++ (k, v) :: l2) k' v' l3). rewrite <- app_assoc in H2. destruct (H2 E') as [_ K]. apply (K k v); [apply in_or_app; right; now left | exact Ek].
  - intros H. destruct (check_duplicates [] ms) as [m|] eqn:E; [|reflexivity]. exfalso. apply (H m). now apply S.
Qed.
Lemma fold_fault {A} (f : A -> option jerr) l : fold_right (fun x r => match f x with Some e => Some e | None => r end) None l = None <-> forall x, In x l -> f x = None.
Proof.
  induction l as [|y l IH]; cbn [fold_right]; [split; [intros _ x [] | reflexivity]|]. destruct (f y) as [e|] eqn:E.
  - split; [discriminate | intros H; pose proof (H y (or_introl eq_refl)); congruence].
  - rewrite IH. split; [intros H x [<-|Hx]; auto | intros H x Hx; apply H; now right].
Qed.
Lemma fold_fault_some {A} (f : A -> option jerr) l e : fold_right (fun x r => match f x with Some e => Some e | None => r end) None l = Some e -> exists x, In x l /\ f x = Some e.
Proof.
  induction l as [|y l IH]; cbn [fold_right]; [discriminate|]. destruct (f y) as [e'|] eqn:E; [intros [= <-]; exists y; split; [now left | exact E]|]. intros H. destruct (IH H) as [x [H1 H2]]. exists x. split; [now right | exact H2].
Qed.
Lemma fault_iff v : (fault v = None <-> forall m, ~ faulty v m) /\ forall e, fault v = Some e -> exists m p k, e = JE m p k /\ faulty v m.
Proof.
  induction v as [|b|z|t|t|t|b e l IH|b e ms IH] using jv_induct; try (split; [split; [intros _ m H; inversion H | reflexivity] | discriminate]).
  - cbn [fault]. split.
    + rewrite fold_fault. split.
      * intros H m K. inversion K; subst. rename H4 into Hin. destruct (IH v Hin) as [[I1 _] _]. eapply I1; [now apply H | eassumption].
      * intros H x Hx. apply (proj1 (IH x Hx)). intros m K. apply (H m). econstructor; eassumption.
    + intros e' H. apply fold_fault_some in H as [x [H1 H2]]. destruct (proj2 (IH x H1) _ H2) as [m [p [k [-> K]]]]. exists m, p, k. split; [reflexivity|]. econstructor; eassumption.
  - cbn [fault]. destruct (fold_right _ _ ms) as [e'|] eqn:E.
    + apply fold_fault_some in E as [[k x] [H1 H2]]. destruct (proj2 (IH k x H1) _ H2) as [m [p [k' [-> K]]]].
      assert (F : faulty (JObj b e ms) m) by (econstructor; eassumption). split; [split; [discriminate | intros H; exfalso; now apply (H m)]|]. intros e'' [= <-]. eauto.
    + destruct (check_iff ms) as [C1 C2]. destruct (check_duplicates [] ms) as [m|] eqn:Ec.
      * assert (F : faulty (JObj b e ms) m) by (constructor; now apply C2). split; [split; [discriminate | intros H; exfalso; now apply (H m)]|]. intros e'' [= <-]. eauto.
      * split; [|discriminate]. split; [|reflexivity]. intros _ m K. rewrite fold_fault in E. inversion K; subst.
        -- now apply (proj1 C1 eq_refl m).
        -- rename H3 into Hin. destruct (IH _ _ Hin) as [[I1 _] _]. apply (I1 (E _ Hin) m). assumption.
Qed.

Lemma nesting_item l v : In v l -> (nesting v <= fold_right (fun x n => Nat.max (nesting x) n) 0%nat l)%nat.
Proof. induction l as [|y l IH]; [intros []|]. cbn [fold_right]. intros [<-|H]; [lia|]. specialize (IH H). lia. Qed.
Lemma nesting_member ms k v : In (k, v) ms -> (nesting v <= fold_right (fun (x : jkey * jv) n => Nat.max (nesting (snd x)) n) 0%nat ms)%nat.
Proof. induction ms as [|y ms IH]; [intros []|]. cbn [fold_right]. intros [->|H]; [cbn [snd]; lia|]. specialize (IH H). lia. Qed.
Lemma nesting_pos v : (1 <= nesting v)%nat.
Proof. destruct v; cbn [nesting]; lia. Qed.

Section Values.
Variable int16 : text -> option Z.
Variable other : N -> option Z.
Notation H4 := (lax_hex4 int16).
Notation DG := (lax_digit other).
Notation val_ := (value H4 DG True).
Notation items_ := (items H4 DG True).
Notation members_ := (members H4 DG True).
Notation member_ := (member H4 DG True).
Notation scan := (scan_once int16 other).
Notation aloop := (array_loop).
Notation oloop := (object_loop int16).

Definition outcome {A} (f : option jerr) (x : A) : jres A := match f with Some e => JErr e | None => JOk x end.

Lemma follow_ws c r : is_ws c = true -> follow (c :: r).
Proof. intros H. apply ws_iff in H. cbn in *. intuition. Qed.
Lemma follow_white w r : white w -> follow r -> follow (w ++ r).
Proof. destruct w as [|c w]; [auto|]. intros H _. apply white_cons in H as [H _]. now apply follow_ws. Qed.
Lemma begins_app w r : begins w (w ++ r) = true.
Proof. unfold begins. rewrite firstn_app, Nat.sub_diag, firstn_all, firstn_O, app_nil_r. now apply text_eqb_eq. Qed.
Lemma begins_head c w d s : c <> d -> begins (c :: w) (d :: s) = false.
Proof. intros H. unfold begins. cbn [length firstn]. destruct (text_eqb _ _) eqn:E; [|reflexivity]. apply text_eqb_eq in E. congruence. Qed.
Lemma begins_inv w s : begins w s = true -> s = w ++ skipn (length w) s.
Proof. unfold begins. intros H. apply text_eqb_eq in H. rewrite <- H at 1. now rewrite firstn_skipn. Qed.

(** First characters of values. *)
Definition starts (c : N) : Prop := c = 110 \/ c = 116 \/ c = 102 \/ c = 34 \/ c = 91 \/ c = 123 \/ c = 45 \/ 48 <= c <= 57 \/ c = 78 \/ c = 73.
Lemma number_head s v : number_text DG s v -> exists c s', s = c :: s' /\ (c = 45 \/ 48 <= c <= 57).
Proof.
  assert (G : forall s z, natural DG s z -> exists c s', s = c :: s' /\ (c = 45 \/ 48 <= c <= 57)) by (intros s0 z []; do 2 eexists; (split; [reflexivity | right; lia])).
  intros [s0 z H|s0 z H|sg s0 z fr ex Hsg H Hf He Hn]; [now apply (G _ _ H) | do 2 eexists; split; [reflexivity | now left]|].
  destruct Hsg as [->| ->]; [|do 2 eexists; split; [reflexivity | now left]]. destruct (G _ _ H) as [c [s' [-> Hc]]]. do 2 eexists. split; [reflexivity | exact Hc].
Qed.
Lemma value_head p s v : val_ p s v -> exists c s', s = c :: s' /\ starts c.
Proof.
  unfold starts. intros H. inversion H; subst; try (do 2 eexists; split; [reflexivity | tauto]).
  - apply number_head in H0 as [c [s' [-> Hc]]]. do 2 eexists. split; [reflexivity|]. tauto.
  - destruct H1 as [<-|[<-|[<-|[]]]]; do 2 eexists; (split; [reflexivity | tauto]).
Qed.
Lemma starts_not_ws c : starts c -> is_ws c = false.
Proof. unfold starts. intros H. destruct (is_ws c) eqn:E; [|reflexivity]. apply ws_iff in E. cbn in E. exfalso. decompose [or] E; subst; try contradiction; decompose [or] H; try discriminate; lia. Qed.
Lemma starts_not c d : starts c -> d = 93 \/ d = 125 \/ d = 44 \/ d = 58 -> c <> d.
Proof. unfold starts. intros H Hd ->. decompose [or] Hd; subst; decompose [or] H; try discriminate; lia. Qed.
Lemma skip_value w p s v p0 r : white w -> val_ p0 s v -> skip p (w ++ s ++ r) = ((length w + p)%nat, s ++ r).
Proof. intros Hw Hv. apply skip_white; [exact Hw|]. apply value_head in Hv as [c [s' [-> Hc]]]. cbn. now apply starts_not_ws. Qed.
Lemma skip_char w c p r : white w -> is_ws c = false -> skip p (w ++ c :: r) = ((length w + p)%nat, c :: r).
Proof. intros Hw Hc. now apply skip_white. Qed.

Lemma scan_number d p s v rest : number_text DG s v -> follow rest -> scan (S d) p (s ++ rest) = JOk (v, (length s + p)%nat, rest).
Proof.
  intros H Hf. pose proof (number_complete int16 other _ _ _ H Hf) as E. destruct (number_head _ _ H) as [c [s' [-> Hc]]]. cbn [scan_once app] in E |- *.
  rewrite (proj2 (N.eqb_neq c 34)), (proj2 (N.eqb_neq c 123)), (proj2 (N.eqb_neq c 91)) by lia. unfold w_null, w_true, w_false. rewrite !begins_head by lia. rewrite E. reflexivity.
Qed.
Lemma scan_word d p w rest : In w words -> follow rest -> scan (S d) p (w ++ rest) = JOk (JConst w, (length w + p)%nat, rest).
Proof. intros [<-|[<-|[<-|[]]]] Hf; reflexivity. Qed.

Lemma complete_all :
  (forall p s v, val_ p s v -> forall d rest, (nesting v <= d)%nat -> follow rest -> scan d p (s ++ rest) = outcome (fault v) (v, (length s + p)%nat, rest)) /\
  (forall p s l, items_ p s l -> (length l <= length s)%nat /\ forall d fuel rest, (forall v, In v l -> (nesting v <= d)%nat) -> (length l <= fuel)%nat ->
     exists p1 c s1, skip p (s ++ 93 :: rest) = (p1, c :: s1) /\ c <> 93 /\ aloop fuel (scan d) p1 (c :: s1) = outcome (first_fault l) (l, S (length s + p), rest)) /\
  (forall p s ms, members_ p s ms -> (length ms <= length s)%nat /\ ms <> [] /\ forall d fuel rest, (forall k v, In (k, v) ms -> (nesting v <= d)%nat) -> (length ms <= fuel)%nat ->
     exists p1 s1, skip p (s ++ 125 :: rest) = (p1, 34 :: s1) /\ oloop fuel (scan d) (S p1) s1 = outcome (first_member_fault ms) (ms, last_key ms, S (length s + p), rest)) /\
  (forall p m k v, member_ p m k v -> (1 <= length m)%nat /\ forall d c rest, (nesting v <= d)%nat -> c = 44 \/ c = 125 ->
     exists p1 s1, skip p (m ++ c :: rest) = (p1, 34 :: s1) /\ forall fuel, oloop (S fuel) (scan d) (S p1) s1 =
       match fault v with
       | Some e => JErr e
       | None => if c =? 125 then JOk ([(k, v)], k, S (length m + p), rest)
                 else let (p8, s8) := skip (S (length m + p)) rest in
                      match s8 with
                      | c8 :: s9 => if c8 =? 34 then jbind (oloop fuel (scan d) (S p8) s9) (fun q => JOk ((k, v) :: fst (fst (fst q)), snd (fst (fst q)), snd (fst q), snd q)) else JErr (at_ MName p8)
                      | [] => JErr (at_ MName p8)
                      end
       end).
Proof.
  apply grammar_mut.
  - intros p d rest Hd Hf. destruct d; [cbn in Hd; lia|]. reflexivity.
  - intros p d rest Hd Hf. destruct d; [cbn in Hd; lia|]. reflexivity.
  - intros p d rest Hd Hf. destruct d; [cbn in Hd; lia|]. reflexivity.
  - intros p s v Hn d rest Hd Hf. destruct d; [pose proof (nesting_pos v); lia|]. rewrite (scan_number d p s v rest Hn Hf). destruct Hn; reflexivity.
  - intros p s _ Hw d rest Hd Hf. destruct d; [cbn in Hd; lia|]. rewrite scan_word by auto. reflexivity.
  - intros p s t Hc d rest Hd Hf. destruct d; [cbn in Hd; lia|]. cbn [app]. rewrite <- app_assoc. cbn [app scan_once]. change (34 =? 34) with true. cbv iota. rewrite (scan_complete int16 other _ _ Hc). cbn [jbind fst snd fault outcome]. f_equal. f_equal. f_equal. cbn [length]. rewrite app_length. cbn. lia.
  - intros p s Hw d rest Hd Hf. destruct d; [cbn in Hd; lia|]. cbn [app]. rewrite <- app_assoc. cbn [app scan_once]. change (91 =? 34) with false. change (91 =? 123) with false. change (91 =? 91) with true. cbv iota. unfold array. rewrite skip_char by (auto; reflexivity).
    change (93 =? 93) with true. cbv iota. cbn [fault fold_right outcome]. f_equal. f_equal. f_equal; [f_equal; lia|]. cbn [length]. rewrite app_length. cbn. lia.
  - intros p s l Hi [Hl IH] d rest Hd Hf. destruct d; [cbn in Hd; lia|]. cbn [app]. rewrite <- app_assoc. cbn [app scan_once]. change (91 =? 34) with false. change (91 =? 123) with false. change (91 =? 91) with true. cbv iota. unfold array.
    destruct (IH d (S (length (s ++ 93 :: rest))) rest) as [p1 [c [s1 [E1 [Hc E2]]]]].
    { intros v Hv. apply nesting_item in Hv. cbn [nesting] in Hd. lia. }
    { rewrite app_length. lia. }
    rewrite E1. neq ltac:(exact Hc). rewrite E2. change (fault (JArr (S p) (2 + length s + p) l)) with (first_fault l). destruct (first_fault l); cbn [outcome jbind fst snd]; [reflexivity|]. f_equal. f_equal. f_equal; [f_equal; lia|]. cbn [length]. rewrite app_length. cbn. lia.
  - intros p s Hw d rest Hd Hf. destruct d; [cbn in Hd; lia|]. cbn [app]. rewrite <- app_assoc. cbn [app scan_once]. change (123 =? 34) with false. change (123 =? 123) with true. cbv iota. unfold object. rewrite skip_char by (auto; reflexivity).
    change (125 =? 125) with true. cbv iota. cbn [fault fold_right outcome check_duplicates]. f_equal. f_equal. f_equal; [f_equal; lia|]. cbn [length]. rewrite app_length. cbn. lia.
  - intros p s ms Hm [Hl [Hne IH]] d rest Hd Hf. destruct d; [cbn in Hd; lia|]. cbn [app]. rewrite <- app_assoc. cbn [app scan_once]. change (123 =? 34) with false. change (123 =? 123) with true. cbv iota. unfold object.
    destruct (IH d (S (length (s ++ 125 :: rest))) rest) as [p1 [s1 [E1 E2]]].
    { intros k v Hv. apply nesting_member in Hv. cbn [nesting] in Hd. lia. }
    { rewrite app_length. lia. }
    rewrite E1. change (34 =? 125) with false. change (34 =? 34) with true. cbv iota. rewrite E2. cbn [fault]. change (fold_right _ None ms) with (first_member_fault ms). destruct (first_member_fault ms); cbn [outcome]; [reflexivity|].
    destruct (check_duplicates [] ms); cbn [outcome]; [reflexivity|]. f_equal. f_equal. f_equal; [f_equal; lia|]. cbn [length]. rewrite app_length. cbn. lia.
  - intros p w1 s w2 v Hw1 Hw2 Hv IH. split; [apply value_head in Hv as [c [s' [-> _]]]; rewrite !app_length; cbn; lia|]. intros d fuel rest Hd Hfu.
    destruct (value_head _ _ _ Hv) as [c [s' [Es Hc]]]. rewrite <- !app_assoc. exists (length w1 + p)%nat, c, (s' ++ w2 ++ 93 :: rest). rewrite (skip_value _ _ _ _ _ _ Hw1 Hv).
    assert (E : c :: s' ++ w2 ++ 93 :: rest = s ++ w2 ++ 93 :: rest) by now rewrite Es. rewrite E. split; [reflexivity|]. split; [apply (starts_not _ _ Hc); tauto|].
    destruct fuel as [|fuel]; [cbn in Hfu; lia|]. cbn [array_loop]. rewrite IH; [|apply Hd; now left | apply follow_white; [exact Hw2 | cbn; tauto]]. cbn [first_fault fold_right]. destruct (fault v); cbn [outcome]; [reflexivity|].
    rewrite skip_char by (auto; reflexivity). change (93 =? 93) with true. cbv iota. f_equal. f_equal. f_equal. rewrite !app_length. lia.
  - intros p w1 s w2 v r l Hw1 Hw2 Hv IH Hi [Hl IHi]. split; [apply value_head in Hv as [c [s' [-> _]]]; repeat (rewrite app_length; cbn [length]); cbn [length]; lia|]. intros d fuel rest Hd Hfu.
    destruct (value_head _ _ _ Hv) as [c [s' [Es Hc]]]. rewrite <- !app_assoc. cbn [app]. exists (length w1 + p)%nat, c, (s' ++ w2 ++ 44 :: r ++ 93 :: rest). rewrite (skip_value _ _ _ _ _ _ Hw1 Hv).
    assert (E : c :: s' ++ w2 ++ 44 :: r ++ 93 :: rest = s ++ w2 ++ 44 :: r ++ 93 :: rest) by now rewrite Es. rewrite E. split; [reflexivity|]. split; [apply (starts_not _ _ Hc); tauto|].
    destruct fuel as [|fuel]; [cbn in Hfu; lia|]. cbn [array_loop]. rewrite IH; [|apply Hd; now left | apply follow_white; [exact Hw2 | cbn; tauto]]. cbn [first_fault fold_right]. destruct (fault v); cbn [outcome]; [reflexivity|].
    rewrite skip_char by (auto; reflexivity). change (44 =? 93) with false. change (44 =? 44) with true. cbv iota.
    destruct (IHi d fuel rest) as [p1 [c1 [s1 [E1 [Hc1 E2]]]]]; [intros x Hx; apply Hd; now right | cbn in Hfu; lia|].
    replace (S (length w2 + (length s + (length w1 + p)))) with (S (length (w1 ++ s ++ w2) + p)) by (rewrite !app_length; lia). rewrite E1, E2. fold (first_fault l). destruct (first_fault l); cbn [outcome jbind fst snd]; [reflexivity|].
    f_equal. f_equal. f_equal. rewrite !app_length. cbn [length]. lia.
  - intros p m k v Hm [Hl IH]. split; [cbn; lia|]. split; [discriminate|]. intros d fuel rest Hd Hfu. destruct (IH d 125 rest) as [p1 [s1 [E1 E2]]]; [apply (Hd k); now left | now right|]. exists p1, s1. split; [exact E1|].
    destruct fuel as [|fuel]; [cbn in Hfu; lia|]. rewrite E2. cbn [first_member_fault fold_right snd]. destruct (fault v); [reflexivity|]. reflexivity.
  - intros p m k v r ms Hm [Hl IH] Hms [Hlm [Hne IHm]]. split; [rewrite app_length; cbn; lia|]. split; [discriminate|]. intros d fuel rest Hd Hfu.
    destruct (IH d 44 (r ++ 125 :: rest)) as [p1 [s1 [E1 E2]]]; [apply (Hd k); now left | now left|]. exists p1, s1. rewrite <- app_assoc. cbn [app]. split; [exact E1|].
    destruct fuel as [|fuel]; [cbn in Hfu; lia|]. rewrite E2. cbn [first_member_fault fold_right snd]. destruct (fault v); [reflexivity|]. change (44 =? 125) with false. cbv iota.
    destruct (IHm d fuel rest) as [p2 [s2 [E3 E4]]]; [intros k' x Hx; apply (Hd k'); now right | cbn in Hfu; lia|]. rewrite E3. change (34 =? 34) with true. cbv iota. rewrite E4. fold (first_member_fault ms). destruct (first_member_fault ms); cbn [outcome jbind fst snd]; [reflexivity|].
    replace (last_key ((k, v) :: ms)) with (last_key ms) by (destruct ms; [congruence | reflexivity]).
    replace (S (length (m ++ 44 :: r) + p)) with (S (length r + S (length m + p))) by (rewrite !app_length; cbn [length]; lia). reflexivity.
  - intros p w1 ks kt w2 w3 s w4 v Hw1 Hk Hw2 Hw3 Hw4 Hv IH. split; [rewrite app_length; cbn [length]; lia|]. intros d c rest Hd Hc.
    repeat (rewrite <- app_assoc; cbn [app]). do 2 eexists. split; [rewrite skip_char by (auto; reflexivity); reflexivity|]. intros fuel. cbn [object_loop pred].
    rewrite (scan_complete int16 other _ _ Hk). rewrite skip_char by (auto; reflexivity). change (58 =? 58) with true. cbv iota. rewrite (skip_value _ _ _ _ _ _ Hw3 Hv).
    replace (length w3 + S (length w2 + S (length ks + S (length w1 + p))))%nat with (length (w1 ++ 34%N :: ks ++ 34%N :: w2 ++ 58%N :: w3) + p)%nat by (repeat (rewrite app_length; cbn [length]); lia).
    rewrite IH; [|exact Hd | apply follow_white; [exact Hw4 | destruct Hc as [->| ->]; cbn; tauto]]. destruct (fault v); cbn [outcome]; [reflexivity|].
    assert (Hcw : is_ws c = false) by (destruct Hc as [->| ->]; reflexivity). rewrite skip_char by auto.
    replace (length w4 + (length s + (length (w1 ++ 34%N :: ks ++ 34%N :: w2 ++ 58%N :: w3) + p)))%nat with (length (w1 ++ 34%N :: ks ++ 34%N :: w2 ++ 58%N :: w3 ++ s ++ w4) + p)%nat by (repeat (rewrite app_length; cbn [length]); lia).
    destruct Hc as [->| ->]; reflexivity.
Qed.
Lemma items_ws w p s l : white w -> items_ (length w + p) s l -> items_ p (w ++ s) l.
Proof.
  intros Hw H. inversion H; subst.
  - rewrite app_assoc. apply i_last; [apply white_app; tauto | assumption|]. replace (length (w ++ w1) + p)%nat with (length w1 + (length w + p))%nat by (rewrite app_length; lia). assumption.
  - rewrite app_assoc. apply i_more; [apply white_app; tauto | assumption | |].
    + replace (length (w ++ w1) + p)%nat with (length w1 + (length w + p))%nat by (rewrite app_length; lia). assumption.
    + replace (length ((w ++ w1) ++ s0 ++ w2) + p)%nat with (length (w1 ++ s0 ++ w2) + (length w + p))%nat by (rewrite !app_length; lia). assumption.
Qed.
Lemma outcome_none {A} (a : A) f e : f = None -> outcome f a = JErr e -> False.
Proof. intros ->. discriminate. Qed.
Definition good (d : nat) : Prop := forall p s v p' rest, scan d p s = JOk (v, p', rest) ->
  exists t, s = t ++ rest /\ p' = (length t + p)%nat /\ val_ p t v /\ (nesting v <= d)%nat /\ fault v = None.
Lemma array_sound d : good d -> forall fuel p s l p' rest, aloop fuel (scan d) p s = JOk (l, p', rest) ->
  exists t, s = t ++ 93 :: rest /\ p' = S (length t + p) /\ items_ p t l /\ (forall v, In v l -> (nesting v <= d)%nat) /\ first_fault l = None.
Proof.
  intros G. induction fuel as [|fuel IH]; intros p s l p' rest; cbn [array_loop]; [discriminate|].
  destruct (scan d p s) as [[[v p1] s1]|e|q] eqn:E; try discriminate. apply G in E as [t [-> [-> [Hv [Hn Hf]]]]].
  destruct (skip (length t + p) s1) as [p2 s2] eqn:Es. apply skip_inv in Es as [w [-> [Hw [-> Hh]]]]. destruct s2 as [|c s3]; [discriminate|].
  destruct (N.eqb_spec c 93) as [->|N1].
  - intros [= <- <- <-]. exists (t ++ w). rewrite <- app_assoc. split; [reflexivity|]. split; [rewrite app_length; lia|]. split; [exact (i_last _ _ _ p [] t w v white_nil Hw Hv)|].
    split; [intros x [<-|[]]; exact Hn|]. cbn [first_fault fold_right]. now rewrite Hf.
  - destruct (N.eqb_spec c 44) as [->|N2]; [|discriminate]. destruct (skip (S (length w + (length t + p))) s3) as [p4 s4] eqn:Es. apply skip_inv in Es as [w' [-> [Hw' [-> Hh']]]].
    destruct (aloop fuel (scan d) _ s4) as [[[l' p5] s5]|e|q] eqn:E; cbn [jbind fst snd]; try discriminate. apply IH in E as [t' [-> [-> [Hi [Hn' Hf']]]]]. intros [= <- <- <-].
    exists (t ++ w ++ 44 :: w' ++ t'). split; [repeat (rewrite <- app_assoc; cbn [app]); reflexivity|]. split; [repeat (rewrite app_length; cbn [length]); lia|]. split.
    + apply (i_more _ _ _ p [] t w v (w' ++ t') l' white_nil Hw Hv). apply items_ws; [exact Hw'|]. cbn [app]. replace (length w' + S (length (t ++ w) + p))%nat with (length w' + S (length w + (length t + p)))%nat by (rewrite app_length; lia). exact Hi.
    + split; [intros x [<-|Hx]; auto|]. cbn [first_fault fold_right]. rewrite Hf. exact Hf'.
Qed.
Lemma object_sound d : good d -> forall fuel p s ms k p' rest, oloop fuel (scan d) (S p) s = JOk (ms, k, p', rest) ->
  exists t, 34 :: s = t ++ 125 :: rest /\ p' = S (length t + p) /\ (forall w p0, white w -> p = (length w + p0)%nat -> members_ p0 (w ++ t) ms) /\
    (forall k' v, In (k', v) ms -> (nesting v <= d)%nat) /\ first_member_fault ms = None /\ last_key ms = k /\ ms <> [].
Proof.
  intros G. induction fuel as [|fuel IH]; intros p s ms k p' rest; cbn [object_loop pred]; [discriminate|].
  destruct (scanstring int16 p (S p) s) as [[[key p1] s1]|e|q] eqn:E; try discriminate. apply (scan_sound int16 other (length s)) in E as [ks [-> [-> Hk]]]; [|lia].
  destruct (skip (S (length ks + S p)) s1) as [p2 s2] eqn:Es. apply skip_inv in Es as [w2 [-> [Hw2 [-> _]]]]. destruct s2 as [|c s3]; [discriminate|].
  destruct (N.eqb_spec c 58) as [->|N1]; [|discriminate]. destruct (skip _ s3) as [p4 s4] eqn:Es. apply skip_inv in Es as [w3 [-> [Hw3 [-> _]]]].
  destruct (scan d _ s4) as [[[v p5] s5]|e|q] eqn:E; try discriminate. apply G in E as [t [-> [-> [Hv [Hn Hf]]]]].
  destruct (skip _ s5) as [p6 s6] eqn:Es. apply skip_inv in Es as [w4 [-> [Hw4 [-> _]]]]. destruct s6 as [|c6 s7]; [discriminate|].
  set (k0 := mkKey key p (p + length key)). set (m := 34 :: ks ++ 34 :: w2 ++ 58 :: w3 ++ t ++ w4).
  assert (Hm : forall w p0, white w -> p = (length w + p0)%nat -> member_ p0 (w ++ m) k0 v).
  { intros w p0 Hw Hp. unfold k0, m. rewrite Hp. apply me; auto. replace (length (w ++ 34%N :: ks ++ 34%N :: w2 ++ 58%N :: w3) + p0)%nat with (length w3 + S (length w2 + S (length ks + S p)))%nat; [exact Hv|].
    repeat (rewrite app_length; cbn [length]). lia. }
  destruct (N.eqb_spec c6 125) as [->|N2].
  - intros [= <- <- <- <-]. exists m. split; [unfold m; repeat (cbn [app]; rewrite <- app_assoc); reflexivity|]. split; [unfold m; cbn [length]; repeat (rewrite app_length; cbn [length]); lia|].
    split; [intros w p0 Hw Hp; constructor; now apply Hm|]. split; [intros k' x [H|[]]; now injection H as <- <-|]. split; [cbn [first_member_fault fold_right snd]; now rewrite Hf|]. split; [reflexivity | discriminate].
  - destruct (N.eqb_spec c6 44) as [->|N3]; [|discriminate]. destruct (skip _ s7) as [p8 s8] eqn:Es. apply skip_inv in Es as [w5 [-> [Hw5 [-> _]]]]. destruct s8 as [|c8 s9]; [discriminate|].
    destruct (N.eqb_spec c8 34) as [->|N4]; [|discriminate]. destruct (oloop fuel (scan d) _ s9) as [[[[ms' k'] p9] s10]|e|q] eqn:E; cbn [jbind fst snd]; try discriminate. apply IH in E as [t' [E [-> [Hms [Hn' [Hf' [Hl Hne]]]]]]]. intros [= <- <- <- <-].
    exists (m ++ 44 :: w5 ++ t'). split; [unfold m; repeat (cbn [app]; rewrite <- app_assoc); cbn [app]; rewrite E; reflexivity|].
    split; [unfold m; cbn [length app]; repeat (rewrite app_length; cbn [length]); lia|].
    split.
    { intros w p0 Hw Hp. rewrite app_assoc. apply m_more; [now apply Hm|]. apply Hms; [exact Hw5|]. unfold m. rewrite app_length. cbn [length]. repeat (rewrite app_length; cbn [length]). lia. }
    split; [intros k1 x [H|Hx]; [now injection H as <- <- | now apply (Hn' k1)]|]. split; [cbn [first_member_fault fold_right snd]; rewrite Hf; exact Hf'|]. split; [destruct ms'; [congruence | exact Hl] | discriminate].
Qed.
Lemma scan_value_sound d : good d.
Proof.
  induction d as [|d IH]; intros p s v p' rest; cbn [scan_once]; [discriminate|]. destruct s as [|c s1]; [discriminate|].
  destruct (N.eqb_spec c 34) as [->|N1].
  { destruct (scanstring _ _ _ _) as [[[t p1] s2]|e|q] eqn:E; cbn [jbind fst snd]; try discriminate. apply (scan_sound int16 other (length s1)) in E as [ks [-> [-> Hk]]]; [|lia]. intros [= <- <- <-].
    exists (34 :: ks ++ [34]). split; [cbn [app]; now rewrite <- app_assoc|]. split; [cbn [length]; rewrite app_length; cbn [length]; lia|]. split; [now apply v_string|]. split; [cbn; lia | reflexivity]. }
  destruct (N.eqb_spec c 123) as [->|N2].
  { unfold object. destruct (skip (S p) s1) as [p1 s2] eqn:Es. apply skip_inv in Es as [w [-> [Hw [-> _]]]]. destruct s2 as [|c2 s3]; [discriminate|]. destruct (N.eqb_spec c2 125) as [->|N3].
    - intros [= <- <- <-]. exists (123 :: w ++ [125]). split; [cbn [app]; now rewrite <- app_assoc|]. split; [cbn [length]; rewrite app_length; cbn [length]; lia|]. split; [|split; [cbn; lia | reflexivity]].
      replace (S (length w + S p)) with (2 + length w + p)%nat by lia. now apply v_no_members.
    - destruct (N.eqb_spec c2 34) as [->|N4]; [|discriminate]. destruct (oloop _ (scan d) _ s3) as [[[[ms k] p3] s4]|e|q] eqn:E; try discriminate. destruct (check_duplicates [] ms) eqn:Ec; [discriminate|]. intros [= <- <- <-].
      apply (object_sound d IH) in E as [t [E [-> [Hms [Hn [Hf [Hl Hne]]]]]]]. rewrite E. exists (123 :: (w ++ t) ++ [125]). split; [cbn [app]; now rewrite <- !app_assoc|]. split; [cbn [length]; rewrite !app_length; cbn [length]; lia|].
      split; [|split].
      + replace (S (length t + (length w + S p))) with (2 + length (w ++ t) + p)%nat by (rewrite app_length; lia). apply v_members. apply Hms; [exact Hw | lia].
      + cbn [nesting]. apply le_n_S. clear - Hn. induction ms as [|[k v] ms IH]; cbn [fold_right snd]; [lia|]. apply Nat.max_lub; [apply (Hn k); now left | apply IH; intros k' x Hx; apply (Hn k'); now right].
      + cbn [fault]. fold (first_member_fault ms). now rewrite Hf, Ec. }
  destruct (N.eqb_spec c 91) as [->|N3].
  { unfold array. destruct (skip (S p) s1) as [p1 s2] eqn:Es. apply skip_inv in Es as [w [-> [Hw [-> _]]]].
    assert (Hloop : forall f, jbind (aloop f (scan d) (length w + S p) s2) (fun q => JOk (JArr (S p) (snd (fst q)) (fst (fst q)), snd (fst q), snd q)) = JOk (v, p', rest) ->
      exists t, 91 :: w ++ s2 = t ++ rest /\ p' = (length t + p)%nat /\ val_ p t v /\ (nesting v <= S d)%nat /\ fault v = None).
    { intros f. destruct (aloop f (scan d) _ s2) as [[[l p3] s4]|e|q] eqn:E; cbn [jbind fst snd]; try discriminate. intros [= <- <- <-]. apply (array_sound d IH) in E as [t [-> [-> [Hi [Hn Hf]]]]].
      exists (91 :: (w ++ t) ++ [93]). split; [cbn [app]; now rewrite <- !app_assoc|]. split; [cbn [length]; rewrite !app_length; cbn [length]; lia|]. split; [|split].
      + replace (S (length t + (length w + S p))) with (2 + length (w ++ t) + p)%nat by (rewrite app_length; lia). apply v_items. now apply items_ws.
      + cbn [nesting]. apply le_n_S. clear - Hn. induction l as [|v l IH]; cbn [fold_right]; [lia|]. apply Nat.max_lub; [apply Hn; now left | apply IH; intros x Hx; apply Hn; now right].
      + exact Hf. }
    destruct s2 as [|c2 s3]; [apply Hloop|]. destruct (N.eqb_spec c2 93) as [->|N4]; [|apply Hloop].
    intros [= <- <- <-]. exists (91 :: w ++ [93]). split; [cbn [app]; now rewrite <- app_assoc|]. split; [cbn [length]; rewrite app_length; cbn [length]; lia|]. split; [|split; [cbn; lia | reflexivity]].
    replace (S (length w + S p)) with (2 + length w + p)%nat by lia. now apply v_no_items. }
  assert (W : forall w x n, begins w (c :: s1) = true -> length w = n -> val_ p w x -> (nesting x <= S d)%nat -> fault x = None -> JOk (x, (n + p)%nat, skipn n (c :: s1)) = JOk (v, p', rest) ->
    exists t, c :: s1 = t ++ rest /\ p' = (length t + p)%nat /\ val_ p t v /\ (nesting v <= S d)%nat /\ fault v = None).
  { intros w x n Hb <- Hx Hn Hf [= <- <- <-]. exists w. split; [now apply begins_inv|]. auto. }
  destruct (begins w_null (c :: s1)) eqn:B1; [apply (W w_null JNull); auto; [apply v_null | cbn; lia]|].
  destruct (begins w_true (c :: s1)) eqn:B2; [apply (W w_true (JBool true)); auto; [apply v_true | cbn; lia]|].
  destruct (begins w_false (c :: s1)) eqn:B3; [apply (W w_false (JBool false)); auto; [apply v_false | cbn; lia]|].
  destruct (number other (c :: s1)) as [[[x t] r]|] eqn:En.
  { apply number_sound in En as [E Hx]. intros [= <- <- <-]. exists t. split; [exact E|]. split; [reflexivity|]. split; [now apply v_number|]. destruct Hx; (split; [cbn; lia | reflexivity]). }
  destruct (begins w_nan (c :: s1)) eqn:B4; [apply (W w_nan (JConst w_nan)); auto; [apply v_constant; [exact I | cbn; tauto] | cbn; lia]|].
  destruct (begins w_inf (c :: s1)) eqn:B5; [apply (W w_inf (JConst w_inf)); auto; [apply v_constant; [exact I | cbn; tauto] | cbn; lia]|].
  destruct (begins w_ninf (c :: s1)) eqn:B6; [apply (W w_ninf (JConst w_ninf)); auto; [apply v_constant; [exact I | cbn; tauto] | cbn; lia]|]. discriminate.
Qed.

(** The fuel never runs out. *)
Lemma string_fuel n : forall s begin p, (length s <= n)%nat -> scanstring int16 begin p s <> JErr JFuel.
Proof.
  induction n as [|n IH]; intros [|c s] begin p Hn; cbn in Hn; try lia; cbn [scanstring]; try discriminate.
  assert (C1 : forall ch r, (forall f, r = JErr f -> f <> JFuel) -> cons_char ch r <> JErr JFuel) by (intros ch [?|f|?] Hr; cbn; try discriminate; intros [= ->]; now apply (Hr JFuel)).
  assert (C2 : forall u r, (forall f, r = JErr f -> f <> JFuel) -> cons_chr u r <> JErr JFuel) by (intros u [?|f|?] Hr; unfold cons_chr; destruct (_ <? _)%Z; cbn; try discriminate; intros [= ->]; now apply (Hr JFuel)).
  assert (R : forall s' b q, (length s' <= n)%nat -> forall f, scanstring int16 b q s' = JErr f -> f <> JFuel) by (intros s' b q Hl f Ef ->; now apply (IH s' b q)).
  destruct (c =? 34); [discriminate|]. destruct (c =? 92).
  - destruct s as [|e s]; [discriminate|]. cbn in Hn. destruct (e =? 117).
    + destruct s as [|h1 [|h2 [|h3 [|h4 s6]]]]; try discriminate. cbn in Hn. destruct (unicode_escape int16 h1 h2 h3 h4); [|discriminate].
      assert (D : cons_chr z (scanstring int16 begin (6 + p) s6) <> JErr JFuel) by (apply C2, R; lia).
      destruct s6 as [|c' [|e' s8]]; try exact D. destruct (high z && (c' =? 92) && (e' =? 117)); [|exact D].
      destruct s8 as [|g1 [|g2 [|g3 [|g4 s12]]]]; try discriminate. destruct (unicode_escape int16 g1 g2 g3 g4); [|discriminate]. destruct (low z0); [|exact D]. apply C2, R. cbn in Hn. lia.
    + destruct (backslash e); [apply C1, R; lia | discriminate].
  - destruct (c <? 32); [discriminate|]. apply C1, R. lia.
Qed.
Lemma skip_shorter p s p1 s1 : skip p s = (p1, s1) -> (length s1 <= length s)%nat.
Proof. intros H. apply skip_inv in H as [w [-> _]]. rewrite app_length. lia. Qed.
Lemma scan_fuel d : forall p s, scan d p s <> JErr JFuel.
Proof.
  induction d as [|d IH]; intros p s; cbn [scan_once]; [discriminate|]. destruct s as [|c s1]; [discriminate|].
  assert (A : forall fuel q s', (length s' < fuel)%nat -> aloop fuel (scan d) q s' <> JErr JFuel).
  { induction fuel as [|fuel IHf]; intros q s' Hl; [lia|]. cbn [array_loop]. destruct (scan d q s') as [[[v p1] s2]|e|x] eqn:E; [|intros [= ->]; now apply (IH q s') | discriminate].
    apply scan_value_sound in E as [t [-> _]]. rewrite app_length in Hl. destruct (skip p1 s2) as [p2 s3] eqn:Es. apply skip_shorter in Es. destruct s3 as [|c3 s4]; [discriminate|]. cbn in Es.
    destruct (c3 =? 93); [discriminate|]. destruct (c3 =? 44); [|discriminate]. destruct (skip (S p2) s4) as [p4 s5] eqn:Es'. apply skip_shorter in Es'.
    specialize (IHf p4 s5 ltac:(lia)). destruct (aloop fuel (scan d) p4 s5); cbn; congruence. }
  assert (O : forall fuel q s', (length s' < fuel)%nat -> oloop fuel (scan d) q s' <> JErr JFuel).
  { induction fuel as [|fuel IHf]; intros q s' Hl; [lia|]. cbn [object_loop]. destruct (scanstring int16 (pred q) q s') as [[[k p1] s2]|e|x] eqn:E; [|intros [= ->]; now apply (string_fuel (length s') s' (pred q) q) | discriminate].
    apply (scan_sound int16 other (length s')) in E as [ks [-> _]]; [|lia]. rewrite app_length in Hl. cbn in Hl.
    destruct (skip p1 s2) as [p2 s3] eqn:Es. apply skip_shorter in Es. destruct s3 as [|c3 s4]; [discriminate|]. cbn in Es. destruct (c3 =? 58); [|discriminate]. destruct (skip (S p2) s4) as [p4 s5] eqn:Es'. apply skip_shorter in Es'.
    destruct (scan d p4 s5) as [[[v p6] s6]|e|x] eqn:E; [|intros [= ->]; now apply (IH p4 s5) | discriminate]. apply scan_value_sound in E as [t [-> _]]. rewrite app_length in Es'.
    destruct (skip p6 s6) as [p7 s7] eqn:Es2. apply skip_shorter in Es2. destruct s7 as [|c7 s8]; [discriminate|]. cbn in Es2. destruct (c7 =? 125); [discriminate|]. destruct (c7 =? 44); [|discriminate].
    destruct (skip (S p7) s8) as [p9 s9] eqn:Es3. apply skip_shorter in Es3. destruct s9 as [|c9 s10]; [discriminate|]. cbn in Es3. destruct (c9 =? 34); [|discriminate].
    specialize (IHf (S p9) s10 ltac:(lia)). destruct (oloop fuel (scan d) (S p9) s10); cbn; congruence. }
  destruct (c =? 34). { pose proof (string_fuel (length s1) s1 p (S p) ltac:(lia)). destruct (scanstring int16 p (S p) s1); cbn; congruence. }
  destruct (c =? 123).
  { unfold object. destruct (skip (S p) s1) as [p1 s2] eqn:Es. apply skip_shorter in Es. destruct s2 as [|c2 s3]; [discriminate|]. cbn in Es. destruct (c2 =? 125); [discriminate|]. destruct (c2 =? 34); [|discriminate].
    specialize (O (S (length s1)) (S p1) s3 ltac:(lia)). destruct (oloop _ (scan d) (S p1) s3) as [[[[ms k] p3] s4]|e|q]; try congruence. destruct (check_duplicates [] ms); discriminate. }
  destruct (c =? 91).
  { unfold array. destruct (skip (S p) s1) as [p1 s2] eqn:Es. apply skip_shorter in Es. specialize (A (S (length s1)) p1 s2 ltac:(lia)).
    assert (B : jbind (aloop (S (length s1)) (scan d) p1 s2) (fun q => JOk (JArr (S p) (snd (fst q)) (fst (fst q)), snd (fst q), snd q)) <> JErr JFuel) by (destruct (aloop _ (scan d) p1 s2); cbn; congruence).
    destruct s2 as [|c2 s3]; [exact B|]. destruct (c2 =? 93); [discriminate | exact B]. }
  destruct (begins w_null _); [discriminate|]. destruct (begins w_true _); [discriminate|]. destruct (begins w_false _); [discriminate|]. destruct (number other _) as [[[x t] r]|]; [discriminate|].
  destruct (begins w_nan _); [discriminate|]. destruct (begins w_inf _); [discriminate|]. destruct (begins w_ninf _); discriminate.
Qed.

(** Documents. *)
Lemma decode_outcome d s v : accepted int16 other s v -> (nesting v <= d)%nat -> decode int16 other d s = outcome (fault v) v.
Proof.
  intros [[w1 [t [w2 [-> [Hw1 [Hw2 Hv]]]]]] Hb] Hd.
  assert (E : match scan d (length w1) (t ++ w2) with JStop q => JErr (JStd MValue q) | JErr e => JErr e | JOk (v, p2, s2) => let (p3, s3) := skip p2 s2 in match s3 with [] => JOk v | _ => JErr (JStd MExtra p3) end end = outcome (fault v) v).
  { replace (length w1) with (length w1 + 0)%nat in Hv by lia. rewrite (proj1 complete_all) with (v := v); [|replace (length w1 + 0)%nat with (length w1) in Hv by lia; exact Hv | exact Hd | replace w2 with (w2 ++ []) by apply app_nil_r; apply follow_white; [exact Hw2 | exact I]].
    destruct (fault v); cbn [outcome]; [reflexivity|]. pose proof (skip_white w2 (length t + length w1) [] Hw2 I) as K. rewrite app_nil_r in K. now rewrite K. }
  rewrite <- E. clear E. pose proof (skip_white w1 0 (t ++ w2) Hw1) as K.
  assert (Hh : no_white_head (t ++ w2)) by (apply value_head in Hv as [c [t' [-> Hc]]]; cbn; now apply starts_not_ws). specialize (K Hh). replace (length w1 + 0)%nat with (length w1) in K by lia.
  unfold decode. destruct (bom (w1 ++ t ++ w2)) eqn:B; [exfalso; destruct (w1 ++ t ++ w2) as [|c s']; [discriminate|]; apply N.eqb_eq in B; subst c; now apply (Hb s')|].
  rewrite K. reflexivity.
Qed.
Lemma decode_sound d s v : decode int16 other d s = JOk v -> accepted int16 other s v /\ (nesting v <= d)%nat /\ fault v = None.
Proof.
  unfold decode. destruct (bom s) eqn:B; [discriminate|]. destruct (skip 0 s) as [p s1] eqn:Es. apply skip_inv in Es as [w1 [-> [Hw1 [-> _]]]]. replace (length w1 + 0)%nat with (length w1) by lia.
  destruct (scan d (length w1) s1) as [[[v' p2] s2]|e|q] eqn:E; try discriminate. apply scan_value_sound in E as [t [-> [-> [Hv [Hn Hf]]]]].
  destruct (skip _ s2) as [p3 s3] eqn:Es. apply skip_inv in Es as [w2 [-> [Hw2 [-> _]]]]. destruct s3 as [|c s3]; [|discriminate]. intros [= <-]. split; [|auto]. rewrite app_nil_r. split.
  - exists w1, t, w2. auto.
  - intros r Er. rewrite app_nil_r, Er in B. discriminate.
Qed.
Lemma decode_iff d s v : decode int16 other d s = JOk v <-> accepted int16 other s v /\ (forall m, ~ faulty v m) /\ (nesting v <= d)%nat.
Proof.
  split.
  - intros H. apply decode_sound in H as [H1 [H2 H3]]. split; [exact H1|]. split; [now apply fault_iff | exact H2].
  - intros [H1 [H2 H3]]. rewrite (decode_outcome d s v H1 H3). apply (proj1 (fault_iff v)) in H2. now rewrite H2.
Qed.
Lemma decode_faulty d s v m : accepted int16 other s v -> (nesting v <= d)%nat -> faulty v m -> exists m' p k, decode int16 other d s = JErr (JE m' p k) /\ faulty v m'.
Proof.
  intros H1 H2 H3. rewrite (decode_outcome d s v H1 H2). destruct (fault v) as [e|] eqn:E; [|exfalso; now apply (proj1 (proj1 (fault_iff v)) E m)].
  apply (proj2 (fault_iff v)) in E as [m' [p [k [-> H]]]]. exists m', p, k. now split.
Qed.
Lemma decode_fuel d s : decode int16 other d s <> JErr JFuel.
Proof.
  unfold decode. destruct (bom s); [discriminate|]. destruct (skip 0 s) as [p s1]. pose proof (scan_fuel d p s1). destruct (scan d p s1) as [[[v p2] s2]|e|q]; try congruence. destruct (skip p2 s2) as [p3 [|c s3]]; discriminate.
Qed.
Lemma one_value s v v' : accepted int16 other s v -> accepted int16 other s v' -> (forall m, ~ faulty v m) -> v' = v.
Proof.
  intros H H' Hf. set (d := Nat.max (nesting v) (nesting v')). pose proof (decode_outcome d s v H ltac:(unfold d; lia)) as E. pose proof (decode_outcome d s v' H' ltac:(unfold d; lia)) as E'.
  apply (proj1 (fault_iff v)) in Hf. rewrite Hf in E. cbn [outcome] in E. rewrite E in E'. destruct (fault v'); cbn [outcome] in E'; congruence.
Qed.

(** RFC 8259 documents are among the accepted ones. *)
Hypothesis hex : reads_hex int16.
Lemma hex_digit_not_x c x : hex_digit c x -> c <> 120 /\ c <> 88.
Proof. intros []; lia. Qed.
Lemma hex_nonneg a b c d u : hex4 a b c d u -> (0 <= u)%Z.
Proof. intros []. repeat match goal with H : hex_digit _ _ |- _ => destruct H end; lia. Qed.
Lemma hex_lax a b c d u : hex4 a b c d u -> H4 a b c d u.
Proof. intros H. pose proof (hex _ _ _ _ _ H) as E. destruct H as [a b c d x y z w Ha Hb Hc Hd]. destruct (hex_digit_not_x _ _ Hb). repeat split; assumption. Qed.
Lemma chars_lax s t : chars hex4 s t -> chars H4 s t.
Proof.
  induction 1 as [|c s t N1 N2 N3 H IH|e c s t He H IH|a b c d u s t Hu H0 Hs H IH|a b c d u a' b' c' d' v s t Hu Hh Hv Hl H IH].
  - constructor.
  - now constructor.
  - now constructor.
  - apply ch_unit; [now apply hex_lax | exact H0 | | exact IH]. intros Hh a' b' c' d' v s' -> [_ [_ Ev]]. inversion H; subst.
    + congruence.
    + exfalso. match goal with K : simple_escape 117 _ |- _ => exact (escape_u other _ K) end.
    + match goal with K : hex4 a' b' c' d' ?w |- _ => rewrite (hex _ _ _ _ _ K) in Ev; injection Ev as <-; exact (Hs Hh _ _ _ _ _ _ eq_refl K) end.
    + match goal with K : hex4 a' b' c' d' ?w |- _ => rewrite (hex _ _ _ _ _ K) in Ev; injection Ev as <-; exact (Hs Hh _ _ _ _ _ _ eq_refl K) end.
  - now apply ch_pair; try apply hex_lax.
Qed.
Lemma digit_lax c d : JsonText.digit c d -> DG c d.
Proof. now left. Qed.
Lemma seq_lax z s r : digit_seq JsonText.digit z s r -> digit_seq DG z s r.
Proof. induction 1 as [z|z c d s r Hd H IH]; [constructor|]. exact (ds_cons _ z c d s r (digit_lax c d Hd) IH). Qed.
Lemma digits_lax s : all_digits JsonText.digit s -> all_digits DG s.
Proof. intros [z H]. exists z. now apply seq_lax. Qed.
Lemma natural_lax s z : natural JsonText.digit s z -> natural DG s z.
Proof. intros []; [constructor|]. constructor; [assumption | now apply seq_lax]. Qed.
Lemma number_lax s v : number_text JsonText.digit s v -> number_text DG s v.
Proof.
  intros [s0 z H|s0 z H|sg s0 z fr ex Hsg H Hf He Hn].
  - apply nu_int. now apply natural_lax.
  - apply nu_negative. now apply natural_lax.
  - apply (nu_float _ sg s0 z fr ex Hsg); [now apply natural_lax | | | exact Hn].
    + destruct Hf; constructor; [assumption | now apply digits_lax].
    + destruct He; constructor; try assumption. now apply digits_lax.
Qed.
Lemma value_lax :
  (forall p s v, value hex4 JsonText.digit False p s v -> val_ p s v) /\ (forall p s l, items hex4 JsonText.digit False p s l -> items_ p s l) /\
  (forall p s ms, members hex4 JsonText.digit False p s ms -> members_ p s ms) /\ (forall p m k v, member hex4 JsonText.digit False p m k v -> member_ p m k v).
Proof.
  apply grammar_mut; intros.
  - apply v_null.
  - apply v_true.
  - apply v_false.
  - apply v_number. now apply number_lax.
  - contradiction.
  - apply v_string. now apply chars_lax.
  - now apply v_no_items.
  - now apply v_items.
  - now apply v_no_members.
  - now apply v_members.
  - now apply i_last.
  - now apply i_more.
  - now apply m_last.
  - now apply m_more.
  - apply me; try assumption. now apply chars_lax.
Qed.
Lemma denotes_accepted s v : denotes s v -> accepted int16 other s v.
Proof.
  intros [w1 [t [w2 [-> [Hw1 [Hw2 Hv]]]]]]. apply value_lax in Hv. split; [exists w1, t, w2; auto|].
  intros r E. destruct w1 as [|c w1].
  - apply value_head in Hv as [c [t' [-> Hc]]]. injection E as -> _. unfold starts in Hc. decompose [or] Hc; try discriminate; lia.
  - injection E as -> _. apply white_cons in Hw1 as [K _]. discriminate.
Qed.
Lemma denotes_decode d s v : denotes s v -> (forall m, ~ faulty v m) -> (nesting v <= d)%nat -> decode int16 other d s = JOk v.
Proof. intros. apply decode_iff. split; [now apply denotes_accepted | auto]. Qed.
Lemma denotes_faulty d s v m : denotes s v -> (nesting v <= d)%nat -> faulty v m -> exists m' p k, decode int16 other d s = JErr (JE m' p k) /\ faulty v m'.
Proof. intros H. apply decode_faulty. now apply denotes_accepted. Qed.
End Values.

(** Positions. *)
Lemma mark_app a : forall b l c, mark (a ++ b) (length a) l c = mark a (length a) l c.
Proof. induction a as [|x a IH]; intros b l c; cbn [app length mark]; [destruct b; reflexivity|]. destruct (x =? 10); apply IH. Qed.
Lemma mark_snoc a x : forall l c, mark (a ++ [x]) (length (a ++ [x])) l c = if x =? 10 then ((fst (mark a (length a) l c) + 1)%Z, 1%Z) else (fst (mark a (length a) l c), (snd (mark a (length a) l c) + 1)%Z).
Proof.
  induction a as [|y a IH]; intros l c; cbn [app length mark]; [destruct (x =? 10); reflexivity|]. destruct (y =? 10); apply IH.
Qed.
Lemma line_column_exists a : exists l c, line_column a l c /\ mark a (length a) 0 1 = (l, c).
Proof.
  induction a as [|x a IH] using rev_ind.
  - exists 0%Z, 1%Z. split; [|reflexivity]. apply lc_first. intros [].
  - destruct IH as [l [c [H E]]]. rewrite mark_snoc, E. cbn [fst snd]. destruct (N.eqb_spec x 10) as [->|Hx].
    + exists (l + 1)%Z, 1%Z. split; [|reflexivity]. apply (lc_later a [] l c); [intros [] | exact H].
    + exists l, (c + 1)%Z. split; [|reflexivity]. destruct H as [s H|s r l c H1 H2].
      * replace (1 + Z.of_nat (length s) + 1)%Z with (1 + Z.of_nat (length (s ++ [x])))%Z by (rewrite app_length; cbn [length]; lia). apply lc_first. rewrite in_app_iff. cbn. intros [K|[K|[]]]; auto.
      * replace (1 + Z.of_nat (length r) + 1)%Z with (1 + Z.of_nat (length (r ++ [x])))%Z by (rewrite app_length; cbn [length]; lia). rewrite <- app_assoc. cbn [app]. apply (lc_later s (r ++ [x]) l c); [|exact H2]. rewrite in_app_iff. cbn. intros [K|[K|[]]]; auto.
Qed.
Lemma position_mark_spec s a b : s = a ++ b -> exists l c, line_column a l c /\ position_mark s (length a) = (l, c).
Proof. intros ->. unfold position_mark. rewrite mark_app. apply line_column_exists. Qed.
