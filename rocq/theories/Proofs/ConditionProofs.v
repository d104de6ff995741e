(** C15: the truth value computed for one condition. *)
From Coq Require Import Lia.
From Verif.Model Require Import Base Helpers Conditions.
From Verif.Spec Require Import Truth.
From Verif.Proofs Require Import BaseFacts.

Scheme truth_mut := Induction for truth Sort Prop
  with truths_mut := Induction for truths Sort Prop.
Combined Scheme truth_truths_ind from truth_mut, truths_mut.

Definition infl_has (i : influenced) (k x : string) : Prop := exists set, assoc k i = Some set /\ In x set.

Lemma In_set_add x y s : In x (set_add y s) <-> x = y \/ In x s.
Proof.
  unfold set_add. destruct (smem y s) eqn:E.
  - apply smem_iff in E. intuition (subst; auto).
  - rewrite in_app_iff. cbn. intuition.
Qed.
Lemma In_fold_add x ys : forall s, In x (fold_left (fun s y => set_add y s) ys s) <-> In x s \/ In x ys.
Proof.
  induction ys as [|y ys IH]; intros s; cbn [fold_left In]; [intuition|]. rewrite IH, In_set_add. intuition.
Qed.
Lemma NoDup_set_add y s : NoDup s -> NoDup (set_add y s).
Proof.
  intros H. unfold set_add. destruct (smem y s) eqn:E; [exact H|]. apply smem_false in E.
  apply NoDup_rev in H. rewrite <- (rev_involutive (s ++ [y])), rev_app_distr. apply NoDup_rev. cbn. constructor; [|exact H].
  now rewrite <- in_rev.
Qed.
Lemma NoDup_fold_add ys : forall s, NoDup s -> NoDup (fold_left (fun s y => set_add y s) ys s).
Proof. induction ys; intros s H; cbn [fold_left]; [exact H|]. apply IHys. now apply NoDup_set_add. Qed.

Lemma infl_add_has k xs d k' x : infl_has (infl_add k xs d) k' x <-> infl_has d k' x \/ (k' = k /\ In x xs).
Proof.
  unfold infl_has, infl_add. destruct (String.eqb_spec k' k) as [->|Hn].
  - rewrite assoc_set_same. split.
    + intros [set [[= <-] H]]. apply In_fold_add in H as [H|H]; [|now right].
      destruct (assoc k d) as [o|]; [left; eauto | destruct H].
    + intros H. eexists. split; [reflexivity|]. apply In_fold_add. destruct H as [[set [-> H]]|[_ H]]; auto.
  - rewrite assoc_set_other by exact Hn. intuition.
Qed.
Lemma infl_add_keys k xs d k' : In k' (keys (infl_add k xs d)) <-> In k' (keys d) \/ k' = k.
Proof. unfold infl_add. rewrite keys_set_in. intuition. Qed.
Lemma infl_merge_has sub : forall d k x, NoDup (keys sub) ->
  (infl_has (infl_merge sub d) k x <-> infl_has d k x \/ infl_has sub k x).
Proof.
  unfold infl_merge. induction sub as [|[k1 xs] sub IH]; intros d k x Hn; cbn [fold_left fst snd].
  - split; [auto|]. intros [H|[set [H _]]]; [exact H | discriminate].
  - inversion Hn as [|? ? Hk Hn']; subst. rewrite IH by exact Hn'. rewrite infl_add_has.
    assert (infl_has ((k1, xs) :: sub) k x <-> (k = k1 /\ In x xs) \/ infl_has sub k x); [|tauto].
    unfold infl_has. cbn [assoc]. apply assoc_None in Hk. destruct (String.eqb_spec k k1) as [->|Hne].
    + rewrite Hk. split; [intros [set [[= <-] H]]; auto | intros [[_ H]|[set [H _]]]; [eauto | discriminate]].
    + intuition congruence.
Qed.
Lemma infl_merge_keys sub : forall d k, In k (keys (infl_merge sub d)) <-> In k (keys d) \/ In k (keys sub).
Proof.
  unfold infl_merge. induction sub as [|[k1 xs] sub IH]; intros d k; cbn [fold_left fst snd].
  - cbn. intuition.
  - rewrite IH, infl_add_keys. cbn. intuition.
Qed.
Lemma infl_add_NoDup k xs d : NoDup (keys d) -> NoDup (keys (infl_add k xs d)).
Proof. apply keys_set_NoDup. Qed.
Lemma infl_merge_NoDup sub : forall d, NoDup (keys d) -> NoDup (keys (infl_merge sub d)).
Proof.
  unfold infl_merge. induction sub as [|[k1 xs] sub IH]; intros d H; cbn [fold_left]; [exact H|].
  apply IH. now apply infl_add_NoDup.
Qed.

(** Every entry of an influenced table is a non-empty set without repeats. *)
Definition infl_ok (i : influenced) : Prop := NoDup (keys i) /\ forall k s, assoc k i = Some s -> s <> [] /\ NoDup s.
Lemma infl_add_ok k xs d : xs <> [] -> infl_ok d -> infl_ok (infl_add k xs d).
Proof.
  intros Hx [H1 H2]. split; [now apply infl_add_NoDup|]. intros k' s. unfold infl_add.
  destruct (String.eqb_spec k' k) as [->|Hn].
  - rewrite assoc_set_same. intros [= <-]. split.
    + destruct xs as [|x xs]; [congruence|]. intros E.
      assert (In x []) as []. rewrite <- E. apply In_fold_add. right. now left.
    + apply NoDup_fold_add. destruct (assoc k d) as [o|] eqn:E; [now apply H2 in E | constructor].
  - rewrite assoc_set_other by exact Hn. apply H2.
Qed.
Lemma infl_merge_ok sub : forall d, infl_ok sub -> infl_ok d -> infl_ok (infl_merge sub d).
Proof.
  unfold infl_merge. induction sub as [|[k1 xs] sub IH]; intros d [Hs1 Hs2] Hd; cbn [fold_left fst snd]; [exact Hd|].
  apply IH.
  - inversion Hs1; subst. split; [assumption|]. intros k s Hk. apply (Hs2 k s). cbn [assoc].
    destruct (String.eqb_spec k k1) as [->|]; [|exact Hk]. exfalso. apply assoc_None in H1. unfold keys in *. congruence.
  - apply infl_add_ok; [|exact Hd]. apply (Hs2 k1 xs). cbn. now rewrite String.eqb_refl.
Qed.

Section Hash.
Variable hash : val -> string.
Variable template : val.
Variable defs : list (string * val).
Hypothesis defs_of : section_of "Conditions" template defs.

Lemma value_of_named n v : assoc n defs = Some v -> condition_value template (VStr n) = Ok v.
Proof.
  destruct defs_of as [d [-> [H|[H ->]]]]; intros Hn; [|discriminate].
  unfold condition_value, vget_def. rewrite H. cbn [bind]. now rewrite Hn.
Qed.

Lemma literal_value l s : literal l s -> equals_value hash l = Some (mkEV None (Some s)) /\ ~ digest s.
Proof. intros H. inversion H; subst; auto. Qed.

Lemma equals_of_left k a l s : literal l s ->
  equals_of hash (VList [VDict [(k, a)]; l]) = Some (mkEq (mkEV (Some (hash (VDict [(k, a)]))) None) (mkEV None (Some s))).
Proof. intros H. apply literal_value in H as [H _]. cbn [equals_of]. cbn [equals_value]. now rewrite H. Qed.
Lemma equals_of_right k a l s : literal l s ->
  equals_of hash (VList [l; VDict [(k, a)]]) = Some (mkEq (mkEV None (Some s)) (mkEV (Some (hash (VDict [(k, a)]))) None)).
Proof. intros H. apply literal_value in H as [H _]. cbn [equals_of]. rewrite H. reflexivity. Qed.

Definition digest_keys (sc : list (string * string)) : Prop := forall k x, In (k, x) sc -> digest k.

Lemma ev_is_fn h k : ev_is (mkEV (Some h) None) k = String.eqb k h.
Proof. unfold ev_is. cbn. now rewrite orb_false_r. Qed.
Lemma ev_is_str s k : ev_is (mkEV None (Some s)) k = String.eqb k s.
Proof. reflexivity. Qed.

Lemma equals_test_left sc h s x : digest_keys sc -> ~ digest s -> assoc h sc = Some x ->
  equals_test (mkEq (mkEV (Some h) None) (mkEV None (Some s))) sc = Some (String.eqb x s).
Proof.
  intros Hk Hs. induction sc as [|[k y] sc IH]; cbn [assoc equals_test]; [discriminate|].
  cbn [eq_left eq_right]. rewrite ev_is_fn, !ev_is_str. rewrite (String.eqb_sym h k). destruct (String.eqb k h) eqn:E.
  - intros [= ->]. reflexivity.
  - intros H. destruct (String.eqb_spec k s) as [->|_].
    + exfalso. apply Hs. apply (Hk s y). now left.
    + apply IH; [|exact H]. intros k' x' Hin. apply (Hk k' x'). now right.
Qed.
Lemma equals_test_right sc h s x : digest_keys sc -> ~ digest s -> assoc h sc = Some x ->
  equals_test (mkEq (mkEV None (Some s)) (mkEV (Some h) None)) sc = Some (String.eqb x s).
Proof.
  intros Hk Hs. induction sc as [|[k y] sc IH]; cbn [assoc equals_test]; [discriminate|].
  cbn [eq_left eq_right]. rewrite !ev_is_fn, !ev_is_str. destruct (String.eqb_spec k s) as [->|_].
  - exfalso. apply Hs. apply (Hk s y). now left.
  - rewrite (String.eqb_sym h k). destruct (String.eqb k h) eqn:E.
    + intros [= ->]. reflexivity.
    + apply IH. intros k' x' Hin. apply (Hk k' x'). now right.
Qed.

(** The term process_function makes of one dict with one member. *)
Definition item_term (f : nat) (v : val) : res term :=
  match v with
  | VDict [(k, x)] =>
      if String.eqb k "Fn::Equals" then
        match equals_of hash x with Some e => Ok (TEq e) | None => Err (EOther "parse") end
      else if String.eqb k "Condition" then
        do w <- condition_value template x; do r <- process_condition hash f template w empty_state; Ok (finish r)
      else do r <- process_condition hash f template v empty_state; Ok (finish r)
  | _ => Err (EOther "not a function")
  end.
Definition infl_item (v : val) (t : term) (i : influenced) : influenced :=
  match t with TEq e => process_influenced_equal e i | _ => infl_merge (infl_of t) i end.

Definition infl_good (v : val) (i : influenced) : Prop :=
  infl_ok i /\ (forall c s, compares defs v c s -> infl_has i (hash c) s) /\ (forall k, In k (keys i) -> exists c, k = hash c).

(** [t] evaluates to [b] in every scenario that knows the [values]. *)
Definition test_ok (values : val -> option string) (t : term) (b : bool) : Prop :=
  forall sc, digest_keys sc -> (forall c x, values c = Some x -> assoc (hash c) sc = Some x) ->
    term_test t sc = Ok (Some b).

Definition term_good (values : val -> option string) (v : val) (b : bool) (t : term) : Prop :=
  test_ok values t b /\
  forall i, infl_ok i -> (forall k, In k (keys i) -> exists c, k = hash c) ->
    infl_good v (infl_item v t i) /\ (forall k x, infl_has i k x -> infl_has (infl_item v t i) k x).

Notation named f := (fun name => do v <- condition_value template name;
                        do r <- process_condition hash f template v empty_state; Ok (finish r)).
Notation sub f := (fun v => do r <- process_condition hash f template v empty_state; Ok (finish r)).

Definition P values (v : val) (b : bool) : Prop :=
  (forall fuel r, process_condition hash fuel template v empty_state = Ok r ->
     snd r = false /\ test_ok values (finish r) b /\ infl_good v (s_infl (fst r))) /\
  (forall f t, item_term f v = Ok t -> term_good values v b t) /\
  (exists k x, v = VDict [(k, x)] /\ (k = "Fn::Equals" -> exists e, equals_of hash x = Some e)).

Definition infls_good (vs : list val) (i : influenced) : Prop :=
  infl_ok i /\ (forall v c s, In v vs -> compares defs v c s -> infl_has i (hash c) s) /\
  (forall k, In k (keys i) -> exists c, k = hash c).

Definition Q values (vs : list val) (bs : list bool) : Prop :=
  forall f acc s l s' raised,
    infl_ok (s_infl s) -> (forall k, In k (keys (s_infl s)) -> exists c, k = hash c) ->
    process_function hash (named f) (sub f) vs acc s = Ok (l, s', raised) ->
    raised = false /\ (exists ts, l = acc ++ ts /\ Forall2 (test_ok values) ts bs) /\
    (s_and s' = s_and s /\ s_or s' = s_or s /\ s_not s' = s_not s /\ s_eq s' = s_eq s) /\
    infls_good vs (s_infl s') /\ (forall k x, infl_has (s_infl s) k x -> infl_has (s_infl s') k x).

Lemma process_item f v rest acc s k x : v = VDict [(k, x)] ->
  (k = "Fn::Equals" -> exists e, equals_of hash x = Some e) ->
  process_function hash (named f) (sub f) (v :: rest) acc s =
  (do t <- item_term f v; process_function hash (named f) (sub f) rest (acc ++ [t]) (with_infl (infl_item v t) s)).
Proof.
  intros -> He. cbn [process_function item_term]. destruct (String.eqb_spec k "Fn::Equals") as [->|Hk].
  - destruct (He eq_refl) as [e ->]. reflexivity.
  - destruct (String.eqb k "Condition").
    + destruct (condition_value template x) as [w|]; cbn [bind]; [|reflexivity].
      destruct (process_condition hash f template w empty_state) as [[s1 r1]|]; reflexivity.
    + destruct (process_condition hash f template _ empty_state) as [[s1 r1]|]; reflexivity.
Qed.

Lemma all_test a ts bs sc o n e i : Forall2 (fun t b => term_test t sc = Ok (Some b)) (a :: ts) bs ->
  term_test (TCond (a :: ts) o n e i) sc = Ok (Some (forallb (fun b => b) bs)).
Proof.
  intros H. inversion H as [|? ? ? bs' Ha Hts]; subst. cbn [term_test]. rewrite Ha. cbn [bind holds forallb].
  destruct y; cbn [andb]; [|reflexivity]. clear H Ha. revert bs' Hts.
  induction ts as [|t l IH]; intros bs H; inversion H as [|? ? ? bs' Ha Hts]; subst; [reflexivity|].
  rewrite Ha. cbn [bind holds forallb]. destruct y; cbn [andb]; [|reflexivity]. now apply IH.
Qed.
Lemma any_test a ts bs sc n e i : Forall2 (fun t b => term_test t sc = Ok (Some b)) (a :: ts) bs ->
  term_test (TCond [] (a :: ts) n e i) sc = Ok (Some (existsb (fun b => b) bs)).
Proof.
  intros H. inversion H as [|? ? ? bs' Ha Hts]; subst. cbn [term_test]. rewrite Ha. cbn [bind holds existsb].
  destruct y; cbn [orb]; [reflexivity|]. clear H Ha. revert bs' Hts.
  induction ts as [|t l IH]; intros bs H; inversion H as [|? ? ? bs' Ha Hts]; subst; [reflexivity|].
  rewrite Ha. cbn [bind holds existsb]. destruct y; cbn [orb]; [reflexivity|]. now apply IH.
Qed.

Lemma infl_ok_nil : infl_ok [].
Proof. split; [constructor | discriminate]. Qed.
Lemma no_keys_nil : forall k, In k (keys (s_infl empty_state)) -> exists c, k = hash c.
Proof. intros k []. Qed.

Lemma influenced_left h s i : process_influenced_equal (mkEq (mkEV (Some h) None) (mkEV None (Some s))) i = infl_add h [s] i.
Proof. reflexivity. Qed.
Lemma influenced_right h s i : process_influenced_equal (mkEq (mkEV None (Some s)) (mkEV (Some h) None)) i = infl_add h [s] i.
Proof. reflexivity. Qed.

Lemma compares_equals_left k a l s c s' : literal l s ->
  compares defs (VDict [("Fn::Equals", VList [VDict [(k, a)]; l])]) c s' -> c = VDict [(k, a)] /\ s' = s.
Proof.
  intros Hl H. inversion H; subst.
  - split; [reflexivity|]. inversion Hl; subst; match goal with H : literal _ _ |- _ => inversion H; subst; reflexivity end.
  - match goal with H : literal (VDict _) _ |- _ => inversion H end.
  - match goal with H : In "Fn::Equals" _ |- _ => cbn in H; intuition discriminate end.
Qed.
Lemma compares_equals_right k a l s c s' : literal l s ->
  compares defs (VDict [("Fn::Equals", VList [l; VDict [(k, a)]])]) c s' -> c = VDict [(k, a)] /\ s' = s.
Proof.
  intros Hl H. inversion H; subst.
  - match goal with H : literal (VDict _) _ |- _ => inversion H end.
  - split; [reflexivity|]. inversion Hl; subst; match goal with H : literal _ _ |- _ => inversion H; subst; reflexivity end.
  - match goal with H : In "Fn::Equals" _ |- _ => cbn in H; intuition discriminate end.
Qed.

Lemma add_good v h s i c0 : h = hash c0 -> (forall c s', compares defs v c s' -> c = c0 /\ s' = s) ->
  infl_ok i -> (forall k, In k (keys i) -> exists c, k = hash c) ->
  infl_good v (infl_add h [s] i) /\ (forall k x, infl_has i k x -> infl_has (infl_add h [s] i) k x).
Proof.
  intros -> Hc Hi Hk. split; [split; [|split]|].
  - apply infl_add_ok; [discriminate | exact Hi].
  - intros c s' H. apply Hc in H as [-> ->]. apply infl_add_has. right. split; [reflexivity | now left].
  - intros k Hin. apply infl_add_keys in Hin as [H| ->]; eauto.
  - intros k x H. apply infl_add_has. now left.
Qed.

(** From the terms of a function's members to the whole condition. *)
Lemma cond_good values v b r : snd r = false -> test_ok values (finish r) b -> infl_good v (s_infl (fst r)) ->
  term_good values v b (finish r).
Proof.
  destruct r as [s raised]. cbn [snd fst]. intros -> Ht [Hi1 [Hi2 Hi3]]. split; [exact Ht|]. intros i Hi Hk.
  cbn [finish infl_item infl_of]. split; [split; [|split]|].
  - now apply infl_merge_ok.
  - intros c s' H. apply infl_merge_has; [apply Hi1|]. right. now apply Hi2.
  - intros k H. apply infl_merge_keys in H as [H|H]; auto.
  - intros k x H. apply infl_merge_has; [apply Hi1|]. now left.
Qed.

Lemma fn_inside f vs c s : compares defs (VDict [(f, VList vs)]) c s -> f <> "Fn::Equals" ->
  exists v, In v vs /\ compares defs v c s.
Proof. intros H Hf. inversion H; subst; try congruence. eauto. Qed.

Lemma ok_all values ts bs sc : digest_keys sc -> (forall c x, values c = Some x -> assoc (hash c) sc = Some x) ->
  Forall2 (test_ok values) ts bs -> Forall2 (fun t b => term_test t sc = Ok (Some b)) ts bs.
Proof. intros H1 H2 H. induction H; constructor; auto. Qed.

Lemma evaluate_mut values :
  (forall v b, truth defs values v b -> P values v b) /\ (forall vs bs, truths defs values vs bs -> Q values vs bs).
Proof.
  apply truth_truths_ind.
  - (* Fn::Equals, call on the left *)
    intros k a l s x Hl Hx. assert (Hd := proj2 (literal_value _ _ Hl)). assert (He := equals_of_left k a l s Hl).
    assert (Hc := fun c s' => compares_equals_left k a l s c s' Hl).
    split; [|split].
    + intros [|fuel] r; [discriminate|]. cbn [process_condition].
      cbn [String.eqb Ascii.eqb Bool.eqb]. rewrite He. intros [= <-]. cbn [snd fst s_infl]. rewrite influenced_left.
      split; [reflexivity|]. split.
      * intros sc Hsc Hag. cbn [finish s_and s_or s_not s_eq empty_state term_test]. f_equal. apply equals_test_left; auto.
      * eapply add_good; eauto using infl_ok_nil, no_keys_nil.
    + intros f t. cbn [item_term]. rewrite String.eqb_refl, He. intros [= <-]. split.
      * intros sc Hsc Hag. cbn [term_test]. f_equal. apply equals_test_left; auto.
      * intros i Hi Hk. cbn [infl_item]. rewrite influenced_left. eapply add_good; eauto.
    + exists "Fn::Equals", (VList [VDict [(k, a)]; l]). split; [reflexivity|]. eauto.
  - (* Fn::Equals, call on the right *)
    intros k a l s x Hl Hx. assert (Hd := proj2 (literal_value _ _ Hl)). assert (He := equals_of_right k a l s Hl).
    assert (Hc := fun c s' => compares_equals_right k a l s c s' Hl).
    split; [|split].
    + intros [|fuel] r; [discriminate|]. cbn [process_condition].
      cbn [String.eqb Ascii.eqb Bool.eqb]. rewrite He. intros [= <-]. cbn [snd fst s_infl]. rewrite influenced_right.
      split; [reflexivity|]. split.
      * intros sc Hsc Hag. cbn [finish s_and s_or s_not s_eq empty_state term_test]. f_equal. apply equals_test_right; auto.
      * eapply add_good; eauto using infl_ok_nil, no_keys_nil.
    + intros f t. cbn [item_term]. rewrite String.eqb_refl, He. intros [= <-]. split.
      * intros sc Hsc Hag. cbn [term_test]. f_equal. apply equals_test_right; auto.
      * intros i Hi Hk. cbn [infl_item]. rewrite influenced_right. eapply add_good; eauto.
    + exists "Fn::Equals", (VList [l; VDict [(k, a)]]). split; [reflexivity|]. eauto.
  - (* Fn::And *)
    intros vs bs Hne Hts IH.
    assert (Hp : forall fuel r, process_condition hash fuel template (VDict [("Fn::And", VList vs)]) empty_state = Ok r ->
     snd r = false /\ test_ok values (finish r) (forallb (fun b => b) bs) /\
     infl_good (VDict [("Fn::And", VList vs)]) (s_infl (fst r))).
    { intros [|fuel] r; [discriminate|]. cbn [process_condition]. rewrite String.eqb_refl. cbn [iterate bind].
      destruct (process_function _ _ _ _ _ _) as [[[l s'] raised]|] eqn:E; cbn [bind]; [|discriminate]. intros [= <-].
      apply IH in E; [|apply infl_ok_nil|apply no_keys_nil].
      destruct E as [-> [[ts [-> Hts2]] [[E1 [E2 [E3 E4]]] [Hg _]]]]. cbn [snd fst s_infl app]. split; [reflexivity|]. split.
      - intros sc Hsc Hag. apply (ok_all _ _ _ sc Hsc Hag) in Hts2. cbn [finish s_and s_or s_not s_eq]. cbn [app] in *. inversion Hts2; subst.
        + inversion Hts; subst. congruence.
        + now apply all_test.
      - destruct Hg as [G1 [G2 G3]]. split; [exact G1|]. split; [|exact G3]. intros c s H.
        apply fn_inside in H as [v [H1 H2]]; [eauto | discriminate]. }
    split; [exact Hp|]. split.
    + intros f t. cbn [item_term]. change (String.eqb "Fn::And" "Fn::Equals") with false. change (String.eqb "Fn::And" "Condition") with false.
      cbv iota. destruct (process_condition _ _ _ _ _) as [r|] eqn:E; cbn [bind]; [|discriminate]. intros [= <-].
      apply Hp in E as [E1 [E2 E3]]. now apply cond_good.
    + eexists _, _. split; [reflexivity|]. discriminate.
  - (* Fn::Or *)
    intros vs bs Hne Hts IH.
    assert (Hp : forall fuel r, process_condition hash fuel template (VDict [("Fn::Or", VList vs)]) empty_state = Ok r ->
     snd r = false /\ test_ok values (finish r) (existsb (fun b => b) bs) /\
     infl_good (VDict [("Fn::Or", VList vs)]) (s_infl (fst r))).
    { intros [|fuel] r; [discriminate|]. cbn [process_condition]. change (String.eqb "Fn::Or" "Fn::And") with false.
      rewrite String.eqb_refl. cbn [iterate bind].
      destruct (process_function _ _ _ _ _ _) as [[[l s'] raised]|] eqn:E; cbn [bind]; [|discriminate]. intros [= <-].
      apply IH in E; [|apply infl_ok_nil|apply no_keys_nil].
      destruct E as [-> [[ts [-> Hts2]] [[E1 [E2 [E3 E4]]] [Hg _]]]]. cbn [snd fst s_infl app]. split; [reflexivity|]. split.
      - intros sc Hsc Hag. apply (ok_all _ _ _ sc Hsc Hag) in Hts2. cbn [finish s_and s_or s_not s_eq]. rewrite E1. cbn [app empty_state s_and] in *. inversion Hts2; subst.
        + inversion Hts; subst. congruence.
        + now apply any_test.
      - destruct Hg as [G1 [G2 G3]]. split; [exact G1|]. split; [|exact G3]. intros c s H.
        apply fn_inside in H as [v [H1 H2]]; [eauto | discriminate]. }
    split; [exact Hp|]. split.
    + intros f t. cbn [item_term]. change (String.eqb "Fn::Or" "Fn::Equals") with false. change (String.eqb "Fn::Or" "Condition") with false.
      cbv iota. destruct (process_condition _ _ _ _ _) as [r|] eqn:E; cbn [bind]; [|discriminate]. intros [= <-].
      apply Hp in E as [E1 [E2 E3]]. now apply cond_good.
    + eexists _, _. split; [reflexivity|]. discriminate.
  - (* Fn::Not *)
    intros v b Hv [_ [IHi [k [x [Ev Hk]]]]].
    assert (Hp : forall fuel r, process_condition hash fuel template (VDict [("Fn::Not", VList [v])]) empty_state = Ok r ->
     snd r = false /\ test_ok values (finish r) (negb b) /\
     infl_good (VDict [("Fn::Not", VList [v])]) (s_infl (fst r))).
    { intros [|fuel] r; [discriminate|]. cbn [process_condition]. change (String.eqb "Fn::Not" "Fn::And") with false.
      change (String.eqb "Fn::Not" "Fn::Or") with false. rewrite String.eqb_refl. cbn [iterate bind]. cbv iota.
      rewrite (process_item fuel v [] [] empty_state k x Ev Hk).
      destruct (item_term fuel v) as [t|] eqn:E; cbn [bind]; [|discriminate]. cbn [process_function bind].
      intros [= <-]. apply IHi in E as [E1 E2]. destruct (E2 [] infl_ok_nil no_keys_nil) as [[G1 [G2 G3]] _].
      cbn [snd fst s_infl with_infl s_and s_or s_not s_eq empty_state finish app]. split; [reflexivity|]. split.
      - intros sc Hsc Hag. cbn [term_test]. rewrite (E1 sc Hsc Hag). cbn [bind holds]. destruct b; reflexivity.
      - split; [exact G1|]. split; [|exact G3]. intros c s H. apply fn_inside in H as [w [H1 H2]]; [|discriminate].
        destruct H1 as [->|[]]. now apply G2. }
    split; [exact Hp|]. split.
    + intros f t. cbn [item_term]. change (String.eqb "Fn::Not" "Fn::Equals") with false. change (String.eqb "Fn::Not" "Condition") with false.
      cbv iota. destruct (process_condition _ _ _ _ _) as [r|] eqn:E; cbn [bind]; [|discriminate]. intros [= <-].
      apply Hp in E as [E1 [E2 E3]]. now apply cond_good.
    + eexists _, _. split; [reflexivity|]. discriminate.
  - (* Condition *)
    intros n v b Hn Hv [IHp _].
    assert (Hg : forall s, infl_good v s -> infl_good (VDict [("Condition", VStr n)]) s).
    { intros i [G1 [G2 G3]]. split; [exact G1|]. split; [|exact G3]. intros c s H. inversion H; subst.
      match goal with H : assoc n defs = Some _ |- _ => rewrite Hn in H; injection H as <- end. now apply G2. }
    split; [|split].
    + intros [|fuel] r; [discriminate|]. cbn [process_condition]. cbn [String.eqb Ascii.eqb Bool.eqb].
      rewrite (value_of_named _ _ Hn). cbn [bind].
      destruct (process_condition _ _ _ _ _) as [[s1 r1]|] eqn:E; cbn [bind]; [|discriminate]. intros [= <-].
      apply IHp in E as [E1 [E2 E3]]. cbn [snd fst] in *. subst r1. auto.
    + intros f t. cbn [item_term]. change (String.eqb "Condition" "Fn::Equals") with false. rewrite String.eqb_refl. cbv iota.
      rewrite (value_of_named _ _ Hn). cbn [bind].
      destruct (process_condition _ _ _ _ _) as [r|] eqn:E; cbn [bind]; [|discriminate]. intros [= <-].
      apply IHp in E as [E1 [E2 E3]]. apply cond_good; auto.
    + eexists _, _. split; [reflexivity|]. discriminate.
  - intros f acc s l s' raised Hi Hk. cbn [process_function]. intros [= <- <- <-]. split; [reflexivity|]. split.
    + exists []. split; [now rewrite app_nil_r | constructor].
    + split; [auto|]. split; [|auto]. split; [exact Hi|]. split; [|exact Hk]. intros v c s' [].
  - intros v b vs bs Hv [_ [IHi [k [x [Ev He]]]]] Hvs IH f acc s l s' raised Hi Hk.
    rewrite (process_item f v vs acc s k x Ev He). destruct (item_term f v) as [t|] eqn:E; cbn [bind]; [|discriminate].
    apply IHi in E as [E1 E2]. destruct (E2 (s_infl s) Hi Hk) as [[G1 [G2 G3]] G4]. intros H. apply IH in H.
    + destruct H as [-> [[ts [-> Hts]] [Hsame [[F1 [F2 F3]] F4]]]]. split; [reflexivity|]. split.
      * exists (t :: ts). split; [now rewrite <- app_assoc | now constructor].
      * split; [exact Hsame|]. split; [split; [exact F1|split; [|exact F3]]|].
        -- intros w c s0 [<-|Hin] Hc; [apply F4; now apply G2 | eauto].
        -- intros k' y Hy. apply F4. now apply G4.
    + exact G1.
    + exact G3.
Qed.

(** * Enough fuel *)
Lemma success_mut values :
  (forall v b, truth defs values v b ->
     (exists k x, v = VDict [(k, x)] /\ (k = "Fn::Equals" -> exists e, equals_of hash x = Some e)) /\
     exists k, forall f, k <= f ->
     (exists r, process_condition hash f template v empty_state = Ok r) /\ (exists t, item_term f v = Ok t)) /\
  (forall vs bs, truths defs values vs bs ->
     exists k, forall f acc s, k <= f -> exists r, process_function hash (named f) (sub f) vs acc s = Ok r).
Proof.
  apply truth_truths_ind.
  - intros k a l s x Hl Hx. assert (He := equals_of_left k a l s Hl). split.
    + eexists _, _. split; [reflexivity|]. eauto.
    + exists 1. intros f Hf. split.
      * destruct f as [|f]; [lia|]. cbn [process_condition]. cbn [String.eqb Ascii.eqb Bool.eqb]. rewrite He. eauto.
      * cbn [item_term]. rewrite String.eqb_refl, He. eauto.
  - intros k a l s x Hl Hx. assert (He := equals_of_right k a l s Hl). split.
    + eexists _, _. split; [reflexivity|]. eauto.
    + exists 1. intros f Hf. split.
      * destruct f as [|f]; [lia|]. cbn [process_condition]. cbn [String.eqb Ascii.eqb Bool.eqb]. rewrite He. eauto.
      * cbn [item_term]. rewrite String.eqb_refl, He. eauto.
  - intros vs bs Hne Hts [k IH]. split; [eexists _, _; split; [reflexivity|discriminate]|]. exists (S k). intros f Hf.
    assert (Hp : exists r, process_condition hash f template (VDict [("Fn::And", VList vs)]) empty_state = Ok r).
    { destruct f as [|f]; [lia|]. cbn [process_condition]. rewrite String.eqb_refl. cbn [iterate bind].
      destruct (IH f [] empty_state) as [[[l s'] raised] ->]; [lia|]. cbn [bind]. eauto. }
    split; [exact Hp|]. destruct Hp as [r Hp]. cbn [item_term]. cbn [String.eqb Ascii.eqb Bool.eqb]. rewrite Hp. cbn [bind]. eauto.
  - intros vs bs Hne Hts [k IH]. split; [eexists _, _; split; [reflexivity|discriminate]|]. exists (S k). intros f Hf.
    assert (Hp : exists r, process_condition hash f template (VDict [("Fn::Or", VList vs)]) empty_state = Ok r).
    { destruct f as [|f]; [lia|]. cbn [process_condition]. cbn [String.eqb Ascii.eqb Bool.eqb]. cbn [iterate bind].
      destruct (IH f [] empty_state) as [[[l s'] raised] ->]; [lia|]. cbn [bind]. eauto. }
    split; [exact Hp|]. destruct Hp as [r Hp]. cbn [item_term]. cbn [String.eqb Ascii.eqb Bool.eqb]. rewrite Hp. cbn [bind]. eauto.
  - intros v b Hv [[kk [x [Ev He]]] [k IH]]. split; [eexists _, _; split; [reflexivity|discriminate]|]. exists (S k). intros f Hf.
    assert (Hp : exists r, process_condition hash f template (VDict [("Fn::Not", VList [v])]) empty_state = Ok r).
    { destruct f as [|f]; [lia|]. cbn [process_condition]. cbn [String.eqb Ascii.eqb Bool.eqb]. cbn [iterate bind].
      rewrite (process_item f v [] [] empty_state kk x Ev He). destruct (IH f) as [_ [t ->]]; [lia|].
      cbn [bind process_function]. eauto. }
    split; [exact Hp|]. destruct Hp as [r Hp]. cbn [item_term]. cbn [String.eqb Ascii.eqb Bool.eqb]. rewrite Hp. cbn [bind]. eauto.
  - intros n v b Hn Hv [_ [k IH]]. split; [eexists _, _; split; [reflexivity|discriminate]|]. exists (S k). intros f Hf. split.
    + destruct f as [|f]; [lia|]. cbn [process_condition]. cbn [String.eqb Ascii.eqb Bool.eqb].
      rewrite (value_of_named _ _ Hn). cbn [bind]. destruct (IH f) as [[r ->] _]; [lia|]. cbn [bind]. eauto.
    + cbn [item_term]. cbn [String.eqb Ascii.eqb Bool.eqb]. rewrite (value_of_named _ _ Hn). cbn [bind].
      destruct (IH f) as [[r ->] _]; [lia|]. cbn [bind]. eauto.
  - exists 0. intros f acc s _. cbn [process_function]. eauto.
  - intros v b vs bs Hv [[kk [x [Ev He]]] [k1 IH1]] Hvs [k2 IH2]. exists (k1 + k2). intros f acc s Hf.
    rewrite (process_item f v vs acc s kk x Ev He). destruct (IH1 f) as [_ [t ->]]; [lia|]. cbn [bind]. apply IH2. lia.
Qed.

Lemma c15_built values fuel name v t b : assoc name defs = Some v ->
  condition_named hash fuel template name = Ok t -> truth defs values v b ->
  test_ok values t b /\ infl_good v (infl_of t).
Proof.
  intros Hn Ht Hv. unfold condition_named in Ht. rewrite (value_of_named _ _ Hn) in Ht. cbn [bind] in Ht.
  destruct (process_condition _ _ _ _ _) as [r|] eqn:E; cbn [bind] in Ht; [|discriminate]. injection Ht as <-.
  apply (proj1 (evaluate_mut values)) in Hv. destruct Hv as [Hv _]. destruct (Hv _ _ E) as [H1 [H2 H3]]. split; [exact H2|].
  destruct r as [s raised]. exact H3.
Qed.
Lemma c15_value sc fuel name v t b : digest_keys sc -> assoc name defs = Some v ->
  condition_named hash fuel template name = Ok t -> truth defs (fun c => assoc (hash c) sc) v b ->
  term_test t sc = Ok (Some b).
Proof. intros Hsc Hn Ht Hv. destruct (c15_built _ _ _ _ _ _ Hn Ht Hv) as [H _]. now apply H. Qed.
Lemma c15_named name v : assoc name defs = Some v -> well_formed defs v ->
  exists k, forall fuel, k <= fuel -> exists t, condition_named hash fuel template name = Ok t.
Proof.
  intros Hn [values [b Hv]]. apply (proj1 (success_mut values)) in Hv as [_ [k Hk]]. exists k. intros fuel Hf.
  unfold condition_named. rewrite (value_of_named _ _ Hn). cbn [bind]. destruct (Hk fuel Hf) as [[r ->] _]. cbn [bind]. eauto.
Qed.
End Hash.

(** * The specification's own laws *)
Lemma truth_change defs values values' :
  (forall v b, truth defs values v b ->
     (forall c s x, compares defs v c s -> values c = Some x -> exists x', values' c = Some x' /\ String.eqb x' s = String.eqb x s) ->
     truth defs values' v b) /\
  (forall vs bs, truths defs values vs bs ->
     (forall v c s x, In v vs -> compares defs v c s -> values c = Some x -> exists x', values' c = Some x' /\ String.eqb x' s = String.eqb x s) ->
     truths defs values' vs bs).
Proof.
  apply truth_truths_ind.
  - intros k a l s x Hl Hx H. destruct (H (VDict [(k, a)]) s x) as [x' [H1 <-]]; [now constructor | exact Hx |]. now constructor.
  - intros k a l s x Hl Hx H. destruct (H (VDict [(k, a)]) s x) as [x' [H1 <-]]; [now constructor | exact Hx |]. now constructor.
  - intros vs bs Hne Hts IH H. constructor; [exact Hne|]. apply IH. intros v c s x Hin Hc. apply H. econstructor; eauto. cbn; auto.
  - intros vs bs Hne Hts IH H. constructor; [exact Hne|]. apply IH. intros v c s x Hin Hc. apply H. econstructor; eauto. cbn; auto.
  - intros v b Hv IH H. constructor. apply IH. intros c s x Hc. apply H. apply (cp_inside _ "Fn::Not" [v] v); cbn; auto.
  - intros n v b Hn Hv IH H. econstructor; [exact Hn|]. apply IH. intros c s x Hc. apply H. econstructor; eauto.
  - constructor.
  - intros v b vs bs Hv IH1 Hvs IH2 H. constructor.
    + apply IH1. intros c s x. apply H. now left.
    + apply IH2. intros w c s x Hin. apply H. now right.
Qed.
Lemma truth_total defs values w :
  (forall v b, truth defs values v b ->
     (forall c s, compares defs v c s -> w c <> None) -> exists b', truth defs w v b') /\
  (forall vs bs, truths defs values vs bs ->
     (forall v c s, In v vs -> compares defs v c s -> w c <> None) -> exists bs', truths defs w vs bs').
Proof.
  apply truth_truths_ind.
  - intros k a l s x Hl Hx H. destruct (w (VDict [(k, a)])) as [y|] eqn:E.
    + eexists. eapply tr_equals_left; eauto.
    + exfalso. exact (H _ _ (cp_left defs k a l s Hl) E).
  - intros k a l s x Hl Hx H. destruct (w (VDict [(k, a)])) as [y|] eqn:E.
    + eexists. eapply tr_equals_right; eauto.
    + exfalso. exact (H _ _ (cp_right defs k a l s Hl) E).
  - intros vs bs Hne Hts IH H. destruct IH as [bs' H'].
    + intros v c s Hin Hc. eapply H. econstructor; eauto. cbn; auto.
    + eexists. apply tr_and; eauto.
  - intros vs bs Hne Hts IH H. destruct IH as [bs' H'].
    + intros v c s Hin Hc. eapply H. econstructor; eauto. cbn; auto.
    + eexists. apply tr_or; eauto.
  - intros v b Hv IH H. destruct IH as [b' H'].
    + intros c s Hc. eapply H. apply (cp_inside _ "Fn::Not" [v] v); cbn; eauto.
    + eexists. apply tr_not; eauto.
  - intros n v b Hn Hv IH H. destruct IH as [b' H'].
    + intros c s Hc. eapply H. econstructor; eauto.
    + eexists. eapply tr_condition; eauto.
  - intros _. eexists. constructor.
  - intros v b vs bs Hv IH1 Hvs IH2 H. destruct IH1 as [b' H1].
    + intros c s. apply H. now left.
    + destruct IH2 as [bs' H2]; [intros x c s Hin; apply H; now right|]. eexists. constructor; eauto.
Qed.
