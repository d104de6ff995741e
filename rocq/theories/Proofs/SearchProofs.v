(** C13, C14, C19: searching, locating and enumerating. *)
From Coq Require Import Lia.
From Verif.Model Require Import Base Node Locate Helpers Search.
From Verif.Spec Require Import Paths Branches.
From Verif.Proofs Require Import BaseFacts BranchProofs.

(** * C13 *)
Fixpoint search_items (text : string) (p : path) (i : nat) (l : list val) : list (path * val) :=
  match l with
  | [] => []
  | x :: xs => search text x (p ++ [PIdx i]) ++ search_items text p (S i) xs
  end.
Fixpoint search_members (text : string) (p : path) (d : list (string * val)) : list (path * val) :=
  match d with
  | [] => []
  | (key, x) :: rest =>
      (if String.eqb key text then [(p ++ [PKey key], x)] else []) ++
      search text x (p ++ [PKey key]) ++ search_members text p rest
  end.
Lemma search_list text l p : search text (VList l) p = search_items text p 0 l.
Proof.
  cbn [search]. generalize 0. induction l as [|x l IH]; intros i; [reflexivity|]. cbn [search_items]. f_equal. apply IH.
Qed.
Lemma search_dict text d p : search text (VDict d) p = search_members text p d.
Proof. cbn [search]. induction d as [|[k x] d IH]; [reflexivity|]. cbn [search_members]. do 2 f_equal. exact IH. Qed.

Lemma in_search_items text p l : forall i q x, In (q, x) (search_items text p i l) <->
  exists j y, nth_error l j = Some y /\ In (q, x) (search text y (p ++ [PIdx (i + j)])).
Proof.
  induction l as [|y l IH]; intros i q x; cbn [search_items].
  - split; [intros [] | intros [[|j] [y [H _]]]; discriminate].
  - rewrite in_app_iff, IH. split.
    + intros [H|[j [z [H1 H2]]]].
      * exists 0, y. split; [reflexivity|]. now rewrite Nat.add_0_r.
      * exists (S j), z. split; [exact H1|]. now rewrite Nat.add_succ_r.
    + intros [[|j] [z [H1 H2]]].
      * injection H1 as ->. rewrite Nat.add_0_r in H2. now left.
      * right. exists j, z. split; [exact H1|]. now rewrite Nat.add_succ_r in H2.
Qed.
Lemma in_search_members text p d : forall q x, In (q, x) (search_members text p d) <->
  exists k y, In (k, y) d /\ ((k = text /\ q = p ++ [PKey k] /\ x = y) \/ In (q, x) (search text y (p ++ [PKey k]))).
Proof.
  induction d as [|[k y] d IH]; intros q x; cbn [search_members].
  - split; [intros [] | intros [k [y [[] _]]]].
  - rewrite !in_app_iff, IH. split.
    + intros [H|[H|[k' [y' [H1 H2]]]]].
      * exists k, y. split; [now left|]. left. destruct (String.eqb_spec k text) as [->|]; [|destruct H].
        destruct H as [H|[]]. injection H as <- <-. auto.
      * exists k, y. split; [now left|]. now right.
      * exists k', y'. split; [now right | exact H2].
    + intros [k' [y' [[H1|H1] H2]]].
      * injection H1 as -> ->. destruct H2 as [[-> [-> ->]]|H2].
        -- left. rewrite String.eqb_refl. now left.
        -- right. now left.
      * right. right. now exists k', y'.
Qed.

Lemma wf_list l : wf (VList l) -> forall x, In x l -> wf x.
Proof. cbn. induction l as [|y l IH]; [intros _ x []|]. intros [H1 H2] x [<-|H]; auto. Qed.
Lemma wf_dict d : wf (VDict d) -> NoDup (map fst d) /\ forall k x, In (k, x) d -> wf x.
Proof.
  cbn. intros [Hn H]. split; [exact Hn|]. clear Hn. induction d as [|[k y] d IH]; [intros k x []|].
  destruct H as [H1 H2]. intros k' x [E|H']; [injection E as <- <-; exact H1 | eapply IH; eauto].
Qed.
Lemma In_assoc {A} k (x : A) d : NoDup (map fst d) -> In (k, x) d -> assoc k d = Some x.
Proof.
  induction d as [|[k' y] d IH]; [intros _ []|]. cbn. intros Hn H. inversion Hn as [|? ? H1 H2]; subst.
  destruct H as [E|H]; [injection E as -> ->; now rewrite String.eqb_refl|].
  destruct (String.eqb_spec k k') as [->|]; [|now apply IH]. exfalso. apply H1. apply in_map_iff. now exists (k', x).
Qed.

Lemma search_spec text v : wf v -> forall p q x,
  In (q, x) (search text v p) <-> exists r, q = p ++ r ++ [PKey text] /\ at_path (r ++ [PKey text]) v = Some x.
Proof.
  induction v as [v IH] using vsize_ind. intros Hw p q x.
  destruct v as [|b|z|f|s|l|d];
    try (cbn [search]; split; [intros [] | intros [[|[k|i] r] [_ H]]; cbn in H; discriminate]).
  - rewrite search_list, in_search_items. split.
    + intros [j [y [H1 H2]]]. apply IH in H2.
      * destruct H2 as [r [E1 E2]]. exists (PIdx j :: r). split; [rewrite E1; now rewrite <- app_assoc|].
        cbn. now rewrite H1.
      * eapply vsize_list_In, nth_error_In; eauto.
      * eapply wf_list; [exact Hw|]. eapply nth_error_In; eauto.
    + intros [[|[k|j] r] [E1 E2]]; cbn in E2; try discriminate.
      destruct (nth_error l j) as [y|] eqn:E; [|discriminate]. exists j, y. split; [exact E|].
      apply IH; [eapply vsize_list_In, nth_error_In; eauto | eapply wf_list; [exact Hw|]; eapply nth_error_In; eauto |].
      exists r. split; [rewrite E1, <- app_assoc; reflexivity | exact E2].
  - destruct (wf_dict d Hw) as [Hn Hwd]. rewrite search_dict, in_search_members. split.
    + intros [k [y [H1 [[-> [-> ->]]|H2]]]].
      * exists []. split; [reflexivity|]. cbn. now rewrite (In_assoc text y d).
      * apply IH in H2.
        -- destruct H2 as [r [E1 E2]]. exists (PKey k :: r). split; [rewrite E1; now rewrite <- app_assoc|].
           cbn. now rewrite (In_assoc k y d).
        -- eapply vsize_dict_In; eauto.
        -- eapply Hwd; eauto.
    + intros [[|[k|j] r] [E1 E2]].
      * cbn in E1, E2. destruct (assoc text d) as [y|] eqn:E; [|discriminate]. injection E2 as ->.
        exists text, x. split; [now apply assoc_In|]. left. auto.
      * cbn in E2. destruct (assoc k d) as [y|] eqn:E; [|discriminate].
        assert (Hin : In (k, y) d) by now apply assoc_In.
        exists k, y. split; [exact Hin|]. right.
        apply IH; [eapply vsize_dict_In; eauto | eapply Hwd; eauto |].
        exists r. split; [rewrite E1, <- app_assoc; reflexivity | exact E2].
      * cbn in E2. discriminate.
Qed.

Lemma NoDup_app_disj {A} (a b : list A) : NoDup a -> NoDup b -> (forall x, In x a -> In x b -> False) -> NoDup (a ++ b).
Proof.
  induction a as [|x a IH]; cbn; intros Ha Hb Hd; [exact Hb|]. inversion Ha as [|? ? H1 H2]; subst. constructor.
  - rewrite in_app_iff. intros [H|H]; [contradiction | exact (Hd x (or_introl eq_refl) H)].
  - apply IH; auto. intros y H H'. exact (Hd y (or_intror H) H').
Qed.

Lemma search_prefix text v p q x : wf v -> In (q, x) (search text v p) -> exists r, r <> [] /\ q = p ++ r.
Proof.
  intros Hw H. apply search_spec in H; [|exact Hw]. destruct H as [r [-> _]]. exists (r ++ [PKey text]).
  split; [|reflexivity]. destruct r; discriminate.
Qed.

Lemma search_NoDup text v : wf v -> forall p, NoDup (map fst (search text v p)).
Proof.
  induction v as [v IH] using vsize_ind. intros Hw p. destruct v as [|b|z|f|s|l|d]; try (constructor).
  - rewrite search_list. assert (Hwl := wf_list l Hw).
    assert (IH' : forall x, In x l -> forall p, NoDup (map fst (search text x p))).
    { intros x Hx. apply IH; [now apply vsize_list_In | now apply Hwl]. }
    clear IH Hw. generalize 0. induction l as [|y l IHl]; intros i; cbn [search_items]; [constructor|].
    rewrite map_app. apply NoDup_app_disj.
    + apply IH'. now left.
    + apply IHl; [intros x Hx; apply Hwl; now right | intros x Hx; apply IH'; now right].
    + intros q H1 H2. apply in_map_iff in H1 as [[q1 x1] [E1 H1]]. apply in_map_iff in H2 as [[q2 x2] [E2 H2]].
      cbn in *; subst q1 q2. apply in_search_items in H2 as [j [z [Hj H2]]].
      apply search_prefix in H1; [|apply Hwl; now left].
      apply search_prefix in H2; [|apply Hwl; right; eapply nth_error_In; eauto].
      destruct H1 as [r1 [_ ->]], H2 as [r2 [_ E]]. rewrite <- !app_assoc in E. apply app_inv_head in E.
      injection E as E _. lia.
  - rewrite search_dict. destruct (wf_dict d Hw) as [Hn Hwd].
    assert (IH' : forall k x, In (k, x) d -> forall p, NoDup (map fst (search text x p))).
    { intros k x Hx. apply IH; [eapply vsize_dict_In; eauto | eapply Hwd; eauto]. }
    clear IH Hw. induction d as [|[k y] d IHd]; cbn [search_members]; [constructor|]. inversion Hn as [|? ? Hk Hn']; subst.
    rewrite !map_app.
    assert (Hrest : NoDup (map fst (search text y (p ++ [PKey k])) ++ map fst (search_members text p d))).
    { apply NoDup_app_disj.
      - eapply IH'. now left.
      - apply IHd; auto; intros; [eapply Hwd | eapply IH']; right; eauto.
      - intros q H1 H2. apply in_map_iff in H1 as [[q1 x1] [E1 H1]]. apply in_map_iff in H2 as [[q2 x2] [E2 H2]].
        cbn in *; subst q1 q2. apply search_prefix in H1; [|eapply Hwd; now left]. destruct H1 as [r1 [_ ->]].
        apply in_search_members in H2 as [k2 [z [Hk2 [[-> [E _]]|H2]]]].
        + rewrite <- app_assoc in E. apply app_inv_head in E. injection E as -> _.
          apply Hk. apply in_map_iff. now exists (text, z).
        + apply search_prefix in H2; [|eapply Hwd; right; eauto]. destruct H2 as [r2 [_ E]].
          rewrite <- !app_assoc in E. apply app_inv_head in E. injection E as -> _.
          apply Hk. apply in_map_iff. now exists (k2, z). }
    destruct (String.eqb_spec k text) as [->|]; [|exact Hrest]. cbn. constructor; [|exact Hrest].
    rewrite in_app_iff. intros [H|H].
    + apply in_map_iff in H as [[q1 x1] [E1 H]]. cbn in E1; subst.
      apply search_prefix in H; [|eapply Hwd; now left]. destruct H as [[|e r] [Hr E]]; [congruence|].
      rewrite <- (app_nil_r (p ++ [PKey text])) in E at 1. apply app_inv_head in E. discriminate.
    + apply in_map_iff in H as [[q1 x1] [E1 H]]. cbn in E1; subst.
      apply in_search_members in H as [k2 [z [Hk2 [[-> _]|H2]]]].
      * apply Hk. apply in_map_iff. now exists (text, z).
      * apply search_prefix in H2; [|eapply Hwd; right; eauto]. destruct H2 as [r2 [_ E]].
        rewrite <- app_assoc in E. apply app_inv_head in E. injection E as E _. subst.
        apply Hk. apply in_map_iff. now exists (k2, z).
Qed.

(** * C14 *)
Definition last_text (s : string) (l : list mval) : Prop :=
  exists l2 l3, l = l2 ++ l3 /\ (forall m', ~ In (MStr m' s) l2) /\ (l3 = [] \/ exists l4, l3 = MScalar (VStr s) :: l4).
Lemma scan_items_text s l : forall acc m, scan_items (PKey s) l acc = Some m <->
  (exists l1 r, l = l1 ++ MStr m s :: r /\ ~ In (MScalar (VStr s)) l1 /\ last_text s r) \/ (acc = Some m /\ last_text s l).
Proof.
  induction l as [|x l IH]; intros acc m.
  - cbn [scan_items]. split; [intros H; right; split; [exact H | exists [], []; repeat split; auto] |].
    intros [[l1 [l2 [E _]]]|[H _]]; [destruct l1; discriminate | exact H].
  - cbn [scan_items].
    assert (Hskip : (forall m', x <> MStr m' s) -> x <> MScalar (VStr s) ->
      ((exists l1 r, l = l1 ++ MStr m s :: r /\ ~ In (MScalar (VStr s)) l1 /\ last_text s r) \/ (acc = Some m /\ last_text s l) <->
       (exists l1 r, x :: l = l1 ++ MStr m s :: r /\ ~ In (MScalar (VStr s)) l1 /\ last_text s r) \/ (acc = Some m /\ last_text s (x :: l)))).
    { intros Hx Hy. split.
      - intros [(l1 & r & -> & H1 & H2)|(Ha & l2 & l3 & -> & H1 & H2)]; [left | right].
        + exists (x :: l1), r. split; [reflexivity|]. split; [intros [K|K]; [exact (Hy K) | exact (H1 K)] | exact H2].
        + split; [exact Ha|]. exists (x :: l2), l3. split; [reflexivity|]. split; [intros m' [K|K]; [exact (Hx _ K) | exact (H1 _ K)] | exact H2].
      - intros [(l1 & r & E & H1 & H2)|(Ha & l2 & l3 & E & H1 & H2)]; [left | right].
        + destruct l1 as [|y l1]; injection E as E1 E2; [exfalso; exact (Hx _ E1)|]. exists l1, r. split; [exact E2|]. split; [intros K; apply H1; now right | exact H2].
        + split; [exact Ha|]. destruct l2 as [|y l2].
          * cbn [app] in E. destruct H2 as [->|[l4 ->]]; [discriminate E|]. injection E as E1 _. exfalso. exact (Hy E1).
          * injection E as E1 E2. exists l2, l3. split; [exact E2|]. split; [intros m' K; apply (H1 m'); now right | exact H2]. }
    destruct x as [v|mx sx|mx lx|mx dx].
    + destruct v as [| | | |sv|lv|dv]; cbn [loc_of]; try (rewrite IH; apply Hskip; intros; discriminate).
      destruct (String.eqb_spec s sv) as [<-|Hn].
      * split.
        -- intros Ha. right. split; [exact Ha|]. exists [], (MScalar (VStr s) :: l). split; [reflexivity|]. split; [intros m' []|]. right. now exists l.
        -- intros [(l1 & r & E & H1 & H2)|[Ha _]]; [|exact Ha]. exfalso. destruct l1 as [|y l1]; injection E as E1 E2; [discriminate E1|]. apply H1. left. now symmetry.
      * rewrite IH. apply Hskip; [intros; discriminate | intros [= K]; exact (Hn (eq_sym K))].
    + destruct (String.eqb_spec s sx) as [<-|Hn].
      * cbn [loc_of]. rewrite IH. split.
        -- intros [(l1 & r & -> & H1 & H2)|[E H]]; left.
           ++ exists (MStr mx s :: l1), r. split; [reflexivity|]. split; [intros [K|K]; [discriminate K | exact (H1 K)] | exact H2].
           ++ injection E as <-. exists [], l. split; [reflexivity|]. split; [intros [] | exact H].
        -- intros [(l1 & r & E & H1 & H2)|[_ (l2 & l3 & E & H1 & H2)]].
           ++ destruct l1 as [|y l1]; injection E as E1 E2; [right; subst; auto|]. left. exists l1, r. split; [exact E2|]. split; [intros K; apply H1; now right | exact H2].
           ++ exfalso. destruct l2 as [|y l2]; [cbn [app] in E; destruct H2 as [->|[l4 ->]]; discriminate E|]. injection E as E1 _. apply (H1 mx). left. now symmetry.
      * rewrite IH. apply Hskip; [intros m' [= _ K]; exact (Hn (eq_sym K)) | discriminate].
    + rewrite IH. apply Hskip; intros; discriminate.
    + rewrite IH. apply Hskip; intros; discriminate.
Qed.
Lemma scan_items_index n l acc : scan_items (PIdx n) l acc = acc.
Proof.
  revert acc. induction l as [|x l IH]; intros acc; [reflexivity|]. cbn [scan_items].
  destruct x as [v| | |]; try apply IH. destruct (py_eq _ v); [reflexivity | apply IH].
Qed.

Lemma scan_key_spec t pe m : scan_key t pe = Ok (Some m) <-> marked_in t pe false m.
Proof.
  unfold scan_key. destruct t as [v|m0 s|m0 l|m0 d].
  - split; [discriminate | inversion 1].
  - split; [discriminate | inversion 1].
  - destruct pe as [s|n].
    + split.
      * intros H. injection H as H. apply scan_items_text in H. destruct H as [(l1 & r & -> & H1 & l2 & l3 & -> & H2 & H3)|[H _]]; [|discriminate].
        now constructor.
      * inversion 1; subst. f_equal. apply scan_items_text. left. exists l1, (l2 ++ l3). split; [reflexivity|]. split; [assumption|]. exists l2, l3. auto.
    + rewrite scan_items_index. split; [discriminate | inversion 1].
  - destruct pe as [s|n]; split; try discriminate.
    + intros H. injection H as H. now constructor.
    + inversion 1; subst. now f_equal.
    + inversion 1.
Qed.
Lemma scan_key_err t pe e : scan_key t pe = Err e -> e = ETypeErr.
Proof. unfold scan_key. destruct t; congruence. Qed.

Definition best (t : mval) (p : path) (m : mark) : Prop :=
  exists n, position t p n m /\ forall n' m', position t p n' m' -> n' <= n.
Definition located (t : mval) (p : path) (r : res (option mark)) : Prop :=
  match r with
  | Ok (Some m) => best t p m
  | Ok None | Err EKey | Err ETypeErr => forall n m, ~ position t p n m
  | Err _ => False
  end.

Lemma position_one t pe n m : position t [pe] n m <-> n = 0 /\ marked_in t pe true m.
Proof.
  split.
  - intros [b [x [a [c [E [Hn [Hl Hm]]]]]]]. destruct b as [|y b]; [|destruct b; discriminate].
    injection E as <- <-. inversion Hl; subst. auto.
  - intros [-> H]. exists [], pe, [], t. repeat split; auto. constructor.
Qed.
Inductive step : mval -> pelem -> mval -> Prop :=
| s_key : forall m d k x, massoc k d = Some x -> step (MDict m d) (PKey k) x
| s_item : forall m l i x, nth_error l i = Some x -> step (MList m l) (PIdx i) x.
Lemma leads_cons t pe rest y : leads t (pe :: rest) y <-> exists x, step t pe x /\ leads x rest y.
Proof.
  split.
  - inversion 1; subst; eexists; (split; [constructor; eassumption | assumption]).
  - intros [x [Hs Hl]]. inversion Hs; subst; econstructor; eauto.
Qed.
Lemma position_cons t pe pe2 rest n m :
  position t (pe :: pe2 :: rest) n m <->
  (n = 0 /\ marked_in t pe false m) \/ (exists n' x, n = S n' /\ step t pe x /\ position x (pe2 :: rest) n' m).
Proof.
  split.
  - intros [b [x [a [c [E [Hn [Hl Hm]]]]]]]. destruct b as [|y b].
    + injection E as <- <-. inversion Hl; subst. left. auto.
    + injection E as <- E. apply leads_cons in Hl as [z [Hs Hl]]. right. exists (List.length b), z.
      split; [exact (eq_sym Hn)|]. split; [exact Hs|]. exists b, x, a, c. auto.
  - intros [[-> H]|[n' [x [-> [Hs [b [y [a [c [E [Hn [Hl Hm]]]]]]]]]]]].
    + exists [], pe, (pe2 :: rest), t. repeat split; auto. constructor.
    + exists (pe :: b), y, a, c. rewrite E. repeat split; auto; [cbn; congruence|]. apply leads_cons. eauto.
Qed.
Lemma step_det t pe x y : step t pe x -> step t pe y -> x = y.
Proof. intros H1 H2. inversion H1; subst; inversion H2; subst; congruence. Qed.

Lemma indices_step t pe rest x : indices_ok t (pe :: rest) -> step t pe x -> indices_ok x rest.
Proof.
  intros H Hs b i a c E Hl. apply (H (pe :: b) i a c); [now rewrite E|]. apply leads_cons. eauto.
Qed.

Lemma get_location_located p : forall t, p <> [] -> indices_ok t p -> located t p (get_location t p).
Proof.
  induction p as [|pe p IH]; [congruence|]. intros t _ Hix. destruct p as [|pe2 rest].
  - (* the last element *)
    assert (Hscan : (forall m, marked_in t pe true m -> marked_in t pe false m) ->
              located t [pe] (scan_key t pe)).
    { intros Hm. unfold located. destruct (scan_key t pe) as [[m|]|e] eqn:E.
      - apply scan_key_spec in E. exists 0. split.
        + apply position_one. split; [reflexivity|]. inversion E; subst; now constructor.
        + intros n' m' H. apply position_one in H as [-> _]. lia.
      - intros n m H. apply position_one in H as [_ H]. apply Hm in H. apply scan_key_spec in H. congruence.
      - apply scan_key_err in E as E'. subst. intros n m H. apply position_one in H as [_ H].
        apply Hm in H. apply scan_key_spec in H. congruence. }
    cbn [get_location]. destruct t as [v|m0 s|m0 l|m0 d].
    + assert (Hno : forall n m, ~ position (MScalar v) [pe] n m).
      { intros n m H. apply position_one in H as [_ H]. inversion H. }
      destruct v; try (apply Hscan; inversion 1); exact Hno.
    + destruct pe; apply Hscan; inversion 1.
    + destruct pe as [s|i]; [apply Hscan; inversion 1; subst; now constructor|].
      assert (Hi : i < List.length l) by exact (Hix [] i [] (MList m0 l) eq_refl (l_here _)).
      destruct (nth_error l i) as [x|] eqn:E; [|apply nth_error_None in E; lia]. cbn [located].
      destruct (loc_of x) as [m|] eqn:El.
      * exists 0. split; [apply position_one; split; [reflexivity|]; econstructor; eauto|].
        intros n' m' H. apply position_one in H as [-> _]. lia.
      * intros n m H. apply position_one in H as [_ H]. inversion H; subst. congruence.
    + destruct pe as [s|i]; apply Hscan; inversion 1; subst; now constructor.
  - assert (Hnew : forall t', indices_ok t' (pe2 :: rest) -> located t' (pe2 :: rest) (get_location t' (pe2 :: rest))).
    { intros t' H'. apply IH; [discriminate | exact H']. }
    remember (pe2 :: rest) as p2 eqn:Ep.
    assert (Eq : get_location t (pe :: p2) =
      match (match mindex t pe with Ok sub => get_location sub p2 | Err e => Err e end) with
      | Ok (Some m) => Ok (Some m)
      | Ok None | Err EKey | Err ETypeErr => match t with MScalar (VStr _) => Ok None | _ => scan_key t pe end
      | Err e => Err e
      end) by (rewrite Ep; reflexivity).
    rewrite Eq. clear Eq.
    (* falling back to the key itself *)
    assert (Hfall : (forall n x m, step t pe x -> ~ position x p2 n m) ->
              located t (pe :: p2) (match t with MScalar (VStr _) => Ok None | _ => scan_key t pe end)).
    { intros Hno.
      assert (Hs : located t (pe :: p2) (scan_key t pe)).
      { unfold located. subst p2. destruct (scan_key t pe) as [[m|]|e] eqn:E.
        - apply scan_key_spec in E. exists 0. split; [apply position_cons; now left|].
          intros n' m' H. apply position_cons in H as [[-> _]|[n2 [x [_ [Hs H]]]]]; [lia|]. exfalso. exact (Hno _ _ _ Hs H).
        - intros n m H. apply position_cons in H as [[_ H]|[n2 [x [_ [Hs H]]]]]; [|exact (Hno _ _ _ Hs H)].
          apply scan_key_spec in H. congruence.
        - apply scan_key_err in E as E'. subst. intros n m H.
          apply position_cons in H as [[_ H]|[n2 [x [_ [Hs H]]]]]; [|exact (Hno _ _ _ Hs H)].
          apply scan_key_spec in H. congruence. }
      destruct t as [v| | |]; try exact Hs. destruct v; exact Hs. }
    destruct (mindex t pe) as [sub|e] eqn:Em.
    + assert (Hs : step t pe sub).
      { destruct t as [v|m0 s|m0 l|m0 d]; destruct pe as [k|i]; cbn [mindex] in Em; try discriminate.
        - destruct v; discriminate.
        - exfalso. destruct v; try discriminate. specialize (Hix [] i p2 _ eq_refl (l_here _)). cbn in Hix. congruence.
        - exfalso. specialize (Hix [] i p2 _ eq_refl (l_here _)). cbn in Hix. congruence.
        - destruct (nth_error l i) eqn:E; [|discriminate]. injection Em as <-. now constructor.
        - destruct (massoc k d) eqn:E; [|discriminate]. injection Em as <-. now constructor. }
      specialize (Hnew sub (indices_step _ _ _ _ Hix Hs)).
      assert (Hdet : (forall n m, ~ position sub p2 n m) -> forall n x m, step t pe x -> ~ position x p2 n m).
      { intros H n x m Hx. rewrite <- (step_det _ _ _ _ Hs Hx). apply H. }
      destruct (get_location sub p2) as [[m|]|e]; cbn [located] in Hnew.
      * destruct Hnew as [n [H1 H2]]. exists (S n). subst p2. split.
        -- apply position_cons. right. eauto.
        -- intros n' m' H. apply position_cons in H as [[-> _]|[n2 [x [-> [Hx H]]]]]; [lia|].
           rewrite <- (step_det _ _ _ _ Hs Hx) in H. apply H2 in H. lia.
      * now apply Hfall, Hdet.
      * destruct e; try contradiction; now apply Hfall, Hdet.
    + assert (Hns : forall x, ~ step t pe x).
      { intros x Hx. inversion Hx; subst; cbn [mindex] in Em;
          match goal with H : _ = Some _ |- _ => rewrite H in Em end; discriminate. }
      assert (He : e = EKey \/ e = ETypeErr).
      { destruct t as [v|m0 s|m0 l|m0 d]; destruct pe as [k|i]; cbn [mindex] in Em.
        - destruct v; injection Em as <-; auto.
        - destruct v; try (injection Em as <-; now auto).
          exfalso. specialize (Hix [] i p2 _ eq_refl (l_here _)). cbn in Hix. congruence.
        - injection Em as <-; auto.
        - exfalso. specialize (Hix [] i p2 _ eq_refl (l_here _)). cbn in Hix. congruence.
        - injection Em as <-; auto.
        - assert (Hi : i < List.length l) by exact (Hix [] i p2 (MList m0 l) eq_refl (l_here _)).
          destruct (nth_error l i) eqn:E; [discriminate|]. apply nth_error_None in E. lia.
        - destruct (massoc k d); [discriminate|]. injection Em as <-; auto.
        - injection Em as <-; auto. }
      assert (Hno : forall n x m, step t pe x -> ~ position x p2 n m) by (intros n x m Hx; now apply Hns in Hx).
      destruct He as [-> | ->]; now apply Hfall.
Qed.

(** A template is an object: no error reaches the caller. *)
Lemma c14_position m0 d p : p <> [] -> indices_ok (MDict m0 d) p ->
  match get_location (MDict m0 d) p with
  | Ok (Some m) => exists n, position (MDict m0 d) p n m /\ forall n' m', position (MDict m0 d) p n' m' -> n' <= n
  | Ok None => forall n m, ~ position (MDict m0 d) p n m
  | Err _ => False
  end.
Proof.
  intros Hp Hix. assert (H := get_location_located p _ Hp Hix).
  destruct (get_location (MDict m0 d) p) as [[m|]|e] eqn:E; [exact H | exact H |].
  exfalso. destruct p as [|pe [|pe2 rest]]; [congruence | |].
  - cbn [get_location] in E. destruct pe; discriminate.
  - assert (He : e <> EKey /\ e <> ETypeErr).
    { cbn [get_location] in E. revert E.
      match goal with |- context[match ?X with Ok _ => _ | Err _ => _ end] => destruct X as [[m|]|e'] end; intros E.
      - discriminate.
      - destruct pe; discriminate.
      - destruct e'; try (destruct pe; discriminate); injection E as <-; split; discriminate. }
    destruct e; try contradiction; destruct He; congruence.
Qed.

(** * C19: get_condition_values and get_values *)
Definition one_branch (x : val) (p : path) : list (path * val) :=
  match x with
  | VDict [(k, sv)] =>
      if smem k CONDITION_FUNCTIONS then condition_values sv (p ++ [PKey k])
      else if String.eqb k "Ref" then if eq_str "AWS::NoValue" sv then [] else [(p, x)]
      else [(p, x)]
  | _ => [(p, x)]
  end.
Lemma condition_values_if c a b p :
  condition_values (VList [c; a; b]) p = one_branch a (p ++ [PIdx 1]) ++ one_branch b (p ++ [PIdx 2]).
Proof.
  cbn [condition_values]. unfold one_branch. f_equal.
  - destruct a as [| | | | | |[|[k sv] [|? ?]]]; try reflexivity. now rewrite <- app_assoc.
  - destruct b as [| | | | | |[|[k sv] [|? ?]]]; try reflexivity. now rewrite <- app_assoc.
Qed.
Lemma cond_fn k : smem k CONDITION_FUNCTIONS = String.eqb k "Fn::If".
Proof. cbn. now rewrite orb_false_r. Qed.
Lemma one_branch_if x p : one_branch (If_of x) p = condition_values x (p ++ [PKey "Fn::If"]).
Proof. reflexivity. Qed.
Lemma one_branch_leaf v p : ~ is_if v -> v <> NoValue -> one_branch v p = [(p, v)].
Proof.
  intros Hi Hn. destruct v as [| | | | | |[|[k sv] [|? ?]]]; try reflexivity. unfold one_branch. rewrite cond_fn.
  destruct (String.eqb_spec k "Fn::If") as [->|]; [exfalso; apply Hi; now exists sv|].
  destruct (String.eqb_spec k "Ref") as [->|]; [|reflexivity].
  destruct (eq_str "AWS::NoValue" sv) eqn:E; [|reflexivity]. exfalso. apply Hn. apply eq_str_true in E. now subst.
Qed.
Lemma one_branch_novalue p : one_branch NoValue p = [].
Proof. reflexivity. Qed.

Lemma one_branch_spec v : forall p w q, In (q, w) (one_branch v p) <-> alternative v p w q.
Proof.
  induction v as [v IH] using vsize_ind. intros p w q. destruct (is_if_dec v) as [[x ->]|Hni].
  - rewrite one_branch_if. split.
    + intros H. destruct x as [| | | | |[|c [|a [|b [|? ?]]]]|]; try (cbn in H; destruct H).
      rewrite condition_values_if, <- !app_assoc in H. apply in_app_iff in H as [H|H].
      * apply alt_then. apply IH; [cbn; lia | exact H].
      * apply alt_else. apply IH; [cbn; lia | exact H].
    + intros H. inversion H; subst.
      * rewrite condition_values_if, <- !app_assoc. apply in_app_iff; left. apply IH; [cbn; lia | assumption].
      * rewrite condition_values_if, <- !app_assoc. apply in_app_iff; right. apply IH; [cbn; lia | assumption].
      * exfalso. match goal with H : ~ is_if _ |- _ => apply H end. now exists x.
  - split.
    + intros H. destruct (is_novalue v) eqn:En.
      * apply is_novalue_iff in En; subst. destruct H.
      * apply is_novalue_false in En. rewrite one_branch_leaf in H by assumption. destruct H as [H|[]].
        injection H as <- <-. now constructor.
    + intros H. inversion H; subst; try (exfalso; apply Hni; eexists; reflexivity).
      rewrite one_branch_leaf by assumption. now left.
Qed.
Lemma condition_values_spec x p w q :
  In (q, w) (condition_values x (p ++ [PKey "Fn::If"])) <-> alternative (If_of x) p w q.
Proof. rewrite <- one_branch_if. apply one_branch_spec. Qed.
Lemma list_value_eq i x p : list_value i x p = one_branch x (p ++ [PIdx i]).
Proof.
  unfold list_value, one_branch. destruct x as [| | | | | |[|[k sv] [|? ?]]]; try reflexivity.
  destruct (smem k CONDITION_FUNCTIONS); [now rewrite <- app_assoc|].
  destruct (String.eqb k "Ref"); [|reflexivity]. cbn [andb]. reflexivity.
Qed.
Lemma alternative_leaf v p w q : alternative v p w q -> ~ is_if w /\ w <> NoValue.
Proof. induction 1; auto. Qed.
Lemma alternative_ext v p w q : alternative v p w q -> exists r, q = p ++ r.
Proof.
  induction 1 as [c a b p w q H [r ->]|c a b p w q H [r ->]|v p Hi Hn].
  - exists ([PKey "Fn::If"; PIdx 1] ++ r). now rewrite app_assoc.
  - exists ([PKey "Fn::If"; PIdx 2] ++ r). now rewrite app_assoc.
  - exists []. now rewrite app_nil_r.
Qed.
Lemma one_branch_NoDup v : forall p, NoDup (map fst (one_branch v p)).
Proof.
  induction v as [v IH] using vsize_ind. intros p. destruct (is_if_dec v) as [[x ->]|Hni].
  - rewrite one_branch_if. destruct x as [| | | | |[|c [|a [|b [|? ?]]]]|]; try constructor.
    rewrite condition_values_if, map_app. apply NoDup_app_disj.
    + apply IH. cbn; lia.
    + apply IH. cbn; lia.
    + intros q H1 H2. apply in_map_iff in H1 as [[q1 w1] [E1 H1]]. apply in_map_iff in H2 as [[q2 w2] [E2 H2]].
      cbn in *; subst. apply one_branch_spec, alternative_ext in H1 as [r1 R1].
      apply one_branch_spec, alternative_ext in H2 as [r2 R2].
      rewrite R2, <- !app_assoc in R1. apply app_inv_head in R1. discriminate.
  - destruct (is_novalue v) eqn:En.
    + apply is_novalue_iff in En; subst. constructor.
    + apply is_novalue_false in En. rewrite one_branch_leaf by assumption. cbn. constructor; [intros [] | constructor].
Qed.

(** A value that is no Fn::If: depth one is enough. *)
Definition leaf_values (v : val) (p : path) : list (path * val) :=
  match v with
  | VList l => flat_map (fun ix => list_value (fst ix) (snd ix) p) (enum l)
  | _ => if is_novalue v then [] else [(p, v)]
  end.
Lemma values_leaf f v p : ~ is_if v -> v <> VNull -> values_of (S f) v p = Ok (Some (leaf_values v p)).
Proof.
  intros Hi Hn. destruct v as [| | | | | |[|[k sv] [|? ?]]]; try reflexivity; try congruence.
  cbn [values_of]. rewrite cond_fn. destruct (String.eqb_spec k "Fn::If") as [->|]; [exfalso; apply Hi; now exists sv|].
  unfold leaf_values. cbn [is_novalue]. destruct (String.eqb k "Ref" && eq_str "AWS::NoValue" sv); reflexivity.
Qed.
Lemma in_enum {A} (l : list A) i x : In (i, x) (enum l) <-> nth_error l i = Some x.
Proof.
  unfold enum. assert (H : forall k i, In (i, x) (enum_from k l) <-> k <= i /\ nth_error l (i - k) = Some x).
  { induction l as [|y l IH]; intros k j; cbn [enum_from].
    - split; [intros [] | intros [_ H]; destruct (j - k); discriminate].
    - cbn [In]. rewrite IH. split.
      + intros [H|[H1 H2]].
        * injection H as -> ->. split; [lia|]. now rewrite Nat.sub_diag.
        * split; [lia|]. replace (j - k) with (S (j - S k)) by lia. exact H2.
      + intros [H1 H2]. destruct (j - k) as [|n] eqn:E.
        * injection H2 as ->. left. f_equal. lia.
        * right. split; [lia|]. replace (j - S k) with n by lia. exact H2. }
  rewrite H, Nat.sub_0_r. intuition lia.
Qed.
Lemma leaf_values_spec v p w q : ~ is_if v -> (In (q, w) (leaf_values v p) <-> single v p w q).
Proof.
  intros Hi. split.
  - intros H. destruct (is_list v) eqn:El.
    + destruct v; try discriminate. cbn [leaf_values] in H. apply in_flat_map in H as [[i x] [H1 H2]].
      apply in_enum in H1. cbn [fst snd] in H2. rewrite list_value_eq in H2. apply one_branch_spec in H2.
      eapply sg_item; [apply alt_leaf; [exact Hi | discriminate] | eassumption | exact H2].
    + assert (Hn : is_novalue v = false /\ (q, w) = (p, v)).
      { destruct (is_novalue v) eqn:En.
        - exfalso. destruct v; try discriminate. cbn [leaf_values] in H. rewrite En in H. destruct H.
        - split; [reflexivity|]. destruct v; try discriminate; cbn [leaf_values] in H; rewrite ?En in H;
            destruct H as [H|[]]; now rewrite H. }
      destruct Hn as [Hn E]. injection E as -> ->. apply is_novalue_false in Hn. apply sg_value; [now constructor | exact El].
  - intros H. destruct H as [v p w q Ha Hl|v p l q i x w r Ha Hx Hb].
    + inversion Ha; subst; try (exfalso; apply Hi; eexists; reflexivity).
      match goal with Hn : ?u <> NoValue |- _ => apply is_novalue_false in Hn; destruct u; cbn [leaf_values]; try discriminate;
        rewrite ?Hn; now left end.
    + inversion Ha; subst; try (exfalso; apply Hi; eexists; reflexivity).
      cbn [leaf_values]. apply in_flat_map. exists (i, x). split; [now apply in_enum|]. cbn [fst snd].
      rewrite list_value_eq. now apply one_branch_spec.
Qed.

Lemma concat_res_ok_iff {A B} (f : A -> res (list B)) l out :
  concat_res f l = Ok out -> forall y, In y out <-> exists x o, In x l /\ f x = Ok o /\ In y o.
Proof.
  revert out. induction l as [|a l IH]; intros out H y; cbn [concat_res] in H.
  - injection H as <-. split; [intros [] | intros [x [o [[] _]]]].
  - destruct (f a) as [o1|] eqn:E1; cbn [bind] in H; [|discriminate].
    destruct (concat_res f l) as [o2|] eqn:E2; cbn [bind] in H; [|discriminate]. injection H as <-.
    rewrite in_app_iff, (IH o2 eq_refl). split.
    + intros [H|[x [o [H1 H2]]]]; [exists a, o1; repeat split; auto; now left | exists x, o; split; [now right | exact H2]].
    + intros [x [o [[<-|H1] [H2 H3]]]]; [left; congruence | right; exists x, o; auto].
Qed.

Lemma single_if x p w q :
  single (If_of x) p w q <-> exists a r, alternative (If_of x) p a r /\ single a r w q.
Proof.
  split.
  - intros H. remember (If_of x) as v. destruct H as [v p w q Ha Hl|v p l q i y w r Ha Hx Hb]; subst v.
    + exists w, q. split; [exact Ha|]. apply sg_value; [|exact Hl]. apply alternative_leaf in Ha. destruct Ha. now constructor.
    + exists (VList l), q. split; [exact Ha|]. eapply sg_item; eauto. constructor; [intros [z Hz]; discriminate | discriminate].
  - intros [a [r [Ha Hs]]]. assert (Hlf := alternative_leaf _ _ _ _ Ha). destruct Hlf as [Hni Hnn].
    destruct Hs as [a r w q Ha2 Hl|a r l q i y w s Ha2 Hx Hb].
    + inversion Ha2; subst; try (exfalso; apply Hni; eexists; reflexivity). now apply sg_value.
    + inversion Ha2; subst; try (exfalso; apply Hni; eexists; reflexivity). eapply sg_item; eauto.
Qed.

(** get_values: what it returns, and when it fails. *)
Lemma get_values_spec d key v p :
  assoc key d = Some v -> v <> VNull ->
  (forall l, get_values (VDict d) key p = Ok (Some l) -> forall w q, In (q, w) l <-> single v p w q) /\
  ((exists l, get_values (VDict d) key p = Ok (Some l)) <-> forall q, ~ alternative v p VNull q) /\
  ((exists q, alternative v p VNull q) -> get_values (VDict d) key p = Err ETypeErr).
Proof.
  intros Hk Hn. unfold get_values. rewrite Hk. destruct (is_if_dec v) as [[x ->]|Hni].
  - set (f := fun r : path * val => do o <- values_of 1 (snd r) (fst r); match o with Some ms => Ok ms | None => Err ETypeErr end).
    assert (E0 : values_of 2 (If_of x) p =
              bind (concat_res f (condition_values x (p ++ [PKey "Fn::If"]))) (fun l => Ok (Some l))) by reflexivity.
    rewrite E0. clear E0.
    assert (Hf : forall r, In r (condition_values x (p ++ [PKey "Fn::If"])) ->
              f r = if is_null (snd r) then Err ETypeErr else Ok (leaf_values (snd r) (fst r))).
    { intros [q w] Hr. apply condition_values_spec in Hr. apply alternative_leaf in Hr as [Hr _]. unfold f. cbn [fst snd].
      destruct w as [|b|z|fl|s|l|d']; try reflexivity.
      change (bind (values_of 1 (VDict d') q) (fun o => match o with Some ms => Ok ms | None => Err ETypeErr end) = Ok (leaf_values (VDict d') q)).
      rewrite values_leaf; [reflexivity | exact Hr | discriminate]. }
    assert (Hif := condition_values_spec x p).
    assert (Hdec : (exists l, concat_res f (condition_values x (p ++ [PKey "Fn::If"])) = Ok l /\
                       forall r, In r (condition_values x (p ++ [PKey "Fn::If"])) -> snd r <> VNull) \/
                   (concat_res f (condition_values x (p ++ [PKey "Fn::If"])) = Err ETypeErr /\
                    exists q, In (q, VNull) (condition_values x (p ++ [PKey "Fn::If"])))).
    { clear Hif. revert Hf. generalize (condition_values x (p ++ [PKey "Fn::If"])). clearbody f.
      induction l as [|[q w] l IH]; intros Hf.
      - left. exists []. split; [reflexivity | intros r []].
      - cbn [concat_res]. rewrite (Hf (q, w) (or_introl eq_refl)). cbn [snd fst].
        assert (Hcase : w = VNull \/ w <> VNull) by (destruct w; auto; right; discriminate).
        destruct Hcase as [->|Hw].
        + right. cbn [bind]. split; [reflexivity|]. exists q. now left.
        + assert (E : is_null w = false) by (destruct w; cbn; congruence).
          rewrite E. cbn [bind]. destruct IH as [[o [H1 H2]]|[H1 [q' H2]]].
          * intros r Hr. apply Hf. now right.
          * left. rewrite H1. cbn [bind]. eexists. split; [reflexivity|]. intros r [<-|Hr]; [exact Hw | now apply H2].
          * right. rewrite H1. cbn [bind]. split; [reflexivity|]. exists q'. now right. }
    destruct Hdec as [[out [E Hnn]]|[E [q0 Hq0]]]; rewrite E; cbn [bind].
    + split; [|split].
      * intros l H w q. injection H as <-. rewrite (concat_res_ok_iff f _ out E). rewrite single_if. split.
        -- intros [[r a] [o [H1 [H2 H3]]]]. exists a, r. apply Hif in H1 as Ha. split; [exact Ha|].
           rewrite (Hf _ H1) in H2. cbn [fst snd] in H2. specialize (Hnn _ H1). cbn [snd] in Hnn.
           assert (H2' : o = leaf_values a r) by (destruct a; cbn [is_null] in H2; congruence). subst o.
           apply leaf_values_spec; [|exact H3]. now apply alternative_leaf in Ha.
        -- intros [a [r [Ha Hs]]]. apply Hif in Ha as H1. exists (r, a), (leaf_values a r).
           split; [exact H1|]. split.
           ++ rewrite (Hf _ H1). specialize (Hnn _ H1). cbn [fst snd] in *. destruct a; cbn [is_null]; congruence.
           ++ apply leaf_values_spec; [now apply alternative_leaf in Ha | exact Hs].
      * split; [|intros _; eexists; reflexivity]. intros _ q Hq. apply Hif in Hq. now apply (Hnn _ Hq).
      * intros [q Hq]. apply Hif in Hq. exfalso. now apply (Hnn _ Hq).
    + split; [|split].
      * intros l H. discriminate.
      * split; [intros [l H]; discriminate|]. intros H. exfalso. apply (H q0). now apply Hif.
      * reflexivity.
  - rewrite values_leaf by assumption.
    assert (Hnone : forall q, ~ alternative v p VNull q).
    { intros q H. inversion H; subst; try (apply Hni; eexists; reflexivity). now apply Hn. }
    split; [|split].
    + intros l H w q. injection H as <-. now apply leaf_values_spec.
    + split; [intros _; exact Hnone | intros _; eexists; reflexivity].
    + intros [q Hq]. now apply Hnone in Hq.
Qed.
Lemma get_values_absent d key p : assoc key d = None \/ assoc key d = Some VNull -> get_values (VDict d) key p = Ok None.
Proof. intros [H|H]; unfold get_values; rewrite H; reflexivity. Qed.
Lemma get_values_not_fuel obj key p : get_values obj key p <> Err EOutOfFuel.
Proof.
  destruct obj; try discriminate. unfold get_values.
  destruct (assoc key d) as [v|] eqn:E; [|discriminate].
  assert (Hc : v = VNull \/ v <> VNull) by (destruct v; auto; right; discriminate). destruct Hc as [->|Hv]; [discriminate|].
  destruct (get_values_spec d key v p E Hv) as [_ [[H1 H2] H3]]. unfold get_values in H1, H2, H3. rewrite E in H1, H2, H3.
  intros Hf. rewrite Hf in *.
  destruct (is_if_dec v) as [[x ->]|Hni].
  - destruct (existsb (fun r => match snd r with VNull => true | _ => false end) (condition_values x (p ++ [PKey "Fn::If"]))) eqn:Ex.
    + apply existsb_exists in Ex as [[q w] [Hin Hw]]. cbn in Hw. destruct w; try discriminate.
      apply condition_values_spec in Hin. discriminate H3. eauto.
    + destruct H2 as [l Hl]; [|discriminate]. intros q Hq. apply condition_values_spec in Hq.
      apply Bool.not_true_iff_false in Ex. apply Ex. apply existsb_exists. exists (q, VNull). auto.
  - rewrite values_leaf in Hf by assumption. discriminate.
Qed.

(** get_safe. *)
Lemma get_safe_spec d key v p t :
  assoc key d = Some v -> v <> VNull ->
  exists l, get_safe d key VNull p None = Ok l /\ (forall w q, In (w, q) l <-> branch v (p ++ [PKey key]) w q) /\
  get_safe d key VNull p (Some t) = Ok (filter (fun wq => t (fst wq)) l).
Proof.
  intros Hk Hv. unfold get_safe. rewrite Hk.
  assert (E1 : is_null v = false) by (destruct v; cbn; congruence). rewrite E1. cbn [andb].
  assert (E2 : py_eq v VNull = false) by (destruct v as [|[|]| | | | |]; try reflexivity; exfalso; now apply Hv). rewrite E2. cbn [andb].
  exists (branches v (p ++ [PKey key])). split; [|split].
  - destruct v; try reflexivity. cbn [branches]. f_equal. generalize (items_safe (VDict d0) (p ++ [PKey key])).
    induction l as [|x l IH]; [reflexivity|]. cbn [filter]. now f_equal.
  - intros w q. apply branches_spec.
  - destruct v; try reflexivity; cbn [branches filter fst]; destruct (t _); reflexivity.
Qed.
Lemma list_items_safe_spec l p t w q :
  In (w, q) (list_items_safe t l p) <->
  t w = true /\ exists i x, nth_error l i = Some x /\ branch x (p ++ [PIdx i]) w q.
Proof.
  unfold list_items_safe. rewrite filter_In, in_flat_map. cbn [fst]. split.
  - intros [[[i x] [H1 H2]] Ht]. split; [exact Ht|]. exists i, x. apply in_enum in H1. split; [exact H1|].
    apply branches_spec. cbn [fst snd] in H2. destruct x; exact H2.
  - intros [Ht [i [x [H1 H2]]]]. split; [|exact Ht]. exists (i, x). split; [now apply in_enum|].
    apply branches_spec in H2. cbn [fst snd]. destruct x; exact H2.
Qed.
