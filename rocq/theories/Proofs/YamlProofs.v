(** Proofs for C12: YAML. *)
From Coq Require Import List Lia Bool.
From Verif.Model Require Import Base Yaml.
From Verif.Spec Require Import YamlNodes.
From Verif.Proofs Require Import BaseFacts.
Import ListNotations.
Local Open Scope string_scope.

Fixpoint ynode_induct (P : ynode -> Prop) (H1 : forall m s, P (NStr m s)) (H2 : forall m s, P (NNull m s)) (H3 : forall m t s, P (NScalar m t s))
  (H4 : forall m l, (forall x, In x l -> P x) -> P (NSeq m l)) (H5 : forall m ms, (forall k x, In (k, x) ms -> P k /\ P x) -> P (NMap m ms))
  (H6 : forall m t s, P (NTagS m t s)) (H7 : forall m t l, (forall x, In x l -> P x) -> P (NTagL m t l))
  (H8 : forall m t ms, (forall k x, In (k, x) ms -> P k /\ P x) -> P (NTagM m t ms)) (H9 : forall m, P (NUnknown m)) (n : ynode) : P n.
Proof.
  destruct n as [m s|m s|m t s|m l|m ms|m t s|m t l|m t ms|m]; auto.
  - apply H4. induction l as [|y l IH]; [intros x [] | intros x [<-|Hx]; [|exact (IH x Hx)]]. exact (ynode_induct P H1 H2 H3 H4 H5 H6 H7 H8 H9 y).
  - apply H5. induction ms as [|[k' y] ms IH]; [intros k x [] | intros k x [E|Hx]; [|exact (IH k x Hx)]]. injection E as <- <-. split; [exact (ynode_induct P H1 H2 H3 H4 H5 H6 H7 H8 H9 k') | exact (ynode_induct P H1 H2 H3 H4 H5 H6 H7 H8 H9 y)].
  - apply H7. induction l as [|y l IH]; [intros x [] | intros x [<-|Hx]; [|exact (IH x Hx)]]. exact (ynode_induct P H1 H2 H3 H4 H5 H6 H7 H8 H9 y).
  - apply H8. induction ms as [|[k' y] ms IH]; [intros k x [] | intros k x [E|Hx]; [|exact (IH k x Hx)]]. injection E as <- <-. split; [exact (ynode_induct P H1 H2 H3 H4 H5 H6 H7 H8 H9 k') | exact (ynode_induct P H1 H2 H3 H4 H5 H6 H7 H8 H9 y)].
Qed.

Section Y.
Variable scalar : string -> string -> val + exn.
Notation con := (construct scalar).
Fixpoint seq_go (l : list ynode) : yres (list yv) :=
  match l with [] => YOk [] | x :: r => ybind (con x) (fun v => ybind (seq_go r) (fun vs => YOk (v :: vs))) end.
Fixpoint map_go (ms : list (ynode * ynode)) (seen : list yv) : yres (list (yv * yv)) :=
  match ms with
  | [] => YOk []
  | (kn, vn) :: r =>
      ybind (con kn) (fun k => ybind (con vn) (fun v =>
        if hashable k then
          if existsb (key_eq k) seen then
            match k with YText s => YErr (YDuplicate s (mark_of kn)) | _ => YErr (YExn ETypeErr) end
          else ybind (map_go r (k :: seen)) (fun d => YOk ((k, v) :: d))
        else YErr (YExn ETypeErr)))
  end.
Lemma con_seq m l : con (NSeq m l) = ybind (seq_go l) (fun vs => YOk (YList vs)).
Proof. reflexivity. Qed.
Lemma con_map m ms : con (NMap m ms) = ybind (map_go ms []) (fun d => YOk (YDict d)).
Proof. reflexivity. Qed.
Lemma con_short m t l : String.eqb (function_name t) "Fn::GetAtt" = false -> con (NTagL m t l) = ybind (seq_go l) (fun vs => YOk (YDict [(YText (function_name t), YList vs)])).
Proof. intros H. cbn [construct]. rewrite H. reflexivity. Qed.
Lemma function_spec t : tag_function t (function_name t).
Proof.
  unfold function_name. cbn [smem existsb]. destruct (String.eqb_spec t "Ref") as [->|N1]; [constructor|]. destruct (String.eqb_spec t "Condition") as [->|N2]; [constructor|]. cbn [orb]. now constructor.
Qed.
Lemma function_unique t f : tag_function t f -> f = function_name t.
Proof. intros [| |s N1 N2]; try reflexivity. unfold function_name. cbn [smem existsb]. rewrite (proj2 (String.eqb_neq s "Ref") N1), (proj2 (String.eqb_neq s "Condition") N2). reflexivity. Qed.
Lemma function_getatt t : String.eqb (function_name t) "Fn::GetAtt" = true <-> t = "GetAtt".
Proof.
  split; [|now intros ->]. intros H. apply String.eqb_eq in H. pose proof (function_spec t) as K. rewrite H in K. inversion K; subst; reflexivity.
Qed.
Lemma split_once_spec s : getatt_parts s (split_once s).
Proof.
  induction s as [|c s IH]; cbn [split_once]; [now constructor|]. unfold char_eqb. destruct (Ascii.eqb_spec c "."%char) as [->|N].
  - apply (gp_parts "" s). reflexivity.
  - remember (split_once s) as l eqn:El. clear El. destruct IH as [s E|a b E].
    + apply gp_whole. cbn [has_char]. unfold char_eqb. rewrite (proj2 (Ascii.eqb_neq c "."%char) N). exact E.
    + apply (gp_parts (String c a) b). cbn [has_char]. unfold char_eqb. rewrite (proj2 (Ascii.eqb_neq c "."%char) N). exact E.
Qed.

Lemma in_seen s seen : existsb (key_eq (YText s)) seen = true <-> In (YText s) seen.
Proof.
  rewrite existsb_exists. split.
  - intros [x [Hx E]]. destruct x as [t|v|l|d|]; cbn in E; try discriminate. apply String.eqb_eq in E. now subst t.
  - intros H. exists (YText s). split; [exact H | apply String.eqb_refl].
Qed.
Definition sound_at (n : ynode) : Prop := match con n with YOk v => means scalar n v /\ forall e, ~ wrong n e | YErr e => wrong n e end.
Lemma seq_sound l : (forall n, In n l -> sound_at n) -> match seq_go l with YOk vs => means_items scalar l vs /\ forall n, In n l -> forall e, ~ wrong n e | YErr e => exists n, In n l /\ wrong n e end.
Proof.
  induction l as [|x l IH]; intros H; cbn [seq_go]; [split; [constructor | intros n []]|].
  pose proof (H x (or_introl eq_refl)) as Hx. unfold sound_at in Hx. destruct (con x) as [v|e]; cbn [ybind]; [|exists x; split; [now left | exact Hx]]. destruct Hx as [Hm Hw].
  specialize (IH (fun n Hn => H n (or_intror Hn))). destruct (seq_go l) as [vs|e]; cbn [ybind]; [|destruct IH as [n [H1 H2]]; exists n; split; [now right | exact H2]].
  destruct IH as [I1 I2]. split; [now constructor | intros n [<-|Hn]; auto].
Qed.
Lemma map_sound ms : (forall k n, In (k, n) ms -> (exists mk s, k = NStr mk s) /\ sound_at n) -> forall seen,
  match map_go ms seen with
  | YOk d => means_members scalar ms d /\ (forall k n, In (k, n) ms -> forall e, ~ wrong n e) /\
      (forall l1 mk s n l2, ms = (l1 ++ (NStr mk s, n) :: l2)%list -> ~ In (YText s) seen /\ forall mk' n', ~ In (NStr mk' s, n') l1)
  | YErr e => (exists k n, In (k, n) ms /\ wrong n e) \/
      exists l1 mk s n l2, ms = (l1 ++ (NStr mk s, n) :: l2)%list /\ e = YDuplicate s mk /\ (In (YText s) seen \/ exists mk' n', In (NStr mk' s, n') l1)
  end.
Proof.
  induction ms as [|[kn x] ms IH]; intros H seen; cbn [map_go].
  { split; [constructor|]. split; [intros k n []|]. intros [|] ? ? ? ?; discriminate. }
  destruct (H kn x (or_introl eq_refl)) as [[mk [s ->]] Hx]. cbn [construct ybind]. unfold sound_at in Hx. destruct (con x) as [v|e]; cbn [ybind]; [|left; exists (NStr mk s), x; split; [now left | exact Hx]].
  destruct Hx as [Hm Hw]. cbn [hashable]. destruct (existsb (key_eq (YText s)) seen) eqn:Es.
  { right. exists [], mk, s, x, ms. split; [reflexivity|]. split; [reflexivity|]. left. now apply in_seen. }
  assert (Hs : ~ In (YText s) seen) by (intros K; apply in_seen in K; congruence).
  specialize (IH (fun k n Hn => H k n (or_intror Hn)) (YText s :: seen)). destruct (map_go ms (YText s :: seen)) as [d|e]; cbn [ybind].
  - destruct IH as [I1 [I2 I3]]. split; [now constructor|]. split; [intros k n [K|K]; [injection K as <- <-; exact Hw | now apply (I2 k)]|].
    intros [|[k1 n1] l1] mk0 s0 n0 l2 E; [injection E as -> -> -> ->; split; [exact Hs | intros mk' n' []]|]. injection E as <- <- E. destruct (I3 _ _ _ _ _ E) as [J1 J2]. split; [intros K; apply J1; now right|].
    intros mk' n' [K|K]; [injection K as _ -> _; apply J1; now left | now apply (J2 mk' n')].
  - destruct IH as [[k [n [I1 I2]]]|[l1 [mk0 [s0 [n0 [l2 [-> [-> I3]]]]]]]]; [left; exists k, n; split; [now right | exact I2]|]. right. exists ((NStr mk s, x) :: l1), mk0, s0, n0, l2. split; [reflexivity|]. split; [reflexivity|].
    destruct I3 as [[K|K]|[mk' [n' K]]]; [injection K as ->; right; exists mk, x; now left | now left | right; exists mk', n'; now right].
Qed.
Lemma construct_sound n : ordinary scalar n -> sound_at n.
Proof.
  induction n as [m s|m s|m t s|m l IH|m ms IH|m t s|m t l IH|m t ms IH|m] using ynode_induct; intros H; unfold sound_at.
  - cbn. split; [constructor | intros e K; inversion K].
  - cbn. constructor.
  - inversion H; subst. cbn [construct]. match goal with E : scalar _ _ = _ |- _ => rewrite E; split; [now constructor | intros e K; inversion K] end.
  - inversion H; subst. rewrite con_seq. pose proof (seq_sound l (fun n Hn => IH n Hn (H1 n Hn))) as K. destruct (seq_go l) as [vs|e]; cbn [ybind].
    + destruct K as [K1 K2]. split; [now constructor | intros e K; inversion K; subst; eapply K2; eassumption].
    + destruct K as [n [K1 K2]]. econstructor; eassumption.
  - inversion H; subst. rewrite con_map. pose proof (map_sound ms (fun k n Hn => conj (proj1 (H1 k n Hn)) (proj2 (IH k n Hn) (proj2 (H1 k n Hn)))) []) as K. destruct (map_go ms []) as [d|e]; cbn [ybind].
    + destruct K as [K1 [K2 K3]]. split; [now constructor|]. intros e K. inversion K; subst.
      * destruct (K3 (l1 ++ (NStr m1 k, n1) :: l2)%list m2 k n2 l3) as [_ J]; [now rewrite <- app_assoc|]. apply (J m1 n1). apply in_or_app. right. now left.
      * eapply K2; eassumption.
    + destruct K as [[k [n [K1 K2]]]|[l1 [mk [s [n [l2 [-> [-> [[]|[mk' [n' K]]]]]]]]]]]; [econstructor; eassumption|]. apply in_split in K as [a [b ->]]. rewrite <- app_assoc. apply wr_repeated.
  - cbn [construct]. destruct (String.eqb (function_name t) "Fn::GetAtt") eqn:E.
    + apply function_getatt in E as ->. split; [constructor; apply split_once_spec | intros e K; inversion K].
    + split; [|intros e K; inversion K]. apply mn_short_text; [apply function_spec|]. intros ->. discriminate.
  - inversion H; subst. assert (E : String.eqb (function_name t) "Fn::GetAtt" = false) by (destruct (String.eqb _ _) eqn:E; [apply function_getatt in E; congruence | reflexivity]).
    rewrite con_short by exact E. match goal with K : forall n, In n l -> ordinary _ n |- _ => pose proof (seq_sound l (fun n Hn => IH n Hn (K n Hn))) as S end. destruct (seq_go l) as [vs|e]; cbn [ybind].
    + destruct S as [K1 K2]. split; [constructor; [apply function_spec | assumption | exact K1] | intros e K; inversion K; subst; eapply K2; eassumption].
    + destruct S as [n [K1 K2]]. econstructor; eassumption.
  - inversion H.
  - inversion H.
Qed.

Lemma getatt_unique s l l' : getatt_parts s l -> getatt_parts s l' -> l = l'.
Proof.
  assert (G : forall a b a' b', has_char "." a = false -> has_char "." a' = false -> a ++ String "." b = a' ++ String "." b' -> a = a' /\ b = b').
  { induction a as [|c a IH]; intros b [|c' a'] b' Ha Ha' E; cbn in *.
    - injection E as ->. now split.
    - injection E as <- _. discriminate.
    - injection E as -> _. discriminate.
    - injection E as -> E. unfold char_eqb in *. apply orb_false_iff in Ha as [_ Ha], Ha' as [_ Ha']. destruct (IH _ _ _ Ha Ha' E) as [-> ->]. now split. }
  assert (W : forall a b, has_char "." (a ++ String "." b) = true) by (induction a as [|c a IH]; intros b; cbn; [reflexivity|]; rewrite IH; apply orb_true_r).
  intros [s0 E|a b E] H; inversion H as [s1 E' E1|a' b' E' E1]; subst; try reflexivity.
  - rewrite W in E. discriminate.
  - rewrite W in E'. discriminate.
  - destruct (G _ _ _ _ E E' (eq_sym E1)) as [-> ->]. reflexivity.
Qed.
Scheme means_m := Minimality for means Sort Prop with items_m := Minimality for means_items Sort Prop with members_m := Minimality for means_members Sort Prop.
Combined Scheme means_all from means_m, items_m, members_m.
Lemma means_unique_all : (forall n v, means scalar n v -> forall v', means scalar n v' -> v' = v) /\ (forall l vs, means_items scalar l vs -> forall vs', means_items scalar l vs' -> vs' = vs) /\
  (forall ms d, means_members scalar ms d -> forall d', means_members scalar ms d' -> d' = d).
Proof.
  apply means_all.
  - intros m s v' H. now inversion H.
  - intros m t s v E v' H. inversion H; subst. congruence.
  - intros m l vs _ IH v' H. inversion H; subst. f_equal. auto.
  - intros m ms d _ IH v' H. inversion H; subst. f_equal. auto.
  - intros m t f s Ht N v' H. inversion H; subst; [|congruence]. do 3 f_equal. match goal with K : tag_function t _ |- _ => rewrite (function_unique _ _ K), (function_unique _ _ Ht) end. reflexivity.
  - intros m s l Hl v' H. inversion H; subst; [congruence|]. do 5 f_equal. eapply getatt_unique; eassumption.
  - intros m t f l vs Ht N _ IH v' H. inversion H; subst. match goal with K : tag_function t ?g |- _ => rewrite (function_unique _ _ K), (function_unique _ _ Ht) end. do 4 f_equal. auto.
  - intros vs' H. now inversion H.
  - intros n v l vs _ IHn _ IHl vs' H. inversion H; subst. f_equal; auto.
  - intros d' H. now inversion H.
  - intros m k n v ms d _ IHn _ IHl d' H. inversion H; subst. f_equal; [f_equal|]; auto.
Qed.
Lemma c12_accepts n v : ordinary scalar n -> (con n = YOk v <-> means scalar n v /\ forall e, ~ wrong n e).
Proof.
  intros H. apply construct_sound in H. unfold sound_at in H. split.
  - intros E. now rewrite E in H.
  - intros [Hm Hw]. destruct (con n) as [v'|e]; [|exfalso; now apply (Hw e)]. f_equal. exact (proj1 means_unique_all n v Hm v' (proj1 H)).
Qed.
Lemma c12_rejects n : ordinary scalar n -> ((exists e, wrong n e) <-> exists e, con n = YErr e) /\ forall e, con n = YErr e -> wrong n e.
Proof.
  intros H. apply construct_sound in H. unfold sound_at in H. split.
  - split; [intros [e He] | intros [e He]].
    + destruct (con n) as [v|e']; [exfalso; now apply (proj2 H e) | now exists e'].
    + rewrite He in H. now exists e.
  - intros e E. now rewrite E in H.
Qed.
End Y.

(** Witnesses. *)
Definition at0 : ymark := mkY 0 0.
Definition ints (t s : string) : val + exn := if String.eqb t "tag:yaml.org,2002:int" then inl (VInt 1) else inr EValue.
Definition good_node : ynode :=
  NMap at0 [(NStr (mkY 0 0) "Resources", NMap (mkY 1 2) [(NStr (mkY 1 2) "A", NMap at0 [(NStr at0 "Type", NStr at0 "AWS::SNS::Topic"); (NStr at0 "N", NScalar at0 "tag:yaml.org,2002:int" "1")]);
    (NStr (mkY 2 2) "B", NTagL at0 "Join" [NStr at0 ","; NSeq at0 [NTagS at0 "Ref" "A"; NTagS at0 "GetAtt" "A.B.C"]])])].
Ltac ord := repeat first [progress cbn [In] in * | match goal with
  | |- ordinary _ (NMap _ _) => apply or_map; intros ? ? ?
  | |- ordinary _ (NSeq _ _) => apply or_seq; intros ? ?
  | |- ordinary _ (NTagL _ _ _) => apply or_short_list; [discriminate | intros ? ?]
  | |- ordinary _ (NScalar _ _ _) => eapply or_scalar; reflexivity
  | |- ordinary _ _ => constructor
  | H : _ \/ _ |- _ => destruct H as [H|H]
  | H : False |- _ => destruct H
  | H : (_, _) = (_, _) |- _ => injection H as <- <-; split; [do 2 eexists; reflexivity|]
  | H : _ = ?x |- ordinary _ ?x => subst x
  end].
Lemma good_node_ordinary : ordinary ints good_node.
Proof. unfold good_node. ord. Qed.
Lemma good_node_value : construct ints good_node = YOk (YDict [(YText "Resources", YDict [(YText "A", YDict [(YText "Type", YText "AWS::SNS::Topic"); (YText "N", YScalar (VInt 1))]);
  (YText "B", YDict [(YText "Fn::Join", YList [YText ","; YList [YDict [(YText "Ref", YText "A")]; YDict [(YText "Fn::GetAtt", YList [YText "A"; YText "B.C"])]]])])])]).
Proof. reflexivity. Qed.
Definition bad_node : ynode := NMap at0 [(NStr at0 "A", NSeq at0 [NMap (mkY 3 4) [(NStr (mkY 3 4) "x", NStr at0 "1"); (NStr (mkY 4 4) "y", NStr at0 "2"); (NStr (mkY 5 4) "x", NStr at0 "3")]])].
Lemma bad_node_ordinary : ordinary ints bad_node.
Proof. unfold bad_node. ord. Qed.
Lemma bad_node_error : construct ints bad_node = YErr (YDuplicate "x" (mkY 5 4)).
Proof. reflexivity. Qed.
Lemma c12_tagged scalar m t k a b m1 m2 ma mb : t <> "GetAtt" ->
  construct scalar (NTagM m t [(NStr m1 k, NStr ma a); (NStr m2 k, NStr mb b)]) = YOk (YDict [(YText (function_name t), YDict [(YText k, YText b)])]).
Proof.
  intros N. cbn [construct]. assert (E : String.eqb (function_name t) "Fn::GetAtt" = false) by (destruct (String.eqb _ _) eqn:E; [apply function_getatt in E; congruence | reflexivity]). rewrite E.
  cbn [construct ybind hashable ydict_set key_eq]. now rewrite String.eqb_refl.
Qed.
Lemma c12_getatt_null scalar m m1 m2 s a : construct scalar (NTagL m "GetAtt" [NNull m1 s; NStr m2 a]) = YOk (YDict [(YText "Fn::GetAtt", YList [YText s; YText a])]).
Proof. reflexivity. Qed.
Lemma c12_number_key scalar m m1 m2 t s t' s' v v' a b ma mb : scalar t s = inl v -> scalar t' s' = inl v' -> py_eq v' v = true ->
  construct scalar (NMap m [(NScalar m1 t s, NStr ma a); (NScalar m2 t' s', NStr mb b)]) = YErr (YExn ETypeErr).
Proof. intros E E' K. cbn [construct ybind]. rewrite E, E'. cbn [ybind hashable existsb key_eq]. now rewrite K. Qed.
Lemma c12_unhashable scalar m mk mv suffix s x : construct scalar (NMap m [(NTagS mk suffix s, NStr mv x)]) = YErr (YExn ETypeErr).
Proof. reflexivity. Qed.
