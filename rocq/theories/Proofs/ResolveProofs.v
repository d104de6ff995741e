(** Proofs about Model/Resolve.v for C18. *)
From Coq Require Import Permutation Lia.
From Verif.Model Require Import Base Helpers Conditions Resolve.
From Verif.Spec Require Import Truth Resolved.
From Verif.Proofs Require Import BaseFacts ConditionProofs ScenarioMain.

Scheme resolved_mind := Induction for resolved Sort Prop
  with resolved_items_mind := Induction for resolved_items Sort Prop.
Combined Scheme resolved_mut from resolved_mind, resolved_items_mind.

Definition decides (sc : scenario) (n : string) : option bool := match assoc n sc with Some b => b | None => None end.
Definition left_over (r : option val) : val := match r with Some x => x | None => VNull end.

Lemma object_not_if d sc : (forall x, d <> [("Fn::If", x)]) -> VDict d <> no_value -> resolve_value sc (VDict d) = Ok (VDict d).
Proof.
  intros H1 H2. destruct d as [|[k x] [|? ?]]; try reflexivity. cbn [resolve_value].
  destruct (String.eqb_spec k "Fn::If") as [->|_]; [now destruct (H1 x)|].
  unfold is_novalue. destruct (String.eqb_spec k "Ref") as [->|_]; [|reflexivity].
  destruct x; try reflexivity. cbn [andb eq_str]. destruct (String.eqb_spec "AWS::NoValue" s) as [<-|_]; [now destruct H2 | reflexivity].
Qed.

Section Items.
Variable sc : scenario.
Fixpoint resolve_items (l : list val) : res (list val) :=
  match l with
  | [] => Ok []
  | x :: xs => do y <- resolve_value sc x; do ys <- resolve_items xs; Ok (if is_null y then ys else y :: ys)
  end.
End Items.
Lemma resolve_list sc l : resolve_value sc (VList l) = (do l' <- resolve_items sc l; Ok (VList l')).
Proof. reflexivity. Qed.

Lemma resolved_not_null decide :
  (forall v r, resolved decide v r -> r <> Some VNull) /\ (forall l l', resolved_items decide l l' -> True).
Proof. apply resolved_mut; intros; auto; discriminate. Qed.

Lemma resolve_value_ok sc :
  (forall v r, resolved (decides sc) v r -> resolve_value sc v = Ok (left_over r)) /\
  (forall l l', resolved_items (decides sc) l l' -> resolve_items sc l = Ok l').
Proof.
  apply resolved_mut; try reflexivity.
  - intros c t e r Hc _ IH. unfold if_. cbn [resolve_value scenario_get bind]. rewrite String.eqb_refl.
    unfold decides in Hc. now rewrite Hc.
  - intros c t e r Hc _ IH. unfold if_. cbn [resolve_value scenario_get bind]. rewrite String.eqb_refl.
    unfold decides in Hc. now rewrite Hc.
  - intros c t e Hc. unfold if_. cbn [resolve_value scenario_get bind]. rewrite String.eqb_refl.
    unfold decides in Hc. now rewrite Hc.
  - intros d H1 H2. now apply object_not_if.
  - intros l l' _ IH. rewrite resolve_list, IH. reflexivity.
  - intros x y l l' Hx IHx Hl IHl. cbn [resolve_items]. rewrite IHx, IHl. cbn [bind left_over].
    destruct y; try reflexivity. destruct (proj1 (resolved_not_null _) _ _ Hx). reflexivity.
  - intros x l l' Hx IHx Hl IHl. cbn [resolve_items]. rewrite IHx, IHl. reflexivity.
Qed.

Lemma plain_ifs_total decide v : plain_ifs v -> exists r, resolved decide v r.
Proof.
  induction 1 as [c t e _ [rt Ht] _ [re He]| | | | | |d Hd|l _ IH]; eauto using resolved.
  - destruct (decide c) as [[]|] eqn:E; eauto using resolved.
  - destruct d as [|[k x] [|? ?]]; try (eexists; apply r_object; [exact Hd | discriminate]).
    destruct (String.eqb_spec k "Ref") as [->|Hk]; [|eexists; apply r_object; [exact Hd | unfold no_value; congruence]].
    destruct x as [| | | |s| |]; try (eexists; apply r_object; [exact Hd | unfold no_value; congruence]).
    destruct (String.eqb_spec s "AWS::NoValue") as [->|Hs]; [eexists; apply r_no_value|].
    eexists; apply r_object; [exact Hd | unfold no_value; congruence].
  - assert (exists l', resolved_items decide l l') as [l' Hl].
    { induction l as [|x l IHl]; [eexists; constructor|].
      destruct IHl as [l' Hl]; [intros y Hy; apply IH; now right|].
      destruct (IH x (or_introl eq_refl)) as [[y|] Hx]; eexists; [eapply ri_keep | eapply ri_drop]; eauto. }
    eexists. exact (r_list _ _ _ Hl).
Qed.

Lemma resolved_members_total decide d : (forall k x, In (k, x) d -> plain_ifs x) -> exists d', resolved_members decide d d'.
Proof.
  induction d as [|[k x] d IH]; intros H; [eexists; constructor|].
  destruct IH as [d' Hd]; [intros k' y Hy; apply (H k'); now right|].
  destruct (plain_ifs_total decide x (H k x (or_introl eq_refl))) as [[y|] Hx]; eexists; [eapply rm_keep | eapply rm_drop]; eauto.
Qed.

Lemma resolved_det decide :
  (forall v r, resolved decide v r -> forall r', resolved decide v r' -> r = r') /\
  (forall l m, resolved_items decide l m -> forall m', resolved_items decide l m' -> m = m').
Proof.
  apply resolved_mut.
  - intros c t e r Hc _ IH r' H. inversion H; subst; try congruence; auto.
  - intros c t e r Hc _ IH r' H. inversion H; subst; try congruence; auto.
  - intros c t e Hc r' H. inversion H; subst; try congruence; auto.
  - intros r' H. inversion H; subst; try reflexivity. match goal with H : _ <> no_value |- _ => now destruct H end.
  - intros r' H. now inversion H.
  - intros b r' H. now inversion H.
  - intros b r' H. now inversion H.
  - intros b r' H. now inversion H.
  - intros b r' H. now inversion H.
  - intros d H1 H2 r' H. inversion H; subst; try reflexivity; try (now destruct (H1 (VList [VStr c; t; e]))). now destruct H2.
  - intros l l' _ IH r' H. inversion H; subst. f_equal. f_equal. auto.
  - intros m' H. now inversion H.
  - intros x y l l' _ IHx _ IHl m' H. inversion H; subst.
    + f_equal; [|now apply IHl]. match goal with H : resolved decide x (Some ?z) |- _ => specialize (IHx _ H); congruence end.
    + match goal with H : resolved decide x None |- _ => specialize (IHx _ H); congruence end.
  - intros x l l' _ IHx _ IHl m' H. inversion H; subst.
    + match goal with H : resolved decide x (Some ?z) |- _ => specialize (IHx _ H); congruence end.
    + now apply IHl.
Qed.

Lemma set_assoc_fresh {A} k (v : A) d : ~ In k (keys d) -> set_assoc k v d = d ++ [(k, v)].
Proof.
  induction d as [|[k' v'] d IH]; cbn; [reflexivity|]. intros H. destruct (String.eqb_spec k k') as [->|_]; [now destruct H; left|].
  now rewrite IH; [|intros Hi; apply H; right].
Qed.
Lemma resolve_members_ok sc d d' : resolved_members (decides sc) d d' -> forall acc, NoDup (keys d) ->
  (forall k, In k (keys d) -> ~ In k (keys acc)) -> resolve_members sc d acc = Ok (acc ++ d').
Proof.
  induction 1 as [|k x y d d' Hx Hd IH|k x d d' Hx Hd IH]; intros acc Hn Ha; cbn [resolve_members].
  - now rewrite app_nil_r.
  - rewrite (proj1 (resolve_value_ok sc) _ _ Hx). cbn [bind left_over].
    replace (is_null y) with false by (destruct y; try reflexivity; now destruct (proj1 (resolved_not_null _) _ _ Hx)).
    cbn [keys map fst] in Hn. inversion Hn; subst. rewrite set_assoc_fresh by (apply Ha; now left).
    rewrite IH; [now rewrite <- app_assoc | assumption|]. intros k' Hk'. unfold keys. rewrite map_app, in_app_iff. cbn.
    intros [H|[<-|[]]]; [apply (Ha k'); [now right | exact H] | now apply H1].
  - rewrite (proj1 (resolve_value_ok sc) _ _ Hx). cbn [bind left_over is_null].
    cbn [keys map fst] in Hn. inversion Hn; subst. apply IH; [assumption|]. intros k' Hk'. apply Ha. now right.
Qed.

Lemma c18_members sc d d' : NoDup (keys d) -> (forall x, d <> [("Fn::If", x)]) -> resolved_members (decides sc) d d' ->
  get_value_from_scenario (VDict d) sc = Ok (VDict d').
Proof.
  intros Hn H1 Hr. assert (E : resolve_members sc d [] = Ok d') by (apply (resolve_members_ok sc d d' Hr []); [exact Hn | intros k _ []]).
  unfold get_value_from_scenario. destruct d as [|[k x] [|? ?]].
  - rewrite E. reflexivity.
  - destruct (String.eqb_spec k "Fn::If") as [->|_]; [now destruct (H1 x)|]. cbn [andb]. now rewrite E.
  - now rewrite E.
Qed.
Lemma c18_if sc c t e r : resolved (decides sc) (if_ c t e) r ->
  get_value_from_scenario (if_ c t e) sc = Ok (match r with Some x => x | None => VDict [] end).
Proof.
  intros Hr. unfold get_value_from_scenario, if_. rewrite String.eqb_refl. cbn [truthy andb].
  change (VDict [("Fn::If", VList [VStr c; t; e])]) with (if_ c t e). rewrite (proj1 (resolve_value_ok sc) _ _ Hr). cbn [bind].
  destruct r as [x|]; [|reflexivity]. cbn [left_over]. destruct x; try reflexivity. now destruct (proj1 (resolved_not_null _) _ _ Hr).
Qed.

(** * The conditions that are looked at *)
Lemma set_add_in x s y : In y (set_add x s) <-> y = x \/ In y s.
Proof.
  unfold set_add. destruct (smem x s) eqn:E.
  - apply smem_iff in E. split; [now right | intros [->|]; assumption].
  - rewrite in_app_iff. cbn. intuition.
Qed.
Lemma set_union_in b : forall a y, In y (set_union a b) <-> In y a \/ In y b.
Proof.
  induction b as [|x b IH]; intros a y; cbn; [tauto|]. unfold set_union in IH. rewrite IH, set_add_in. cbn. intuition.
Qed.
Lemma set_add_NoDup x s : NoDup s -> NoDup (set_add x s).
Proof.
  intros H. unfold set_add. destruct (smem x s) eqn:E; [exact H|]. apply smem_false in E.
  apply (Permutation_NoDup (Permutation_cons_append s x)). now constructor.
Qed.
Lemma set_union_NoDup b : forall a, NoDup a -> NoDup (set_union a b).
Proof. induction b as [|x b IH]; intros a H; cbn; [exact H|]. apply IH. now apply set_add_NoDup. Qed.

Fixpoint items_conditions (l : list val) (acc : list string) : list string :=
  match l with [] => acc | x :: xs => items_conditions xs (set_union acc (property_conditions x)) end.
Lemma items_conditions_in l : forall acc n, In n (items_conditions l acc) <-> In n acc \/ exists x, In x l /\ In n (property_conditions x).
Proof.
  induction l as [|x l IH]; intros acc n; cbn [items_conditions].
  - split; [now left | intros [H|[x [[] _]]]; exact H].
  - rewrite IH, set_union_in. cbn. firstorder (subst; auto).
Qed.
Lemma property_conditions_list l : property_conditions (VList l) = items_conditions l [].
Proof. reflexivity. Qed.
Lemma property_conditions_in v : plain_ifs v -> forall n, In n (property_conditions v) <-> looks_at v n.
Proof.
  induction 1 as [c t e _ IHt _ IHe| | | | | |d Hd|l _ IH]; intros n; try (split; [intros [] | intros H; inversion H]).
  - unfold if_. cbn [property_conditions]. rewrite String.eqb_refl, !set_union_in, IHt, IHe. cbn [In]. split.
    + intros [[[<-|[]]|H]|H]; [apply la_here | now apply la_then | now apply la_else].
    + intros H. inversion H; subst; tauto.
  - assert (E : property_conditions (VDict d) = []).
    { destruct d as [|[k x] [|? ?]]; try reflexivity. cbn [property_conditions].
      destruct (String.eqb_spec k "Fn::If") as [->|_]; [now destruct (Hd x) | reflexivity]. }
    rewrite E. split; [intros [] | intros H; inversion H; subst]; exfalso; eapply Hd; reflexivity.
  - rewrite property_conditions_list, items_conditions_in. split.
    + intros [[]|[x [Hx Hn]]]. apply la_item with x; [exact Hx|]. now apply IH.
    + intros H. inversion H; subst. right. exists x. split; [assumption|]. now apply IH.
Qed.
Lemma property_conditions_NoDup v : NoDup (property_conditions v).
Proof.
  revert v. fix IH 1. destruct v as [| | | | |l|d]; try constructor.
  - rewrite property_conditions_list. assert (H : forall acc, NoDup acc -> NoDup (items_conditions l acc)); [|apply H; constructor].
    induction l as [|x l IHl]; intros acc Ha; cbn [items_conditions]; [exact Ha|]. apply IHl. now apply set_union_NoDup.
  - destruct d as [|[k x] [|? ?]]; try constructor. cbn [property_conditions]. destruct (String.eqb k "Fn::If"); [|constructor].
    destruct x as [| | | | |l|]; try constructor. destruct l as [|c [|t [|e [|? ?]]]]; try (destruct c; constructor); try constructor.
    destruct c; try constructor. apply set_union_NoDup, set_union_NoDup. repeat constructor. intros [].
Qed.

Lemma members_conditions_in d : forall acc n, (forall k x, In (k, x) d -> plain_ifs x) ->
  In n (fold_left (fun acc kv => set_union acc (property_conditions (snd kv))) d acc) <-> In n acc \/ members_look_at d n.
Proof.
  induction d as [|[k x] d IH]; intros acc n H; cbn [fold_left].
  - split; [now left | intros [Hn|[k [x [[] _]]]]; exact Hn].
  - rewrite IH by (intros k' y Hy; apply (H k'); now right). rewrite set_union_in. cbn [snd].
    rewrite property_conditions_in by (apply (H k); now left). unfold members_look_at. cbn [In]. split.
    + intros [[Hn|Hn]|[k' [y [H1 H2]]]]; [now left | right; exists k, x; auto | right; exists k', y; auto].
    + intros [Hn|[k' [y [[[= -> ->]|H1] H2]]]]; [auto | auto | right; exists k', y; auto].
Qed.
Lemma members_conditions_NoDup (d : list (string * val)) : forall acc : list string, NoDup acc ->
  NoDup (fold_left (fun acc kv => set_union acc (property_conditions (snd kv))) d acc : list string).
Proof. induction d as [|[k x] d IH]; intros acc H; cbn [fold_left]; [exact H|]. apply IH. now apply set_union_NoDup. Qed.
Lemma object_conditions_members d : (forall x, d <> [("Fn::If", x)]) ->
  object_conditions (VDict d) = Ok (fold_left (fun acc kv => set_union acc (property_conditions (snd kv))) d [], true).
Proof.
  intros H. destruct d as [|[k x] [|? ?]]; try reflexivity. unfold object_conditions.
  destruct (String.eqb_spec k "Fn::If") as [->|_]; [now destruct (H x)|]. cbn [fold_left snd].
  assert (E : forall b a, (forall y, In y b -> ~ In y a) -> NoDup b -> set_union a b = a ++ b).
  { induction b as [|y b IHb]; intros a Ha Hb; [cbn; now rewrite app_nil_r|]. inversion Hb; subst.
    change (set_union a (y :: b)) with (set_union (set_add y a) b). unfold set_add.
    destruct (smem y a) eqn:E; [apply smem_iff in E; now destruct (Ha y (or_introl eq_refl))|].
    rewrite IHb; [now rewrite <- app_assoc| |assumption]. intros z Hz. rewrite in_app_iff. cbn. intros [Hi|[<-|[]]]; [apply (Ha z); [now right | exact Hi] | contradiction]. }
  rewrite E; [reflexivity | intros y _ [] | apply property_conditions_NoDup].
Qed.

(** Resolving depends on the conditions that are looked at only. *)
Lemma resolved_ext decide decide' :
  (forall v r, resolved decide v r -> (forall n, looks_at v n -> decide n = decide' n) -> resolved decide' v r) /\
  (forall l m, resolved_items decide l m -> (forall x n, In x l -> looks_at x n -> decide n = decide' n) -> resolved_items decide' l m).
Proof.
  apply resolved_mut; try (intros; now constructor).
  - intros c t e r Hc _ IH H. apply r_then; [rewrite <- H; [exact Hc | apply la_here]|]. apply IH. intros n Hn. apply H. now apply la_then.
  - intros c t e r Hc _ IH H. apply r_else; [rewrite <- H; [exact Hc | apply la_here]|]. apply IH. intros n Hn. apply H. now apply la_else.
  - intros c t e Hc H. apply r_undecided. rewrite <- H; [exact Hc | apply la_here].
  - intros l l' _ IH H. apply r_list. apply IH. intros x n Hx Hn. apply H. now apply la_item with x.
  - intros x y l l' _ IHx _ IHl H. apply ri_keep; [apply IHx; intros n; apply H; now left | apply IHl; intros z n Hz; apply H; now right].
  - intros x l l' _ IHx _ IHl H. apply ri_drop; [apply IHx; intros n; apply H; now left | apply IHl; intros z n Hz; apply H; now right].
Qed.
Lemma resolved_members_ext decide decide' d d' : resolved_members decide d d' ->
  (forall n, members_look_at d n -> decide n = decide' n) -> resolved_members decide' d d'.
Proof.
  induction 1 as [|k x y d d' Hx Hd IH|k x d d' Hx Hd IH]; intros H; constructor.
  - apply (proj1 (resolved_ext decide decide') _ _ Hx). intros n Hn. apply H. exists k, x. split; [now left | exact Hn].
  - apply IH. intros n [k' [z [H1 H2]]]. apply H. exists k', z. split; [now right | exact H2].
  - apply (proj1 (resolved_ext decide decide') _ _ Hx). intros n Hn. apply H. exists k, x. split; [now left | exact Hn].
  - apply IH. intros n [k' [z [H1 H2]]]. apply H. exists k', z. split; [now right | exact H2].
Qed.

Lemma decides_scenario names b n : NoDup names -> In n names -> decides (scenario_of names b) n = Some (b n).
Proof.
  unfold decides, scenario_of. intros Hn Hi. rewrite (assoc_NoDup n (Some (b n))); [reflexivity| |].
  - unfold keys. rewrite map_map. cbn. now rewrite map_id.
  - apply in_map_iff. exists n. auto.
Qed.

Lemma resolve_all_in obj scs sc out : resolve_all obj scs = Ok out -> In sc scs -> forall o, get_value_from_scenario obj sc = Ok o ->
  truthy o = true -> In (Some sc, o) out.
Proof.
  revert out. induction scs as [|s scs IH]; intros out; cbn [resolve_all]; [intros _ []|].
  destruct (get_value_from_scenario obj s) as [o'|] eqn:E; cbn [bind]; [|discriminate].
  destruct (resolve_all obj scs) as [r|] eqn:E2; cbn [bind]; [|discriminate]. intros [= <-] [->|Hi] o Ho Ht.
  - assert (o' = o) as -> by congruence. rewrite Ht. now left.
  - assert (In (Some sc, o) r) by (eapply IH; eauto). destruct (truthy o'); [now right | assumption].
Qed.
Lemma resolve_all_total obj scs : (forall sc, In sc scs -> exists o, get_value_from_scenario obj sc = Ok o) -> exists out, resolve_all obj scs = Ok out.
Proof.
  induction scs as [|s scs IH]; intros H; cbn [resolve_all]; [eauto|].
  destruct (H s (or_introl eq_refl)) as [o ->]. destruct IH as [r ->]; [intros sc Hs; apply H; now right|]. cbn [bind]. eauto.
Qed.
Lemma resolve_all_from obj scs out : resolve_all obj scs = Ok out -> forall s o, In (s, o) out ->
  exists sc, s = Some sc /\ In sc scs /\ get_value_from_scenario obj sc = Ok o /\ truthy o = true.
Proof.
  revert out. induction scs as [|sc scs IH]; intros out; cbn [resolve_all]; [intros [= <-] ? ? []|].
  destruct (get_value_from_scenario obj sc) as [o'|] eqn:E; cbn [bind]; [|discriminate].
  destruct (resolve_all obj scs) as [r|] eqn:E2; cbn [bind]; [|discriminate]. intros [= <-] s o Hi.
  destruct (truthy o') eqn:Et.
  - destruct Hi as [[= <- <-]|Hi]; [exists sc; repeat split; auto; now left|].
    destruct (IH r eq_refl s o Hi) as [sc' [-> [H1 H2]]]. exists sc'. split; [reflexivity|]. split; [now right | exact H2].
  - destruct (IH r eq_refl s o Hi) as [sc' [-> [H1 H2]]]. exists sc'. split; [reflexivity|]. split; [now right | exact H2].
Qed.

(** * Every deployment's object is among the results *)
Theorem c18_deployment hash order template defs parameters fuel w b d names d' :
  (forall v, digest (hash v)) -> (forall l, Permutation (order l) l) ->
  section_of "Conditions" template defs -> section_of "Parameters" template parameters ->
  NoDup (keys d) -> (forall x, d <> [("Fn::If", x)]) -> (forall k x, In (k, x) d -> plain_ifs x) ->
  NoDup names -> names <> [] -> (forall n, In n names <-> members_look_at d n) ->
  (forall n, In n names -> mem_assoc n (cs_conditions (load hash fuel template)) = true) ->
  (List.length names <= 4 \/ some_related defs names) ->
  deployment hash parameters w -> gives defs w names b ->
  resolved_members (fun n => Some (b n)) d d' ->
  exists out, get_object_without_conditions order (load hash fuel template) (VDict d) [] = Ok out /\
    (d' <> [] -> exists sc, In (Some sc, VDict d') out /\ Permutation sc (scenario_of names b)).
Proof.
  intros Hh Ho Hc Hp Hk Hd Hpl Hnd Hne Hn Hl Hs Hw Hg Hr.
  set (con := fold_left (fun acc kv => set_union acc (property_conditions (snd kv))) d []).
  assert (Hcon : forall n, In n con <-> In n names).
  { intros n. unfold con. rewrite (members_conditions_in d [] n Hpl), Hn. cbn. tauto. }
  assert (Hcd : NoDup con) by (apply members_conditions_NoDup; constructor).
  assert (Hpm : Permutation names (order con)).
  { eapply Permutation_trans; [|symmetry; apply Ho]. now apply NoDup_Permutation; [| |intros n; symmetry]. }
  assert (Hin : forall n, In n (order con) <-> In n names) by (intros n; split; [apply Permutation_in; now symmetry | now apply Permutation_in]).
  assert (Hod : NoDup (order con)) by (now apply (Permutation_NoDup Hpm)).
  destruct (c16 hash order template defs parameters fuel (order con) w b) as [scs [Hsc Hisc]]; auto.
  - intros E. rewrite E in Hpm. apply Permutation_sym, Permutation_nil in Hpm. contradiction.
  - intros n Hi. now apply Hl, Hin.
  - destruct Hs as [Hs|[n [n' [v [v' [H1 [H2 H3]]]]]]]; [left; now rewrite <- (Permutation_length Hpm)|].
    right. exists n, n', v, v'. rewrite !Hin. auto.
  - intros n Hi. now apply Hg, Hin.
  - unfold get_object_without_conditions. cbn [selected bind].
    unfold get_conditions_scenarios_from_object. cbn [objects_conditions]. rewrite (object_conditions_members d Hd). cbn [bind fst snd andb].
    fold con. assert (E : set_union [] con = con).
    { clear - Hcd. assert (E : forall b a, (forall y, In y b -> ~ In y a) -> NoDup b -> set_union a b = a ++ b).
      { induction b as [|y b IHb]; intros a Ha Hb; [cbn; now rewrite app_nil_r|]. inversion Hb; subst.
        change (set_union a (y :: b)) with (set_union (set_add y a) b). unfold set_add.
        destruct (smem y a) eqn:E; [apply smem_iff in E; now destruct (Ha y (or_introl eq_refl))|].
        rewrite IHb; [now rewrite <- app_assoc| |assumption]. intros z Hz. rewrite in_app_iff. cbn. intros [Hi|[<-|[]]]; [apply (Ha z); [now right | exact Hi] | contradiction]. }
      rewrite E; auto. }
    rewrite E, Hsc. cbn [bind].
    assert (Hall : forall sc, In sc scs -> exists o, get_value_from_scenario (VDict d) sc = Ok o).
    { intros sc _. destruct (resolved_members_total (decides sc) d Hpl) as [e He]. exists (VDict e). now apply c18_members. }
    destruct (resolve_all_total _ _ Hall) as [out Hout].
    assert (Hne' : exists s ss, scs = s :: ss) by (destruct scs as [|s ss]; [destruct Hisc | eauto]).
    destruct Hne' as [s [ss Ess]]. exists out. split; [rewrite Ess in *; exact Hout|].
    intros Hd'. exists (scenario_of (order con) b). split.
    + eapply resolve_all_in; eauto.
      * apply c18_members; auto. eapply resolved_members_ext; [exact Hr|]. intros n Hn'. symmetry. apply decides_scenario; [exact Hod|].
        apply Hin. now apply Hn.
      * destruct d' as [|]; [contradiction | reflexivity].
    + apply Permutation_map. now symmetry.
Qed.

(** And nothing else. *)
Theorem c18_only order c d names out s o :
  NoDup (keys d) -> (forall x, d <> [("Fn::If", x)]) -> (forall k x, In (k, x) d -> plain_ifs x) ->
  get_object_without_conditions order c (VDict d) names = Ok out -> In (s, o) out ->
  (s = None /\ o = VDict d) \/
  exists sc d', s = Some sc /\ resolved_members (fun n => match assoc n sc with Some b => b | None => None end) d d' /\ o = VDict d'.
Proof.
  intros Hk Hd Hpl. unfold get_object_without_conditions. cbn [bind].
  destruct (selected (VDict d) names) as [o0|]; cbn [bind]; [|discriminate].
  destruct (get_conditions_scenarios_from_object order c [o0]) as [scs|]; cbn [bind]; [|discriminate]. intros Hout Hi.
  destruct scs as [|sc0 scs].
  - left. destruct d as [|[k x] [|? ?]]; try (injection Hout as <-; destruct Hi as [[= <- <-]|[]]; auto).
    destruct (is_novalue k x); injection Hout as <-; [destruct Hi | destruct Hi as [[= <- <-]|[]]; auto].
  - right. destruct (resolve_all_from _ _ _ Hout _ _ Hi) as [sc [-> [_ [Hv _]]]].
    destruct (resolved_members_total (decides sc) d Hpl) as [e He]. exists sc, e. split; [reflexivity|]. split; [exact He|].
    rewrite (c18_members sc d e Hk Hd He) in Hv. congruence.
Qed.
