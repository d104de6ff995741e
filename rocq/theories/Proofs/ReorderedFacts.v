(** Facts about values that differ only in the order of members. *)
From Coq Require Import List String Permutation.
From Verif.Model Require Import Base Locate Helpers Rules Runner Config Core Standard.
From Verif.Spec Require Import Paths References ConditionUse Pipeline Shipped ShippedPlaces Reordered.
From Verif.Proofs Require Import BaseFacts.
Import ListNotations.
Local Open Scope string_scope.

Definition alike (t t' : val) : Prop := wf t /\ wf t' /\ reordered t t'.

Lemma wf_list l : wf (VList l) <-> Forall wf l.
Proof.
  cbn [wf]. induction l as [|x xs IH]; cbn beta iota; [split; [constructor | exact (fun _ => Logic.I)]|].
  split; [intros [A B]; constructor; [exact A | apply IH; exact B] | intros A; inversion A; subst; split; [assumption | apply IH; assumption]].
Qed.
Lemma wf_dict d : wf (VDict d) <-> NoDup (map fst d) /\ Forall (fun kv => wf (snd kv)) d.
Proof.
  cbn [wf]. apply and_iff_compat_l. induction d as [|[k x] xs IH]; cbn beta iota; [split; [constructor | exact (fun _ => Logic.I)]|].
  split; [intros [A B]; constructor; [exact A | apply IH; exact B] | intros A; inversion A; subst; split; [assumption | apply IH; assumption]].
Qed.

Lemma forall2_flip {A B} (P : A -> B -> Prop) (Q : B -> A -> Prop) l l' :
  Forall (fun x => forall y, P x y -> Q y x) l -> Forall2 P l l' -> Forall2 Q l' l.
Proof. intros F H. induction H; [constructor|]. inversion F; subst. constructor; auto. Qed.
Lemma forall2_perm {T U} (P : T -> U -> Prop) l m l' : Permutation l m -> Forall2 P l l' -> exists m', Permutation l' m' /\ Forall2 P m m'.
Proof.
  intros H. revert l'. induction H as [|x l m H IH|x y l|l m n H1 IH1 H2 IH2]; intros l' F.
  - inversion F; subst. exists []. split; constructor.
  - inversion F as [|? b ? bs Hb Hbs]; subst. destruct (IH _ Hbs) as (m' & A & B0). exists (b :: m'). split; constructor; assumption.
  - inversion F as [|? b ? bs Hb Hbs]; subst. inversion Hbs as [|? b2 ? bs2 Hb2 Hbs2]; subst. exists (b2 :: b :: bs2).
    split; [apply perm_swap | repeat constructor; assumption].
  - destruct (IH1 _ F) as (m' & A & B0). destruct (IH2 _ B0) as (n' & C & D). exists n'. split; [eapply perm_trans; eassumption | exact D].
Qed.

Lemma reordered_sym v : forall v', reordered v v' -> reordered v' v.
Proof.
  induction v as [|b|z|q|t|l IH|d IH] using val_ind'; intros v' H; inversion H; subst; try (apply ro_value; assumption); try contradiction.
  - apply ro_list. refine (forall2_flip reordered reordered _ _ _ H1). exact IH.
  - match goal with P : Permutation d ?e, F : Forall2 _ ?e ?d' |- _ =>
      apply Permutation_sym in P; destruct (forall2_perm _ _ _ _ P F) as (m' & A & B); refine (ro_object _ m' _ A _) end.
    refine (forall2_flip (fun a b => fst a = fst b /\ reordered (snd a) (snd b)) _ _ _ _ B).
    apply Forall_forall. intros x Hx y [E R]. split; [symmetry; exact E|]. rewrite Forall_forall in IH. exact (IH _ Hx _ R).
Qed.

Definition members (d d' : list (string * val)) : Prop :=
  exists e, Permutation d e /\ Forall2 (fun a b => fst a = fst b /\ reordered (snd a) (snd b)) e d'.
Lemma members_keys d d' : members d d' -> Permutation (map fst d) (map fst d').
Proof.
  intros (e & P & F). eapply perm_trans; [apply Permutation_map; exact P|]. enough (map fst e = map fst d') as -> by apply Permutation_refl.
  clear P. induction F as [|a b e d' [E _] F IH]; [reflexivity|]. cbn [map]. rewrite E, IH. reflexivity.
Qed.
Lemma members_in d d' k v : members d d' -> In (k, v) d -> exists v', In (k, v') d' /\ reordered v v'.
Proof.
  intros (e & P & F) H. apply (Permutation_in _ P) in H. clear P. induction F as [|a b e d' [E R] F IH]; [destruct H|].
  destruct H as [-> | H].
  - destruct b as [k2 v']. cbn in E, R. subst k2. exists v'. split; [left; reflexivity | exact R].
  - destruct (IH H) as (v' & A & B). exists v'. split; [right; exact A | exact B].
Qed.

Lemma reordered_wf v : forall v', reordered v v' -> wf v -> wf v'.
Proof.
  induction v as [|b|z|q|t|l IH|d IH] using val_ind'; intros v' H W; inversion H; subst; try exact W.
  - apply wf_list in W. apply wf_list. rewrite Forall_forall in IH, W. apply Forall_forall. intros y Hy.
    clear H. induction H1 as [|a b l l' R F IHF]; [destruct Hy|].
    destruct Hy as [<- | Hy]; [exact (IH a (or_introl eq_refl) _ R (W a (or_introl eq_refl)))|].
    exact (IHF (fun x Hx => IH x (or_intror Hx)) (fun x Hx => W x (or_intror Hx)) Hy).
  - apply wf_dict in W. apply wf_dict. destruct W as [N W]. assert (M : members d d') by (eexists; split; eassumption).
    split; [exact (Permutation_NoDup (members_keys _ _ M) N)|].
    rewrite Forall_forall in IH, W. apply Forall_forall. intros y Hy. apply reordered_sym in H.
    assert (M2 : members d' d). { inversion H; subst; [contradiction|]; eexists; split; eassumption. }
    destruct y as [k y]. destruct (members_in _ _ _ _ M2 Hy) as (x & Hx & R). exact (IH _ Hx _ (reordered_sym _ _ R) (W _ Hx)).
Qed.

Lemma alike_of t t' : wf t -> reordered t t' -> alike t t'.
Proof. intros W R. exact (conj W (conj (reordered_wf _ _ R W) R)). Qed.
Lemma alike_sym t t' : alike t t' -> alike t' t.
Proof. intros (A & B & C). exact (conj B (conj A (reordered_sym _ _ C))). Qed.

Lemma alike_list l v' : alike (VList l) v' -> exists l', v' = VList l' /\ Forall2 alike l l'.
Proof.
  intros (A & B & R). inversion R; subst; [contradiction|]. eexists; split; [reflexivity|]. apply wf_list in A, B.
  clear R. induction H0 as [|a b l l' R F IH]; [constructor|]. inversion A; inversion B; subst.
  constructor; [repeat split; assumption | apply IH; assumption].
Qed.
Lemma alike_dict d v' : alike (VDict d) v' -> exists d', v' = VDict d'.
Proof. intros (_ & _ & R). inversion R; subst; [contradiction|]. eexists; reflexivity. Qed.
Lemma alike_single v v' : alike v v' -> single_value v -> v' = v.
Proof. intros (_ & _ & R) S. inversion R; subst; [reflexivity | destruct S | destruct S]. Qed.
Lemma alike_members d d' : alike (VDict d) (VDict d') -> members d d'.
Proof. intros (_ & _ & R). inversion R; subst; [contradiction|]. eexists; split; eassumption. Qed.

Lemma alike_in d d' k v : alike (VDict d) (VDict d') -> In (k, v) d -> exists v', In (k, v') d' /\ alike v v'.
Proof.
  intros A H. destruct (members_in _ _ _ _ (alike_members _ _ A) H) as (v' & I & R). exists v'. split; [exact I|].
  destruct A as (W & W' & _). apply wf_dict in W, W'. destruct W as [_ W], W' as [_ W']. rewrite Forall_forall in W, W'.
  exact (conj (W _ H) (conj (W' _ I) R)).
Qed.
Lemma alike_keys d d' k : alike (VDict d) (VDict d') -> In k (map fst d) -> In k (map fst d').
Proof. intros A H. exact (Permutation_in _ (members_keys _ _ (alike_members _ _ A)) H). Qed.
Lemma alike_length d d' : alike (VDict d) (VDict d') -> List.length d = List.length d'.
Proof. intros A. rewrite <- (map_length fst d), <- (map_length fst d'). exact (Permutation_length (members_keys _ _ (alike_members _ _ A))). Qed.
Lemma assoc_in_nodup (d : list (string * val)) k v : NoDup (map fst d) -> In (k, v) d -> assoc k d = Some v.
Proof.
  induction d as [|[k1 v1] d IH]; [intros _ []|]. cbn [map fst assoc]. intros N [E | H].
  - injection E as -> ->. rewrite String.eqb_refl. reflexivity.
  - inversion N; subst. destruct (String.eqb_spec k k1) as [-> | NE]; [|exact (IH H3 H)]. destruct H2. exact (in_map fst _ _ H).
Qed.
Lemma alike_assoc d d' k v : alike (VDict d) (VDict d') -> assoc k d = Some v -> exists v', assoc k d' = Some v' /\ alike v v'.
Proof.
  intros A H. apply assoc_In in H. destruct (alike_in _ _ _ _ A H) as (v' & I & R). exists v'. split; [|exact R].
  destruct A as (_ & W' & _). apply wf_dict in W'. exact (assoc_in_nodup _ _ _ (proj1 W') I).
Qed.
Lemma alike_none d d' k : alike (VDict d) (VDict d') -> assoc k d = None -> assoc k d' = None.
Proof.
  intros A H. destruct (assoc k d') as [v|] eqn:E; [|reflexivity]. destruct (alike_assoc _ _ _ _ (alike_sym _ _ A) E) as (v' & K & _).
  rewrite H in K. discriminate K.
Qed.
Lemma alike_nth l l' i x : Forall2 alike l l' -> nth_error l i = Some x -> exists x', nth_error l' i = Some x' /\ alike x x'.
Proof.
  intros F. revert i. induction F as [|a b l l' R F IH]; intros [|i] H; try discriminate H; cbn in *.
  - injection H as ->. exists b. split; [reflexivity | exact R].
  - exact (IH _ H).
Qed.

Lemma alike_at p : forall t t' v, alike t t' -> at_path p t = Some v -> exists v', at_path p t' = Some v' /\ alike v v'.
Proof.
  induction p as [|[k|i] p IH]; intros t t' v A H.
  - injection H as ->. exists t'. split; [reflexivity | exact A].
  - destruct t; try discriminate H. destruct (alike_dict _ _ A) as (d' & ->). cbn [at_path] in H |- *.
    destruct (assoc k d) as [x|] eqn:E; [|discriminate H]. destruct (alike_assoc _ _ _ _ A E) as (x' & -> & R). exact (IH _ _ _ R H).
  - destruct t; try discriminate H. destruct (alike_list _ _ A) as (l' & -> & F). cbn [at_path] in H |- *.
    destruct (nth_error l i) as [x|] eqn:E; [|discriminate H]. destruct (alike_nth _ _ _ _ F E) as (x' & -> & R). exact (IH _ _ _ R H).
Qed.
Lemma alike_nowhere p t t' : alike t t' -> at_path p t = None -> at_path p t' = None.
Proof.
  intros A H. destruct (at_path p t') as [v|] eqn:E; [|reflexivity]. destruct (alike_at _ _ _ _ (alike_sym _ _ A) E) as (v' & K & _).
  rewrite H in K. discriminate K.
Qed.
Lemma alike_occurs f t t' p v : alike t t' -> occurs f t (VDict []) p v -> exists v', occurs f t' (VDict []) p v' /\ alike v v'.
Proof.
  intros A [H | H].
  - destruct (alike_at _ _ _ _ A H) as (v' & K & R). exists v'. split; [left; exact K | exact R].
  - destruct p as [|[k|i] p]; cbn in H; discriminate H.
Qed.
Lemma alike_text s v' : alike (VStr s) v' -> v' = VStr s.
Proof. intros A. exact (alike_single _ _ A Logic.I). Qed.
Lemma alike_one k x v' : alike (VDict [(k, x)]) v' -> exists x', v' = VDict [(k, x')] /\ alike x x'.
Proof.
  intros A. destruct (alike_dict _ _ A) as (d' & ->). destruct (alike_in _ _ _ _ A (or_introl eq_refl)) as (x' & I & R).
  pose proof (alike_length _ _ A) as L. destruct d' as [|[k2 y] [|b d']]; try discriminate L. destruct I as [E | []]. injection E as -> ->.
  exists x'. split; [reflexivity | exact R].
Qed.
Lemma alike_defined s t t' n o : alike t t' -> defined_in s t n o -> exists o', defined_in s t' n o' /\ alike (VDict o) (VDict o').
Proof.
  intros A (d & m & -> & Hm & Hn). destruct (alike_dict _ _ A) as (d' & ->). destruct (alike_assoc _ _ _ _ A Hm) as (m0 & Hm' & A2).
  destruct (alike_dict _ _ A2) as (m' & ->). destruct (alike_assoc _ _ _ _ A2 Hn) as (o0 & Hn' & A3). destruct (alike_dict _ _ A3) as (o' & ->).
  exists o'. split; [exists d', m'; auto | exact A3].
Qed.

(** Reports that tell exactly of faults that do not depend on the order are the same. *)
Lemma same_of c c' man ds ds' l l' id P P' : (forall q s, P q s <-> P' q s) ->
  tells_exactly c man ds l id P -> tells_exactly c' man ds' l' id P' -> same_reports c c' man ds ds' l l' id.
Proof.
  intros E [A1 B1] [A2 B2]. split; intros fi I R.
  - destruct (A1 _ I R) as (_ & q & words & Hp & F). apply E in Hp. destruct (B2 _ _ Hp) as (fi' & F' & K). exists q, words, fi'. auto.
  - destruct (A2 _ I R) as (_ & q & words & Hp & F). apply E in Hp. destruct (B1 _ _ Hp) as (fi' & F' & K). exists q, words, fi'. auto.
Qed.
Lemma places_of c c' man ds ds' l l' id P P' : (forall q, P q <-> P' q) ->
  tells_places c man ds l id P -> tells_places c' man ds' l' id P' -> same_places c c' man ds ds' l l' id.
Proof.
  intros E [A1 B1] [A2 B2]. split; intros fi I R.
  - destruct (A1 _ I R) as (_ & q & words & Hp & F). apply E in Hp. destruct (B2 _ Hp) as (words' & fi' & F' & K). exists q, words, words', fi'. auto.
  - destruct (A2 _ I R) as (_ & q & words & Hp & F). apply E in Hp. destruct (B1 _ Hp) as (words' & fi' & F' & K). exists q, words, words', fi'. auto.
Qed.
