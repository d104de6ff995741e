(** Proofs for C88: how updates end, and several of them at a time. *)
From Coq Require Import List Arith Lia Bool.
From Verif.Model Require Import Base Helpers Rules Config Maintenance.
From Verif.Spec Require Import Maintenance.
From Verif.Proofs Require Import BaseFacts MaintenanceProofs.
Import ListNotations.
Local Open Scope string_scope.
Local Open Scope nat_scope.

(** * Every run ends *)
Inductive short : nat -> program -> Prop :=
| sh_return k x : short k (Return x)
| sh_read k m c : (forall o, short k (c o)) -> short (S k) (ReadMeta m c)
| sh_head k u c : (forall o, short k (c o)) -> short (S k) (Head u c)
| sh_get k u c : (forall o, short k (c o)) -> short (S k) (Get u c)
| sh_dir k c : (forall o, short k (c o)) -> short (S k) (IsDir c)
| sh_make k c : (forall o, short k (c o)) -> short (S k) (MakeDir c)
| sh_meta k m f c : short k c -> short (S k) (WriteMeta m f c)
| sh_services k c : (forall o, short k (c o)) -> short (S k) (Services c)
| sh_spec k r f c : short k c -> short (S k) (WriteSpec r f c).
Lemma short_more k p : short k p -> short (S k) p.
Proof.
  induction 1 as [k x|k m c H IH|k u c H IH|k u c H IH|k c H IH|k c H IH|k m f c H IH|k c H IH|k r f c H IH]; constructor; assumption.
Qed.
Lemma short_ends k p : short k p -> forall ns w, k <= List.length ns -> exists r, snd (run ns w p) = Return r.
Proof.
  induction 1 as [k x|k m c H IH|k u c H IH|k u c H IH|k c H IH|k c H IH|k m f c H IH|k c H IH|k r f c H IH]; intros ns w L.
  { rewrite run_return. now exists x. }
  all: destruct ns as [|n ns]; cbn [List.length] in L; [lia|]; cbn [run advance]; apply le_S_n in L.
  all: try (cbn [fst snd]; now apply IH).
  destruct (w_dir w); cbn [fst snd]; now apply IH.
Qed.

Section Update.
Variables (walk : string -> list (string * list string)) (load_patches : string -> string -> res (list val)) (apply_patch : val -> val -> outcome).
Variables (digest : string -> string) (loads : string -> option val).
Notation make := (processed walk load_patches apply_patch).
Notation update := (update_spec walk load_patches apply_patch digest loads).
Notation work := (work walk load_patches apply_patch loads).

Lemma short_work region text : short 3 (work region text).
Proof.
  unfold MaintenanceProofs.work. destruct (loads text) as [spec|]; [|constructor]. constructor. intros f. destruct (make region f spec); [|constructor]. constructor. constructor. constructor.
Qed.
Lemma short_get region url : short 9 (get_content digest url (work region)).
Proof.
  unfold get_content. constructor. intros [rep|e]; [|constructor].
  assert (R : short 3 (match r_text rep with Ok text => work region text | Err e => Return (Err e) end)) by (destruct (r_text rep); [apply short_work | constructor]).
  assert (R8 : short 8 (match r_text rep with Ok text => work region text | Err e => Return (Err e) end)) by (do 5 apply short_more; exact R).
  destruct (r_tag rep) as [tag|]; [|exact R8]. destruct (String.eqb tag ""); [exact R8|]. constructor.
  assert (S : forall d, short 7 (save_metadata d (digest url) (match r_text rep with Ok text => work region text | Err e => Return (Err e) end))).
  { intros d. unfold save_metadata. constructor. intros []; [apply short_more; constructor; constructor; exact R|]. constructor. intros [u|e]; [|constructor]. constructor. constructor. exact R. }
  intros [[|d]|]; [constructor | apply S | apply S].
Qed.
Lemma c88_ends region url ns w : 11 <= List.length ns -> exists r, snd (run ns w (update region url)) = Return r.
Proof.
  apply short_ends. rewrite update_eq. unfold has_newer. constructor.
  assert (K : forall b : bool, short 9 (if b then get_content digest url (work region) else Return (Ok tt))) by (intros []; [apply short_get | constructor]).
  intros [[|d]|]; [apply sh_return | | apply short_more; apply (K true)]. destruct (assoc "etag" d) as [c|]; [|apply short_more; apply (K true)]. constructor. intros [t|e]; [apply K | constructor].
Qed.

(** * With one state of the network *)
Lemma c88_latest region url n w k : up_to_date digest w n url -> 2 <= k -> run (repeat n k) w (update region url) = (w, Return (Ok tt)).
Proof.
  intros [t [Ht [[d [Em Ea]] Eh]]] L. destruct k as [|[|k]]; [lia | lia |]. cbn [repeat run]. rewrite update_eq. unfold has_newer. cbn [advance fst snd]. rewrite Em, Ea. cbn [advance fst snd]. rewrite Eh.
  assert (S : same_tag (VStr t) (Some t) = true) by (apply same_tag_iff; exists t; now split). rewrite S. cbn [negb]. apply run_return.
Qed.
Lemma repeat_add {A} (x : A) i j : repeat x (i + j) = (repeat x i ++ repeat x j)%list.
Proof. induction i as [|i IH]; [reflexivity|]. cbn [plus repeat app]. now rewrite IH. Qed.
(** A run to the end gives the same however many further moments follow. *)
Lemma run_app ns ns' w p : run (ns ++ ns')%list w p = run ns' (fst (run ns w p)) (snd (run ns w p)).
Proof. revert w p. induction ns as [|n ns IH]; intros w p; [reflexivity|]. cbn [app run]. apply IH. Qed.

Section Fresh.
Variables (region url : string) (n : network) (reply : reply) (text : string) (spec v : val).
Hypothesis Hget : n_get n url = Ok reply.
Hypothesis Htext : r_text reply = Ok text.
Hypothesis Hloads : loads text = Some spec.
Hypothesis Hmake : make region (n_shapes n) spec = Ok v.
(** From [w] the program [p] comes to a good end with the new specification. *)
Definition good (w : world) (p : program) : Prop :=
  exists j w', run (repeat n j) w p = (w', Return (Ok tt)) /\ w_spec w' region = Some (Whole v) /\ w_meta w' (digest url) = w_meta w (digest url).
Lemma good_step (P : world -> Prop) w p : (exists j w', run (repeat n j) (fst (advance n w p)) (snd (advance n w p)) = (w', Return (Ok tt)) /\ P w') -> exists j w', run (repeat n j) w p = (w', Return (Ok tt)) /\ P w'.
Proof. intros [j [w' [E H]]]. exists (S j), w'. split; [exact E | exact H]. Qed.
Lemma good_work w : good w (work region text).
Proof.
  unfold good, MaintenanceProofs.work. rewrite Hloads. exists 3. eexists. split; [cbn [repeat run advance fst snd]; rewrite Hmake; cbn [advance fst snd]; reflexivity|]. cbn [w_spec w_meta]. split; [apply put_same | reflexivity].
Qed.
Definition told (w' : world) : Prop := w_spec w' region = Some (Whole v) /\ forall t, r_tag reply = Some t -> t <> "" -> remembers digest w' url t.
Lemma assoc_set_same {A} k (x : A) d : assoc k (set_assoc k x d) = Some x.
Proof. induction d as [|[k' y] d IH]; cbn [set_assoc assoc]; [now rewrite String.eqb_refl|]. destruct (String.eqb k k') eqn:E; cbn [assoc]; rewrite ?E, ?String.eqb_refl; [reflexivity | exact IH]. Qed.
Lemma assoc_set_other {A} k k' (x : A) d : k' <> k -> assoc k' (set_assoc k x d) = assoc k' d.
Proof.
  intros H. apply String.eqb_neq in H. induction d as [|[k2 y] d IH]; cbn [set_assoc assoc]; [now rewrite H|]. destruct (String.eqb k k2) eqn:E; cbn [assoc].
  - apply String.eqb_eq in E. subst k2. now rewrite H.
  - destruct (String.eqb k' k2); [reflexivity | exact IH].
Qed.
Lemma good_get w : w_meta w (digest url) <> Some Cut -> exists j w', run (repeat n j) w (get_content digest url (work region)) = (w', Return (Ok tt)) /\ told w'.
Proof.
  intros Hc. unfold get_content. apply good_step. cbn [advance fst snd]. rewrite Hget. rewrite Htext.
  destruct (r_tag reply) as [tag|] eqn:Et.
  2:{ destruct (good_work w) as [j [w' [E [H _]]]]. exists j, w'. split; [exact E|]. split; [exact H|]. intros t K. rewrite Et in K. discriminate. }
  destruct (String.eqb_spec tag "") as [->|Hne].
  { destruct (good_work w) as [j [w' [E [H _]]]]. exists j, w'. split; [exact E|]. split; [exact H|]. intros t K K'. rewrite Et in K. congruence. }
  apply good_step. cbn [advance fst snd].
  assert (S : forall d w2, exists j w', run (repeat n j) w2 (WriteMeta (digest url) Cut (WriteMeta (digest url) (Whole (set_assoc "url" (VStr url) (set_assoc "etag" (VStr tag) d))) (work region text))) = (w', Return (Ok tt)) /\ told w').
  { intros d w2. apply good_step. cbn [advance fst snd]. apply good_step. cbn [advance fst snd].
    match goal with |- exists j w', run _ ?x _ = _ /\ _ => destruct (good_work x) as [j [w' [E [H M]]]] end. exists j, w'. split; [exact E|]. split; [exact H|].
    intros t K _. assert (t = tag) by congruence. subst t. eexists. split; [rewrite M; apply put_same|]. rewrite assoc_set_other by discriminate. apply assoc_set_same. }
  assert (F : forall d w2, exists j w', run (repeat n j) w2 (save_metadata (set_assoc "url" (VStr url) (set_assoc "etag" (VStr tag) d)) (digest url) (work region text)) = (w', Return (Ok tt)) /\ told w').
  { intros d w2. unfold save_metadata. apply good_step. cbn [advance fst snd]. destruct (w_dir w2) eqn:Ed; [apply S|]. apply good_step. cbn [advance]. rewrite Ed. cbn [fst snd]. apply S. }
  destruct (w_meta w (digest url)) as [[|d]|]; [now elim Hc | apply F | apply F].
Qed.
Lemma c88_fresh w ns : (forall m, In m ns -> m = n) -> 11 <= List.length ns ->
  w_meta w (digest url) <> Some Cut -> (exists tag, n_head n url = Ok tag) -> ~ up_to_date digest w n url ->
  exists w', run ns w (update region url) = (w', Return (Ok tt)) /\ told w'.
Proof.
  intros Hns L Hc [tag Hh] Hu.
  assert (Er : ns = repeat n (List.length ns)).
  { clear L. induction ns as [|m ns IH]; [reflexivity|]. cbn [List.length repeat]. f_equal; [apply Hns; now left|]. apply IH. intros x Hx. apply Hns. now right. }
  assert (G : exists j w', run (repeat n j) w (update region url) = (w', Return (Ok tt)) /\ told w').
  { rewrite update_eq. unfold has_newer. apply good_step. cbn [advance fst snd]. destruct (w_meta w (digest url)) as [[|d]|] eqn:Em.
    - now elim Hc.
    - destruct (assoc "etag" d) as [cached|] eqn:Ea.
      + apply good_step. cbn [advance fst snd]. rewrite Hh. destruct (same_tag cached tag) eqn:Es; cbn [negb].
        * elim Hu. apply same_tag_iff in Es as [t [Ht [-> ->]]]. exists t. split; [exact Ht|]. split; [exists d; now split | exact Hh].
        * apply good_get. rewrite Em. discriminate.
      + apply good_get. rewrite Em. discriminate.
    - apply good_get. rewrite Em. discriminate. }
  destruct G as [j [w' [E T]]]. exists w'. split; [|exact T].
  destruct (c88_ends region url ns w L) as [r Hr]. rewrite Er. rewrite Er in Hr. set (k := List.length ns) in *.
  (* both runs are prefixes of one *)
  assert (E1 : run (repeat n (k + j)) w (update region url) = run (repeat n k) w (update region url)).
  { rewrite repeat_add, run_app. destruct (run (repeat n k) w (update region url)) as [w2 p2] eqn:E2. cbn [fst snd] in *. rewrite Hr. apply run_return. }
  assert (E2 : run (repeat n (k + j)) w (update region url) = (w', Return (Ok tt))).
  { rewrite Nat.add_comm, repeat_add, run_app, E. cbn [fst snd]. apply run_return. }
  congruence.
Qed.
End Fresh.

(** * Several updates at a time *)
Definition agree (r m : string) (w w1 : world) : Prop := w_dir w = true /\ w_dir w1 = true /\ w_spec w r = w_spec w1 r /\ w_meta w m = w_meta w1 m.
Lemma advance_dir n w p : w_dir w = true -> w_dir (fst (advance n w p)) = true.
Proof. intros H. destruct p; cbn [advance]; try exact H. rewrite H. exact H. Qed.
Lemma advance_agree r m n w w1 p : within r m p -> agree r m w w1 ->
  snd (advance n w p) = snd (advance n w1 p) /\ agree r m (fst (advance n w p)) (fst (advance n w1 p)).
Proof.
  intros H [D [D1 [A B]]]. destruct H as [x|k H|u k H|u k H|k H|k H|f k H|k H|f k H]; cbn [advance]; try (split; [reflexivity | repeat split; assumption]).
  - cbn [fst snd]. rewrite B. split; [reflexivity | repeat split; assumption].
  - cbn [fst snd]. rewrite D, D1. split; [reflexivity | repeat split; assumption].
  - rewrite D, D1. cbn [fst snd]. split; [reflexivity | repeat split; assumption].
  - cbn [fst snd]. split; [reflexivity|]. repeat split; cbn [w_dir w_spec w_meta]; try assumption. now rewrite !put_same.
  - cbn [fst snd]. split; [reflexivity|]. repeat split; cbn [w_dir w_spec w_meta]; try assumption. now rewrite !put_same.
Qed.
Lemma set_nth_same {A} i (x : A) l y : nth_error l i = Some y -> nth_error (set_nth i x l) i = Some x.
Proof. revert i. induction l as [|a l IH]; intros [|i] H; try discriminate H; cbn [set_nth nth_error] in *; [reflexivity | now apply IH]. Qed.
Lemma set_nth_other {A} i j (x : A) l : j <> i -> nth_error (set_nth i x l) j = nth_error l j.
Proof. revert i j. induction l as [|a l IH]; intros [|i] [|j] H; cbn [set_nth nth_error]; try reflexivity; [now elim H | apply IH; congruence]. Qed.
Lemma pool_one (R M : nat -> string) i schedule : forall w ps w1 p,
  (forall j q, nth_error ps j = Some q -> within (R j) (M j) q) -> (forall j, j <> i -> j < List.length ps -> R j <> R i /\ M j <> M i) ->
  nth_error ps i = Some p -> agree (R i) (M i) w w1 ->
  nth_error (snd (run_pool schedule w ps)) i = Some (snd (run (moments i schedule) w1 p)) /\ agree (R i) (M i) (fst (run_pool schedule w ps)) (fst (run (moments i schedule) w1 p)).
Proof.
  unfold moments. induction schedule as [|[j n] schedule IH]; intros w ps w1 p Hw Hd Hp Ha; cbn [run_pool filter map run]; [now split|].
  cbn [fst]. destruct (Nat.eqb_spec j i) as [->|Hj].
  - rewrite Hp. cbn [map run snd]. destruct (advance_agree (R i) (M i) n w w1 p (Hw i p Hp) Ha) as [E A]. rewrite E. destruct (advance_within (R i) (M i) n w1 p (Hw i p Hp)) as [W _]. apply IH.
    + intros j q Hq. destruct (Nat.eq_dec j i) as [->|N]; [rewrite (set_nth_same _ _ _ _ Hp) in Hq; injection Hq as <-; exact W|]. rewrite set_nth_other in Hq by exact N. now apply Hw.
    + intros j N L. apply Hd; [exact N|]. apply nth_error_Some. apply nth_error_Some in L. now rewrite set_nth_other in L by exact N.
    + now apply (set_nth_same _ _ _ p).
    + exact A.
  - destruct (nth_error ps j) as [q|] eqn:Eq; [|now apply IH]. destruct (advance_within (R j) (M j) n w q (Hw j q Eq)) as [W [S1 S2]].
    assert (Lj : j < List.length ps) by (apply nth_error_Some; congruence). destruct (Hd j Hj Lj) as [D1 D2]. apply IH.
    + intros k x Hk. destruct (Nat.eq_dec k j) as [->|N]; [rewrite (set_nth_same _ _ _ _ Eq) in Hk; injection Hk as <-; exact W|]. rewrite set_nth_other in Hk by exact N. now apply Hw.
    + intros k N L. apply Hd; [exact N|]. destruct (Nat.eq_dec k j) as [->|N']; [exact Lj|]. apply nth_error_Some. apply nth_error_Some in L. now rewrite set_nth_other in L by exact N'.
    + rewrite set_nth_other by congruence. exact Hp.
    + destruct Ha as [A1 [A2 [A3 A4]]]. split; [now apply advance_dir|]. split; [exact A2|]. split; [rewrite S1 by congruence; exact A3 | rewrite S2 by congruence; exact A4].
Qed.
Lemma pool_rest (Rs Ms : list string) schedule : forall w ps,
  (forall q, In q ps -> exists r m, In r Rs /\ In m Ms /\ within r m q) ->
  (forall r, ~ In r Rs -> w_spec (fst (run_pool schedule w ps)) r = w_spec w r) /\ (forall m, ~ In m Ms -> w_meta (fst (run_pool schedule w ps)) m = w_meta w m).
Proof.
  induction schedule as [|[j n] schedule IH]; intros w ps H; cbn [run_pool]; [now split|].
  destruct (nth_error ps j) as [q|] eqn:Eq; [|now apply IH]. destruct (H q (nth_error_In _ _ Eq)) as [r [m [Hr [Hm Hw]]]]. destruct (advance_within r m n w q Hw) as [W [S1 S2]].
  destruct (IH (fst (advance n w q)) (set_nth j (snd (advance n w q)) ps)) as [I1 I2].
  { intros x Hx. apply In_nth_error in Hx as [k Hk]. destruct (Nat.eq_dec k j) as [->|N].
    - rewrite (set_nth_same _ _ _ _ Eq) in Hk. injection Hk as <-. exists r, m. now repeat split.
    - rewrite set_nth_other in Hk by exact N. apply H. now apply (nth_error_In _ k). }
  split; intros x Hx; [rewrite I1 by exact Hx; apply S1 | rewrite I2 by exact Hx; apply S2]; intros ->; contradiction.
Qed.
Notation updates := (update_specs walk load_patches apply_patch digest loads).
(** Whatever the schedule, the update of a region goes as it would alone, at the moments at which it is advanced. *)
Lemma c88_schedule regions schedule w : NoDup (map fst regions) -> NoDup (map (fun ru => digest (snd ru)) regions) -> w_dir w = true ->
  let x := run_pool schedule w (updates regions) in
  (forall i region url, nth_error regions i = Some (region, url) ->
     let alone := run (moments i schedule) w (update region url) in
     nth_error (snd x) i = Some (snd alone) /\ w_spec (fst x) region = w_spec (fst alone) region /\ w_meta (fst x) (digest url) = w_meta (fst alone) (digest url)) /\
  (forall region, ~ In region (map fst regions) -> w_spec (fst x) region = w_spec w region) /\
  (forall m, ~ In m (map (fun ru => digest (snd ru)) regions) -> w_meta (fst x) m = w_meta w m).
Proof.
  intros N1 N2 D x. split; [|].
  - intros i region url Hi alone.
    pose (R := fun j => nth j (map fst regions) ""). pose (M := fun j => nth j (map (fun ru => digest (snd ru)) regions) "").
    assert (Li : i < List.length regions) by (apply nth_error_Some; congruence).
    assert (At : forall j r u, nth_error regions j = Some (r, u) -> R j = r /\ M j = digest u).
    { intros j r u Hj. unfold R, M. split; apply nth_error_nth; rewrite nth_error_map, Hj; reflexivity. }
    destruct (At i region url Hi) as [ER EM].
    assert (Len : List.length (updates regions) = List.length regions) by (unfold update_specs; apply map_length).
    destruct (pool_one R M i schedule w (updates regions) w (update region url)) as [P [_ [_ [Q1 Q2]]]].
    + intros j q Hq. unfold update_specs in Hq. rewrite nth_error_map in Hq. destruct (nth_error regions j) as [[r u]|] eqn:Ej; [|discriminate]. injection Hq as <-. destruct (At j r u Ej) as [-> ->]. apply update_within.
    + intros j Hj L. rewrite Len in L. split; intros K; apply Hj.
      * apply (proj1 (NoDup_nth (map fst regions) "") N1); try (rewrite map_length; assumption). exact K.
      * apply (proj1 (NoDup_nth (map (fun ru => digest (snd ru)) regions) "") N2); try (rewrite map_length; assumption). exact K.
    + unfold update_specs. now rewrite nth_error_map, Hi.
    + now repeat split.
    + rewrite ER, EM in *. now repeat split.
  - apply (pool_rest (map fst regions) (map (fun ru => digest (snd ru)) regions)). intros q Hq. unfold update_specs in Hq. apply in_map_iff in Hq as [[r u] [<- Hin]].
    exists r, (digest u). split; [now apply (in_map fst) in Hin|]. split; [now apply (in_map (fun ru => digest (snd ru))) in Hin|]. apply update_within.
Qed.
End Update.
