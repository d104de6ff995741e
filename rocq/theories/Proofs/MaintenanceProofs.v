(** Proofs for C88. *)
From Coq Require Import List Arith Lia Bool.
From Verif.Model Require Import Base Helpers Rules Config Maintenance.
From Verif.Spec Require Import Maintenance.
From Verif.Proofs Require Import BaseFacts.
Import ListNotations.
Local Open Scope string_scope.
Local Open Scope nat_scope.

(** * Where a program reads and writes *)
Inductive within (r m : string) : program -> Prop :=
| wi_return x : within r m (Return x)
| wi_read k : (forall o, within r m (k o)) -> within r m (ReadMeta m k)
| wi_head u k : (forall o, within r m (k o)) -> within r m (Head u k)
| wi_get u k : (forall o, within r m (k o)) -> within r m (Get u k)
| wi_dir k : (forall b, within r m (k b)) -> within r m (IsDir k)
| wi_make k : (forall b, within r m (k b)) -> within r m (MakeDir k)
| wi_meta f k : within r m k -> within r m (WriteMeta m f k)
| wi_services k : (forall f, within r m (k f)) -> within r m (Services k)
| wi_spec f k : within r m k -> within r m (WriteSpec r f k).
Lemma put_same {A} (f : string -> option A) k x : put f k x k = Some x.
Proof. unfold put. now rewrite String.eqb_refl. Qed.
Lemma put_other {A} (f : string -> option A) k x n : n <> k -> put f k x n = f n.
Proof. intros H. unfold put. apply String.eqb_neq in H. now rewrite H. Qed.
Lemma advance_within r m n w p : within r m p ->
  within r m (snd (advance n w p)) /\ (forall r', r' <> r -> w_spec (fst (advance n w p)) r' = w_spec w r') /\ (forall m', m' <> m -> w_meta (fst (advance n w p)) m' = w_meta w m').
Proof.
  intros H. destruct H as [x|k H|u k H|u k H|k H|k H|f k H|k H|f k H]; cbn [advance]; try (split; [apply H || constructor | split; intros; reflexivity]).
  - destruct (w_dir w); cbn [fst snd w_spec w_meta]; (split; [apply H | split; intros; reflexivity]).
  - cbn [fst snd w_spec w_meta]. split; [exact H|]. split; [reflexivity|]. intros m' Hm. now apply put_other.
  - cbn [fst snd w_spec w_meta]. split; [exact H|]. split; [|reflexivity]. intros r' Hr. now apply put_other.
Qed.
Lemma run_within r m ns : forall w p, within r m p ->
  within r m (snd (run ns w p)) /\ (forall r', r' <> r -> w_spec (fst (run ns w p)) r' = w_spec w r') /\ (forall m', m' <> m -> w_meta (fst (run ns w p)) m' = w_meta w m').
Proof.
  induction ns as [|n ns IH]; intros w p H; cbn [run]; [split; [exact H | split; reflexivity]|].
  destruct (advance_within r m n w p H) as [H1 [H2 H3]]. destruct (IH (fst (advance n w p)) _ H1) as [K1 [K2 K3]].
  split; [exact K1|]. split; intros x Hx; [rewrite K2 by exact Hx; now apply H2 | rewrite K3 by exact Hx; now apply H3].
Qed.

Section Update.
Variables (walk : string -> list (string * list string)) (load_patches : string -> string -> res (list val)) (apply_patch : val -> val -> outcome).
Variables (digest : string -> string) (loads : string -> option val).
Notation make := (processed walk load_patches apply_patch).
Notation update := (update_spec walk load_patches apply_patch digest loads).
Notation finish region v := (WriteSpec region Cut (WriteSpec region (Whole v) (Return (Ok tt)))).

Definition work (region text : string) : program :=
  match loads text with
  | None => Return (Err EValue)
  | Some spec => Services (fun fetch => match make region fetch spec with Err e => Return (Err e) | Ok v => finish region v end)
  end.
Lemma work_within region m text : within region m (work region text).
Proof. unfold work. destruct (loads text) as [spec|]; [|constructor]. constructor. intros f. destruct (make region f spec) as [v|e]; [|constructor]. now repeat constructor. Qed.
Lemma save_within region m d p : within region m p -> within region m (save_metadata d m p).
Proof. intros H. unfold save_metadata. constructor. intros []; [now repeat constructor|]. constructor. intros [[]|e]; [now repeat constructor | constructor]. Qed.
Lemma get_within region url k : (forall t, within region (digest url) (k t)) -> within region (digest url) (get_content digest url k).
Proof.
  intros H. unfold get_content. constructor. intros [rep|e]; [|constructor].
  assert (R : within region (digest url) (match r_text rep with Ok text => k text | Err e => Return (Err e) end)) by (destruct (r_text rep); [apply H | constructor]).
  destruct (r_tag rep) as [tag|]; [|exact R]. destruct (String.eqb tag ""); [exact R|]. constructor. intros [[|d]|]; [constructor | now apply save_within | now apply save_within].
Qed.
Lemma newer_within region url k : (forall b, within region (digest url) (k b)) -> within region (digest url) (has_newer digest url k).
Proof.
  intros H. unfold has_newer. constructor. intros [[|d]|]; [constructor | | apply H]. destruct (assoc "etag" d) as [c|]; [|apply H]. constructor. intros [t|e]; [apply H | constructor].
Qed.
Lemma update_eq region url : update region url = has_newer digest url (fun newer => if newer then get_content digest url (work region) else Return (Ok tt)).
Proof. reflexivity. Qed.
Lemma update_within region url : within region (digest url) (update region url).
Proof. rewrite update_eq. apply newer_within. intros []; [|constructor]. apply get_within. intros t. apply work_within. Qed.

(** At every moment of an update, every file but the specification of the region and the memory of its address is as it was. *)
Lemma c88_others region url ns w :
  let w' := fst (run ns w (update region url)) in
  (forall r, r <> region -> w_spec w' r = w_spec w r) /\ (forall m, m <> digest url -> w_meta w' m = w_meta w m).
Proof. exact (proj2 (run_within _ _ ns w _ (update_within region url))). Qed.

(** * The end of an update *)
Lemma run_return ns w r : run ns w (Return r) = (w, Return r).
Proof. induction ns as [|n ns IH]; cbn [run]; [reflexivity|]. exact IH. Qed.
(** Where a run of [p] from [w] may be: [a] the specification before, [A] what a full one is made of, [B] when it ends well without one. *)
Definition stage (region : string) (A : val -> Prop) (B : Prop) (w : world) (x : world * program) : Prop :=
  (w_spec (fst x) region = w_spec w region \/ w_spec (fst x) region = Some Cut \/ exists v, w_spec (fst x) region = Some (Whole v) /\ A v) /\
  (snd x = Return (Ok tt) -> (exists v, w_spec (fst x) region = Some (Whole v) /\ A v) \/ (fst x = w /\ B)).
Lemma stage_start region A B w p : p <> Return (Ok tt) -> stage region A B w (w, p).
Proof. intros H. split; [now left|]. cbn [snd]. intros K. contradiction. Qed.
Lemma stage_return region A B w ns e : stage region A B w (run ns w (Return (Err e))).
Proof. rewrite run_return. apply stage_start. discriminate. Qed.
Lemma stage_weaken region (A A' : val -> Prop) (B B' : Prop) w x : (forall v, A v -> A' v) -> (B -> B') -> stage region A B w x -> stage region A' B' w x.
Proof.
  intros HA HB [H K]. split.
  - destruct H as [H|[H|[v [H H']]]]; [now left | now right; left | right; right; exists v; auto].
  - intros E. destruct (K E) as [[v [H1 H2]]|[H1 H2]]; [left; exists v; auto | right; auto].
Qed.
(** A world with the same specification of the region, of which [w] may be told apart. *)
Lemma stage_shift region A w w1 x : w_spec w1 region = w_spec w region -> stage region A False w1 x -> stage region A False w x.
Proof.
  intros E [H K]. split; [rewrite <- E; exact H|]. intros Q. destruct (K Q) as [Y|[_ []]]. now left.
Qed.
Lemma stage_finish region (A : val -> Prop) ns v w : A v -> stage region A False w (run ns w (finish region v)).
Proof.
  intros Hv. destruct ns as [|n1 ns]; cbn [run advance fst snd]; [now apply stage_start|].
  destruct ns as [|n2 ns]; cbn [run advance fst snd].
  - split; [right; left; apply put_same|]. discriminate.
  - rewrite run_return. split; [right; right; exists v; split; [apply put_same | exact Hv]|]. intros _. left. exists v. split; [apply put_same | exact Hv].
Qed.
Lemma stage_work region ns text (A : val -> Prop) w :
  (forall m spec v, In m ns -> loads text = Some spec -> make region (n_shapes m) spec = Ok v -> A v) -> stage region A False w (run ns w (work region text)).
Proof.
  intros HA. unfold work. destruct (loads text) as [spec|] eqn:E; [|apply stage_return]. destruct ns as [|m ns]; [now apply stage_start|]. cbn [run advance fst snd].
  destruct (make region (n_shapes m) spec) as [v|e] eqn:Ev; [|apply stage_return]. apply stage_finish. now apply (HA m spec v); [left | |].
Qed.
Lemma run_suffix {A} (n : A) l l' : (exists pre, l = pre ++ l')%list -> exists pre, (n :: l = pre ++ l')%list.
Proof. intros [pre ->]. now exists (n :: pre). Qed.
(** Writing the memory keeps the specifications, so whatever comes after is at one of its stages. *)
Lemma stage_save region (A : val -> Prop) d m p : forall ns w, p <> Return (Ok tt) ->
  (forall ns' w', (exists pre, ns = pre ++ ns')%list -> stage region A False w' (run ns' w' p)) ->
  stage region A False w (run ns w (save_metadata d m p)).
Proof.
  intros ns w Hp H. unfold save_metadata.
  assert (S : forall ns2 w2, w_spec w2 region = w_spec w region -> (exists pre, ns = pre ++ ns2)%list -> stage region A False w (run ns2 w2 (WriteMeta m Cut (WriteMeta m (Whole d) p)))).
  { intros ns2 w2 E [pre Epre]. apply (stage_shift region A w w2); [exact E|]. destruct ns2 as [|n1 ns2]; [apply stage_start; discriminate|]. cbn [run advance fst snd].
    destruct ns2 as [|n2 ns2]; cbn [run advance fst snd]; [split; [left; reflexivity | discriminate]|].
    eapply (stage_shift region A w2); [|apply H]; [reflexivity|]. exists (pre ++ [n1; n2])%list. rewrite <- app_assoc. exact Epre. }
  destruct ns as [|n1 ns]; [apply stage_start; discriminate|]. cbn [run advance fst snd]. destruct (w_dir w) eqn:Ed.
  - apply S; [reflexivity | now exists [n1]].
  - destruct ns as [|n2 ns]; cbn [run advance fst snd]; [apply stage_start; discriminate|]. rewrite Ed. cbn [fst snd]. apply S; [reflexivity | now exists [n1; n2]].
Qed.
Lemma stage_get region url ns w : stage region (offered loads (make region) ns url) False w (run ns w (get_content digest url (work region))).
Proof.
  unfold get_content. destruct ns as [|n ns]; [apply stage_start; discriminate|]. cbn [run advance fst snd]. destruct (n_get n url) as [rep|e] eqn:Eg; [|apply stage_return].
  set (A := offered loads (make region) (n :: ns) url).
  assert (R : forall ns' w', (exists pre, ns = pre ++ ns')%list -> stage region A False w' (run ns' w' (match r_text rep with Ok text => work region text | Err e => Return (Err e) end))).
  { intros ns' w' [pre Ep]. destruct (r_text rep) as [text|e] eqn:Et; [|apply stage_return]. apply stage_work. intros m spec v Hm Hs Hv. exists n, m, rep, text, spec.
    repeat split; try assumption; [now left|]. right. rewrite Ep. apply in_or_app. now right. }
  assert (N : match r_text rep with Ok text => work region text | Err e => Return (Err e) end <> Return (Ok tt)).
  { destruct (r_text rep) as [text|e]; [|discriminate]. unfold work. destruct (loads text); discriminate. }
  destruct (r_tag rep) as [tag|]; [|apply R; now exists []]. destruct (String.eqb tag ""); [apply R; now exists []|].
  destruct ns as [|n2 ns]; cbn [run advance fst snd]; [apply stage_start; discriminate|].
  assert (S : forall d, stage region A False w (run ns w (save_metadata d (digest url) (match r_text rep with Ok text => work region text | Err e => Return (Err e) end)))).
  { intros d. apply stage_save; [exact N|]. intros ns' w' Hp. apply R. now apply run_suffix. }
  destruct (w_meta w (digest url)) as [[|d]|]; [apply stage_return | apply S | apply S].
Qed.
Lemma same_tag_iff cached tag : same_tag cached tag = true <-> exists t, t <> "" /\ cached = VStr t /\ tag = Some t.
Proof.
  unfold same_tag. destruct tag as [t|]; [|split; [discriminate | intros [? [_ [_ ?]]]; discriminate]]. rewrite !andb_true_iff, negb_true_iff, String.eqb_neq. split.
  - intros [[_ H] E]. exists t. split; [exact H|]. split; [|reflexivity]. now apply eq_str_true.
  - intros [t' [H [-> E]]]. injection E as ->. split; [split; [|exact H]|].
    + cbn [truthy]. destruct t'; [now elim H | reflexivity].
    + now apply eq_str_true.
Qed.
Lemma stage_more region url ns n w x : stage region (offered loads (make region) ns url) False w x ->
  forall B, stage region (offered loads (make region) (n :: ns) url) B w x.
Proof.
  intros H B. apply (stage_weaken region (offered loads (make region) ns url) (offered loads (make region) (n :: ns) url) False B w x); [|intros []|exact H]. intros v [a [m [rep [text [spec [H1 [H2 H3]]]]]]]. exists a, m, rep, text, spec. split; [now right|]. split; [now right | exact H3].
Qed.
Lemma c88_stage region url ns w :
  stage region (offered loads (make region) ns url) (exists n, In n ns /\ up_to_date digest w n url) w (run ns w (update region url)).
Proof.
  rewrite update_eq. unfold has_newer. destruct ns as [|n ns]; [apply stage_start; discriminate|]. cbn [run advance fst snd].
  destruct (w_meta w (digest url)) as [[|d]|] eqn:Em; [apply stage_return | | apply stage_more; apply stage_get].
  destruct (assoc "etag" d) as [cached|] eqn:Ea; [|apply stage_more; apply stage_get].
  destruct ns as [|n2 ns]; cbn [run advance fst snd]; [apply stage_start; discriminate|]. destruct (n_head n2 url) as [tag|e] eqn:Eh; [|apply stage_return].
  destruct (same_tag cached tag) eqn:Es; cbn [negb].
  - rewrite run_return. split; [now left|]. intros _. right. split; [reflexivity|]. apply same_tag_iff in Es as [t [Ht [-> ->]]]. exists n2. split; [right; now left|].
    exists t. split; [exact Ht|]. split; [|exact Eh]. exists d. now split.
  - assert (K := stage_get region url ns w). apply (stage_more region url ns n2 w _) with (B := False) in K. now apply stage_more.
Qed.

(** At every moment of an update the specification of the region is the old one, cut short, or made from what the server sent; and when an
    update ends well, it is the latter, or the server had said that there is nothing new and nothing was changed. *)
Lemma c88_contents region url ns w w' p : run ns w (update region url) = (w', p) ->
  (w_spec w' region = w_spec w region \/ w_spec w' region = Some Cut \/ exists v, w_spec w' region = Some (Whole v) /\ offered loads (make region) ns url v) /\
  (p = Return (Ok tt) ->
     (exists v, w_spec w' region = Some (Whole v) /\ offered loads (make region) ns url v) \/ (w' = w /\ exists n, In n ns /\ up_to_date digest w n url)).
Proof. intros E. assert (K := c88_stage region url ns w). rewrite E in K. exact K. Qed.
End Update.
