(** The same document, laid out differently (C112). *)
From Coq Require Import List String ZArith Bool Permutation.
From Verif.Model Require Import Base Node Locate Helpers Rules Limits Runner Config Core Standard.
From Verif.Spec Require Import Pipeline Paths Shipped Layout.
From Verif.Proofs Require Import BaseFacts PipelineProofs RunProofs RuleSetProofs RuleSetMain SearchWitness StandardProofs.
Import Verif.Model.Rules.
Import ListNotations.
Local Open Scope string_scope.

Lemma same_document_sym : forall t t', same_document t t' -> same_document t' t.
Proof.
  fix IH 3. intros t t' [v | m m' s | m m' l l' H | m m' d d' H]; constructor.
  - induction H; constructor; [apply IH; assumption | assumption].
  - induction H as [|x y d d' [E S] H IH2]; constructor; [split; [symmetry; exact E | apply IH; exact S] | exact IH2].
Qed.
Lemma same_document_erase : forall t t', same_document t t' -> erase t = erase t'.
Proof.
  fix IH 3. intros t t' [v | m m' s | m m' l l' H | m m' d d' H]; cbn [erase]; try reflexivity; f_equal.
  - induction H as [|x y l l' S H IH2]; [reflexivity|]. cbn [map]. f_equal; [apply IH; exact S | exact IH2].
  - induction H as [|x y d d' [E S] H IH2]; [reflexivity|]. cbn [map]. f_equal; [rewrite E; f_equal; apply IH; exact S | exact IH2].
Qed.
Lemma nth_same l l' : Forall2 same_document l l' -> forall n, (nth_error l n = None /\ nth_error l' n = None) \/ exists x x', nth_error l n = Some x /\ nth_error l' n = Some x' /\ same_document x x'.
Proof. induction 1 as [|x y l l' S H IH]; intros [|n]; cbn; auto. right. exists x, y. auto. Qed.
Lemma massoc_same k d d' : Forall2 (fun kv kv' => fst (fst kv) = fst (fst kv') /\ same_document (snd kv) (snd kv')) d d' ->
  (massoc k d = None /\ massoc k d' = None) \/ exists x x', massoc k d = Some x /\ massoc k d' = Some x' /\ same_document x x'.
Proof.
  induction 1 as [|[[a m] x] [[b m'] y] d d' [E S] H IH]; [left; auto|]. cbn [fst snd] in *. subst b. cbn [massoc]. destruct (String.eqb k a); [right; exists x, y; auto | exact IH].
Qed.
Lemma mindex_same t t' pe : same_document t t' -> (exists e, mindex t pe = Err e /\ mindex t' pe = Err e) \/ exists x x', mindex t pe = Ok x /\ mindex t' pe = Ok x' /\ same_document x x'.
Proof.
  intros [v | m m' s | m m' l l' H | m m' d d' H]; destruct pe as [k|n]; cbn [mindex]; eauto.
  - left. destruct v; eauto.
  - destruct v as [| | | |s| |]; eauto. destruct (String.get n s); [right; eexists; eexists; repeat split; constructor | eauto].
  - destruct (String.get n s); [right; eexists; eexists; repeat split; constructor | eauto].
  - destruct (nth_same _ _ H n) as [[E E'] | (x & x' & E & E' & S)]; rewrite E, E'; eauto 8.
  - destruct (massoc_same k _ _ H) as [[E E'] | (x & x' & E & E' & S)]; rewrite E, E'; eauto 8.
Qed.
Definition same_kind {A} (a b : res A) : Prop := (exists e, a = Err e /\ b = Err e) \/ exists x y, a = Ok x /\ b = Ok y.
Lemma scan_same t t' pe : same_document t t' -> same_kind (scan_key t pe) (scan_key t' pe).
Proof. intros [v | m m' s | m m' l l' H | m m' d d' H]; cbn [scan_key]; unfold same_kind; eauto. Qed.
(** Looking up a place fails on both or on neither. *)
Lemma location_same p : forall t t', same_document t t' -> same_kind (get_location t p) (get_location t' p).
Proof.
  induction p as [|pe p IH]; intros t t' S; [left; eexists; split; reflexivity|].
  assert (K : same_kind (match t with MScalar (VStr _) => Ok None | _ => scan_key t pe end) (match t' with MScalar (VStr _) => Ok None | _ => scan_key t' pe end)).
  { pose proof (scan_same t t' pe S) as X. destruct S as [v | m m' s | m m' l l' H | m m' d d' H]; try exact X. destruct v; try exact X. right; eauto. }
  destruct p as [|pe2 p].
  - cbn [get_location]. destruct S as [v | m m' s | m m' l l' H | m m' d d' H]; try exact K.
    destruct pe as [k|n]; [exact K|]. destruct (nth_same _ _ H n) as [[E E'] | (x & x' & E & E' & S)]; rewrite E, E'; unfold same_kind; eauto.
  - change (get_location t (pe :: pe2 :: p)) with (match (match mindex t pe with Ok sub => get_location sub (pe2 :: p) | Err e => Err e end) with
      | Ok (Some m) => Ok (Some m) | Ok None | Err EKey | Err ETypeErr => match t with MScalar (VStr _) => Ok None | _ => scan_key t pe end | Err e => Err e end).
    change (get_location t' (pe :: pe2 :: p)) with (match (match mindex t' pe with Ok sub => get_location sub (pe2 :: p) | Err e => Err e end) with
      | Ok (Some m) => Ok (Some m) | Ok None | Err EKey | Err ETypeErr => match t' with MScalar (VStr _) => Ok None | _ => scan_key t' pe end | Err e => Err e end).
    destruct (mindex_same t t' pe S) as [(e & E & E') | (x & x' & E & E' & S')].
    + rewrite E, E'. destruct e; try exact K; left; eauto.
    + rewrite E, E'. assert (N : exists o o', match t with MScalar (VStr _) => Ok None | _ => scan_key t pe end = Ok o /\ match t' with MScalar (VStr _) => Ok None | _ => scan_key t' pe end = Ok o').
      { destruct S as [v | m m' s | m m' l l' H | m m' d d' H]; try (cbn [scan_key]; eauto). destruct v; try (destruct pe; discriminate E); eauto. }
      destruct N as (o & o' & N & N').
      destruct (IH x x' S') as [(e & G & G') | (y & y' & G & G')]; rewrite G, G'; [destruct e; try exact K; left; eauto|].
      right. destruct y, y'; rewrite ?N, ?N'; eauto.
Qed.
Lemma beyond_list before : forall t m l i after, leads t before (MList m l) -> List.length l <= i -> get_location t (before ++ PIdx i :: after)%list = Err EIndex.
Proof.
  induction before as [|pe before IH]; intros t m l i after L Hi.
  - inversion L; subst. assert (N : nth_error l i = None) by (apply nth_error_None; exact Hi). cbn [app get_location]. destruct after; cbn [mindex]; rewrite N; reflexivity.
  - assert (G : exists x, mindex t pe = Ok x /\ leads x before (MList m l)) by (inversion L; subst; cbn [mindex]; match goal with H : _ = Some _ |- _ => rewrite H end; eauto).
    destruct G as (x & M & L'). specialize (IH x m l i after L' Hi).
    assert (Ne : exists a b, (before ++ PIdx i :: after)%list = a :: b) by (destruct before; cbn [app]; eauto). destruct Ne as (a & b & Ne).
    cbn [app]. rewrite Ne in *. change (get_location t (pe :: a :: b)) with (match (match mindex t pe with Ok sub => get_location sub (a :: b) | Err e => Err e end) with
      | Ok (Some m) => Ok (Some m) | Ok None | Err EKey | Err ETypeErr => match t with MScalar (VStr _) => Ok None | _ => scan_key t pe end | Err e => Err e end). rewrite M, IH. reflexivity.
Qed.
Lemma located_placed c id m fi : (exists m0 d, c_tmpl c = MDict m0 d) -> locate_match c id m = Ok fi -> placed_at c (rm_path m) fi.
Proof.
  intros D L. split.
  { destruct m as [q msg]. unfold locate_match in *. cbn [rm_path rm_msg] in *. destruct (get_location (c_tmpl c) q) as [[x|]|]; cbn [bind] in *; inversion L; subst; reflexivity. }
  intros T. assert (P : rm_path m <> []) by (intros E; unfold locate_match in L; rewrite E in L; discriminate L).
  assert (I : indices_ok (c_tmpl c) (rm_path m)).
  { intros before i after x E Hl. destruct x as [v | m1 s | m1 l | m1 d]; auto.
    - destruct v; auto. exact (T _ _ _ _ E Hl (or_intror (ex_intro _ _ eq_refl))).
    - exact (T _ _ _ _ E Hl (or_introl (ex_intro _ m1 (ex_intro _ s eq_refl)))).
    - destruct (Nat.lt_ge_cases i (List.length l)) as [H|H]; [exact H|]. unfold locate_match in L. rewrite E, (beyond_list _ _ _ _ _ _ Hl H) in L. discriminate L. }
  destruct (locate_finding c id m D P I) as (fi' & L' & _ & _ & _ & F). rewrite L in L'. injection L' as <-. exact F.
Qed.

Section Layout.
Variables (sp : spec) (k : collection) (c c' : cfn).
Hypothesis Same : same_document (c_tmpl c) (c_tmpl c').
Hypothesis Hd : exists m d, c_tmpl c = MDict m d.
Hypothesis Blind : forall r, In r (rules k) -> blind r c c'.

Lemma other_dict : exists m d, c_tmpl c' = MDict m d.
Proof using Same Hd. destruct Hd as (m & d & E). rewrite E in Same. inversion Same; subst. eauto. Qed.
Lemma locate_same id m : same_kind (locate_match c id m) (locate_match c' id m).
Proof using Same.
  unfold locate_match. destruct (location_same (rm_path m) _ _ Same) as [(e & E & E') | (x & y & E & E')]; rewrite E, E'; cbn [bind]; [left; eauto|]. right. destruct x, y; eauto.
Qed.
Lemma locate_twins id m fi fi' : locate_match c id m = Ok fi -> locate_match c' id m = Ok fi' -> twins c c' fi fi'.
Proof using Same Hd.
  intros L L'. pose proof (located_placed c id m fi Hd L) as P. pose proof (located_placed c' id m fi' other_dict L') as P'.
  assert (F : forall c id m fi, locate_match c id m = Ok fi -> f_rule fi = id /\ f_msg fi = rm_msg m /\ f_file fi = c_file c).
  { clear. intros c id m fi H. unfold locate_match in H. destruct (get_location _ _) as [[x|]|]; inversion H; subst; auto. }
  destruct (F _ _ _ _ L) as (A1 & A2 & A3). destruct (F _ _ _ _ L') as (B1 & B2 & B3). split; [congruence|]. split; [congruence|]. split; [exact A3|]. split; [exact B3|]. left. exists (rm_path m). auto.
Qed.
Definition alike_res (a b : res (list finding)) : Prop := (exists e, a = Err e /\ b = Err e) \/ exists l l', a = Ok l /\ b = Ok l' /\ Forall2 (twins c c') l l'.
Lemma alike_nil : alike_res (Ok []) (Ok []).
Proof using. right. exists [], []. auto. Qed.
Lemma alike_app a a' b b' : alike_res a a' -> alike_res b b' -> alike_res (do x <- a; do y <- b; Ok (x ++ y)%list) (do x <- a'; do y <- b'; Ok (x ++ y)%list).
Proof using.
  intros [(e & -> & ->) | (l & l' & -> & -> & H)]; [intros _; left; cbn; eauto|]. intros [(e & -> & ->) | (m & m' & -> & -> & H')]; cbn [bind]; [left; eauto|].
  right. eexists. eexists. split; [reflexivity|]. split; [reflexivity|]. apply Forall2_app; assumption.
Qed.
Lemma alike_located id ms : alike_res (map_res (locate_match c id) ms) (map_res (locate_match c' id) ms).
Proof using Same Hd.
  induction ms as [|m ms IH]; [apply alike_nil|]. cbn [map_res]. destruct (locate_same id m) as [(e & E & E') | (x & y & E & E')]; rewrite E, E'; cbn [bind]; [left; eauto|].
  destruct IH as [(e & -> & ->) | (l & l' & -> & -> & H)]; cbn [bind]; [left; eauto|]. right. eexists. eexists. split; [reflexivity|]. split; [reflexivity|]. constructor; [exact (locate_twins _ _ _ _ E E') | exact H].
Qed.
Lemma alike_bind id x x' : x = x' -> alike_res (do ms <- x; map_res (locate_match c id) ms) (do ms <- x'; map_res (locate_match c' id) ms).
Proof using Same Hd. intros <-. destruct x as [ms|e]; cbn [bind]; [apply alike_located | left; eauto]. Qed.
Lemma alike_check s id a b : alike_res a b -> alike_res (run_check s (c_file c) id a) (run_check s (c_file c') id b).
Proof using.
  intros [(e & -> & ->) | (l & l' & -> & -> & H)]; [|right; exists l, l'; repeat split; exact H].
  assert (K : alike_res (if is_rule_enabled s "E0002" false then Ok [crash_finding (c_file c) id e] else Err ETypeErr) (if is_rule_enabled s "E0002" false then Ok [crash_finding (c_file c') id e] else Err ETypeErr)).
  { destruct (is_rule_enabled s "E0002" false); [|left; eauto]. right. eexists. eexists. split; [reflexivity|]. split; [reflexivity|]. constructor; [|constructor].
    repeat split. right. repeat split. }
  destruct e; try exact K. apply alike_nil.
Qed.
Let k1 := initialize_all k c.
Let k2 := initialize_all k c'.
Lemma prepared_same : k1 = k2.
Proof using Blind.
  unfold k1, k2, initialize_all. f_equal. apply map_ext_in. intros r I. destruct (enabled (k_set k) r) eqn:E; [|reflexivity].
  destruct (Blind r) as (B & _); [apply filter_In; auto|]. rewrite B. reflexivity.
Qed.
Lemma prepared_blind r : In r (rules k1) -> blind r c c'.
Proof using Blind.
  intros I. apply filter_In in I as [I E]. unfold k1, initialize_all in I, E. cbn [k_all k_set] in *. apply in_map_iff in I as [r0 [<- I]].
  destruct (enabled (k_set k) r0) eqn:E0; [|rewrite E0 in E; discriminate E]. destruct (Blind r0) as (B1 & B2 & B3 & B4); [apply filter_In; auto|].
  split; [exact B1|]. split; [exact B2|]. split; [exact B3 | exact B4].
Qed.
Lemma concat_alike (f g : rule -> res (list finding)) l : (forall r, In r l -> alike_res (f r) (g r)) -> alike_res (concat_res f l) (concat_res g l).
Proof using.
  induction l as [|r l IH]; intros H; [apply alike_nil|]. cbn [concat_res]. apply alike_app; [apply H; left; reflexivity | apply IH; intros; apply H; right; assumption].
Qed.
Lemma body_alike : alike_res (run_body sp k1 c) (run_body sp k2 c').
Proof using Same Hd Blind.
  rewrite <- prepared_same. apply (run_body_rel alike_res).
  - exact alike_nil.
  - exact alike_app.
  - intros props name p. apply concat_alike. intros r I. destruct (prepared_blind r I) as (_ & _ & _ & B).
    assert (M : alike_res (matchall_subs r c props name p) (matchall_subs r c' props name p)).
    { unfold matchall_subs. destruct (r_match_subs r) as [f|] eqn:E; [|apply alike_nil]. destruct (negb _); [apply alike_nil|]. apply alike_bind. exact (B f _ _ _ _ eq_refl). }
    pose proof (alike_check (k_set k1) (r_id r) _ _ M) as K. destruct props as [| | | | | |[|[key v] [|]]]; try exact K. destruct (String.eqb key "Fn::If"); [apply alike_nil | exact K].
  - intros rt ts _. right. left. eauto.
  - intros props rt p. apply concat_alike. intros r I. destruct (prepared_blind r I) as (_ & _ & B & _). apply alike_check.
    unfold matchall_props. destruct (r_match_props r) as [f|] eqn:E; [|apply alike_nil]. destruct (negb _); [apply alike_nil|]. apply alike_bind. exact (B f _ _ _ _ eq_refl).
  - apply concat_alike. intros r I. destruct (prepared_blind r I) as (_ & B & _). apply alike_check. unfold matchall. destruct (r_match r) as [f|] eqn:E; [|apply alike_nil]. apply alike_bind. exact (B f _ eq_refl).
  - exact (same_document_erase _ _ Same).
Qed.
Lemma layout_half tr rg man ds ds' l l' : wants_transform (template c) = false -> get_directives (c_tmpl c) = Ok ds -> get_directives (c_tmpl c') = Ok ds' ->
  snd (run_checks sp tr k rg man c) = Findings l -> snd (run_checks sp tr k rg man c') = Findings l' -> answered c c' man ds' l l'.
Proof using Same Hd Blind.
  intros W D D' R R'. assert (W' : wants_transform (template c') = false) by (unfold template; rewrite <- (same_document_erase _ _ Same); exact W).
  assert (Q : forall x l, wants_transform (template x) = false -> snd (run_checks sp tr k rg man x) = Findings l -> l = reports sp k man x).
  { clear. intros x l W R. destruct (run_checks_cases sp tr k rg man x) as [[K _]|[(_ & K & _)|(_ & _ & K)]]; [congruence | congruence |]. rewrite W, R in K. injection K as ->. reflexivity. }
  apply Q in R; [|exact W]. apply Q in R'; [|exact W']. subst l l'. rewrite !reports_body, D, D'.
  destruct body_alike as [(e & E & E') | (raw & raw' & E & E' & F)]; unfold k1, k2 in E, E'; rewrite E, E'; [intros fi []|].
  intros fi H. apply (Permutation_in _ (sort_perm _)) in H. apply report_sound in H as [H _].
  assert (T : exists fi', In fi' raw' /\ twins c c' fi fi').
  { clear -F H. induction F as [|x y l l' T F IH]; [destruct H|]. destruct H as [<-|H]; [exists y; split; [now left | exact T]|]. destruct (IH H) as (z & I & T'). exists z. split; [now right | exact T']. }
  destruct T as (fi' & I & T). exists fi'. split; [exact T|]. destruct (suppressed_dec man ds' fi') as [S|S]; [now left | right].
  destruct (report_complete man ds' raw' fi' I S) as (u & Hu & Su). exists u. split; [|exact Su]. apply (Permutation_in _ (Permutation_sym (sort_perm _))). exact Hu.
Qed.
End Layout.

(** Both ways. *)
Lemma layout_free sp tr k rg man c c' ds ds' l l' : same_document (c_tmpl c) (c_tmpl c') -> (exists m d, c_tmpl c = MDict m d) -> (forall r, In r (rules k) -> blind r c c') ->
  wants_transform (template c) = false -> get_directives (c_tmpl c) = Ok ds -> get_directives (c_tmpl c') = Ok ds' ->
  snd (run_checks sp tr k rg man c) = Findings l -> snd (run_checks sp tr k rg man c') = Findings l' ->
  answered c c' man ds' l l' /\ answered c' c man ds l' l.
Proof.
  intros S Hd B W D D' R R'. split; [exact (layout_half sp k c c' S Hd B tr rg man ds ds' l l' W D D' R R')|].
  apply (layout_half sp k c' c (same_document_sym _ _ S) (other_dict c c' S Hd)) with (tr := tr) (rg := rg) (ds := ds') ; auto.
  - intros r I. destruct (B r I) as (B1 & B2 & B3 & B4). split; [symmetry; exact B1|]. split; [intros f cfg E; symmetry; exact (B2 f cfg E)|]. split; [intros f cfg v t p E; symmetry; exact (B3 f cfg v t p E) | intros f cfg v t p E; symmetry; exact (B4 f cfg v t p E)].
  - unfold template. rewrite <- (same_document_erase _ _ S). exact W.
Qed.

(** The shipped rules do not look at the layout; the two on the size of the file see what the file system says. *)
Definition unsized (w : world) (c c' : cfn) (r : rule) : Prop := r_id r = "E1002" \/ r_id r = "I1002" -> w_size w (c_file c) = w_size w (c_file c').
Section Shipped.
Variables (w : world) (c c' : cfn).
Hypothesis (T : template c = template c') (B : w_before w c = w_before w c') (G : w_globals w c = w_globals w c').
Lemma whole_blind id f : f c = f c' -> blind (template_rule id f) c c'.
Proof using. intros E. split; [reflexivity|]. split; [intros g cfg H; injection H as <-; exact E|]. split; discriminate. Qed.
Lemma limit_blind k id number : (number = "1002" -> w_size w (c_file c) = w_size w (c_file c')) -> blind (limited_rule w k id number) c c'.
Proof using T.
  intros N. apply whole_blind. rewrite T. destruct (String.eqb_spec number "1002") as [E|E]; [rewrite (N E); reflexivity|].
  unfold limit_rule. cbn [assoc]. rewrite (proj2 (String.eqb_neq number "1002") E). reflexivity.
Qed.
Ltac one := intros U; first
  [ apply limit_blind; let N := fresh in intros N; first [discriminate N | exact (U (or_introl eq_refl)) | exact (U (or_intror eq_refl))]
  | apply whole_blind; cbv beta; rewrite ?T, ?B, ?G; reflexivity
  | split; [reflexivity|]; split; [|split]; intros;
    match goal with H : _ = Some _ |- _ => first [discriminate H | injection H as <-; cbv beta; rewrite ?T, ?B, ?G; reflexivity] end ].
Lemma shipped_unsized : Forall (fun r => unsized w c c' r -> blind r c c') (shipped w).
Proof using T B G.
  unfold shipped. repeat (apply Forall_app; split).
  - repeat (apply Forall_cons; [one|]); apply Forall_nil.
  - repeat (apply Forall_cons; [one|]); apply Forall_nil.
  - repeat (apply Forall_cons; [one|]); apply Forall_nil.
  - repeat (apply Forall_cons; [one|]); apply Forall_nil.
  - repeat (apply Forall_cons; [one|]); apply Forall_nil.
  - repeat (apply Forall_cons; [one|]); apply Forall_nil.
  - repeat (apply Forall_cons; [one|]); apply Forall_nil.
  - repeat (apply Forall_cons; [one|]); apply Forall_nil.
  - repeat (apply Forall_cons; [one|]); apply Forall_nil.
Qed.
End Shipped.

(** So the layout matters to none of them. *)
Lemma shipped_layout w sp tr k rg man c c' ds ds' l l' : only_shipped w (k_all k) -> same_document (c_tmpl c) (c_tmpl c') -> (exists m d, c_tmpl c = MDict m d) ->
  w_before w c = w_before w c' -> w_globals w c = w_globals w c' ->
  (forall r, In r (rules k) -> r_id r = "E1002" \/ r_id r = "I1002" -> w_size w (c_file c) = w_size w (c_file c')) ->
  wants_transform (template c) = false -> get_directives (c_tmpl c) = Ok ds -> get_directives (c_tmpl c') = Ok ds' ->
  snd (run_checks sp tr k rg man c) = Findings l -> snd (run_checks sp tr k rg man c') = Findings l' ->
  answered c c' man ds' l l' /\ answered c' c man ds l' l.
Proof.
  intros O S Hd B G U W D D' R R'. apply (layout_free sp tr k rg man c c' ds ds' l l'); auto. intros r I.
  assert (A : In r (k_all k)) by (apply filter_In in I; tauto). destruct (O r A) as (r0 & I0 & E1 & _ & _ & E2 & E3 & E4 & E5 & _).
  pose proof (shipped_unsized w c c' (same_document_erase _ _ S) B G) as F. rewrite Forall_forall in F. specialize (F r0 I0).
  assert (Q : unsized w c c' r0) by (intros H; apply (U r I); rewrite E1; exact H). destruct (F Q) as (B1 & B2 & B3 & B4).
  unfold blind. rewrite E2, E3, E4, E5. auto.
Qed.
