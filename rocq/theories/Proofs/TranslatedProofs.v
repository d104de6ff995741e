(** C98: proofs. *)
From Coq Require Import List ZArith Lia Arith.
From Verif.Model Require Import Base Node Locate Helpers Rules Runner Config Core Serverless Standard Translated.
From Verif.Spec Require Import Pipeline Paths Shipped Translated.
From Verif.Proofs Require Import BaseFacts SearchProofs PipelineProofs PropertyRuleProofs.
Import Verif.Model.Rules.
Import ListNotations.
Local Open Scope string_scope.

(** * Converting *)
Fixpoint pval_rect' (P : pval -> Prop) (Hs : forall v, P (PScalar v)) (Ht : forall m s, P (PStr m s))
  (Hl : forall m l, (forall x, In x l -> P x) -> P (PList m l)) (Hd : forall m d, (forall k x, In (k, x) d -> P x) -> P (PDict m d)) (t : pval) : P t.
Proof.
  destruct t as [v|m s|m l|m d]; [apply Hs | apply Ht | apply Hl | apply Hd].
  - induction l as [|y l IH]; [intros x [] | intros x [<-|H]; [now apply pval_rect' | now apply IH]].
  - induction d as [|[k0 y] d IH]; [intros k x [] | intros k x [H|H]; [injection H as <- <-; now apply pval_rect' | now apply (IH k)]].
Defined.
Lemma convert_contents t : forall start, erase (convert start t) = contents t.
Proof.
  induction t as [v|[m|] s|m l IH|m d IH] using pval_rect'; intros start; try reflexivity; cbn [convert erase contents].
  - f_equal. rewrite map_map. apply map_ext_in. intros x Hx. now apply IH.
  - f_equal. rewrite map_map. apply map_ext_in. intros [[k km] x] Hx. cbn [fst snd]. f_equal. now apply (IH (k, km)).
Qed.
Lemma lines_some x : (0 <= sl x)%Z -> has_lines x = Some x.
Proof. intros H. unfold has_lines. destruct (Z.ltb_spec (sl x) 0); [lia | reflexivity]. Qed.
Definition step_mark (start : mark) (kv : (string * option mark) * pval) : (string * option mark) * mval :=
  let km := or_else (snd (fst kv)) start in ((fst (fst kv), has_lines km), convert km (snd kv)).
Lemma member_found start d k km x : NoDup (map (fun kv => fst (fst kv)) d) -> In ((k, km), x) d ->
  massoc k (map (step_mark start) d) = Some (convert (or_else km start) x) /\ keymark k (map (step_mark start) d) = has_lines (or_else km start).
Proof.
  induction d as [|[[k0 km0] y] d IH]; [intros _ [] | intros Hn [H|H]].
  - injection H as -> -> ->. cbn. rewrite String.eqb_refl. auto.
  - inversion Hn as [|a b Ha Hb]; subst. cbn. destruct (String.eqb_spec k k0) as [->|_]; [|now apply IH].
    exfalso. apply Ha. apply in_map_iff. exists (k0, km, x). auto.
Qed.
Lemma origin_some t p near r : origin t p near r -> near <> None -> r <> None.
Proof.
  induction 1 as [t near|m d k km x rest near r Hx _ IH|m l i x e rest near r Hx _ IH|m l i x near Hx]; intros Hn; auto.
  - apply IH. destruct km; [discriminate | exact Hn].
  - destruct (own_mark x); [discriminate | exact Hn].
Qed.
Lemma wf_contents_dict m d : wf (contents (PDict m d)) -> NoDup (map (fun kv => fst (fst kv)) d) /\ forall k km x, In ((k, km), x) d -> wf (contents x).
Proof.
  intros H. apply wf_dict in H as [H1 H2]. split.
  - now rewrite map_map in H1.
  - intros k km x Hx. apply (H2 k). apply in_map_iff. exists (k, km, x). auto.
Qed.
Lemma convert_location p : forall t start r, p <> [] -> wf (contents t) -> of_file t -> origin t p (has_lines start) r ->
  get_location (convert start t) p = Ok r \/ (get_location (convert start t) p = Ok None /\ r = has_lines start).
Proof.
  induction p as [|pe p IH]; [congruence|]. intros t start r _ Hw Hf Ho. destruct p as [|pe2 rest].
  - inversion Ho as [|m d k km x rest near r' Hx Hr|  |m l i x near Hx]; subst.
    + inversion Hr; subst. apply wf_contents_dict in Hw as [Hn _]. inversion Hf as [| | |m0 d0 _ Hf0]; subst. destruct (Hf0 _ _ _ Hx) as [Hy _].
      left. cbn [convert get_location scan_key]. fold (step_mark start). f_equal. destruct (member_found start d k km x Hn Hx) as [_ ->].
      destruct km as [y|]; [exact (lines_some y (Hy y eq_refl)) | reflexivity].
    + cbn [convert get_location]. rewrite nth_error_map, Hx. cbn [option_map]. apply nth_error_In in Hx.
      inversion Hf as [| |m0 l0 _ Hf0|]; subst. pose proof (Hf0 x Hx) as K. destruct x as [v|[y|] s|[y|] lx|[y|] dx]; cbn [convert loc_of own_mark or_else]; auto.
      * left. f_equal. inversion K; subst. apply lines_some. auto.
      * left. f_equal. inversion K; subst. apply lines_some. auto.
  - assert (Hnext : forall x start', wf (contents x) -> of_file x -> origin x (pe2 :: rest) (has_lines start') r ->
      get_location (convert start' x) (pe2 :: rest) = Ok r \/ (get_location (convert start' x) (pe2 :: rest) = Ok None /\ r = has_lines start')).
    { intros x start' A B C. apply IH; [discriminate | exact A | exact B | exact C]. }
    inversion Ho as [|m d k km x rest' near r' Hx Hr|m l i x e rest' near r' Hx Hr|]; subst.
    + apply wf_contents_dict in Hw as [Hn Hw]. inversion Hf as [| | |m0 d0 _ Hf0]; subst. destruct (Hf0 _ _ _ Hx) as [Hy Hfx].
      assert (E : match km with Some _ => km | None => has_lines start end = has_lines (or_else km start)).
      { destruct km as [y|]; [symmetry; exact (lines_some y (Hy y eq_refl)) | reflexivity]. }
      rewrite E in Hr. destruct (member_found start d k km x Hn Hx) as [M1 M2]. pose proof (Hnext x _ (Hw _ _ _ Hx) Hfx Hr) as K.
      left. change (convert start (PDict m d)) with (MDict (or_else m start) (map (step_mark start) d)).
      remember (pe2 :: rest) as p2 eqn:Ep. cbn [get_location]. rewrite Ep in *. cbn [mindex]. rewrite M1. cbn [scan_key]. rewrite M2.
      destruct K as [->|[-> ->]]; [|reflexivity]. destruct r as [y|]; [reflexivity|]. f_equal.
      destruct (has_lines (or_else km start)) as [y|] eqn:Ey; [|reflexivity]. exfalso. exact (origin_some _ _ _ _ Hr ltac:(discriminate) eq_refl).
    + pose proof (wf_list _ Hw) as Hl. inversion Hf as [| |m0 l0 _ Hf0|]; subst. pose proof (nth_error_In _ _ Hx) as Hi.
      assert (Wx : wf (contents x)) by (apply Hl; apply in_map; exact Hi).
      pose proof (Hnext x start Wx (Hf0 x Hi) Hr) as K.
      assert (E : get_location (convert start (PList m l)) (PIdx i :: pe2 :: rest) =
        match get_location (convert start x) (pe2 :: rest) with Ok (Some y) => Ok (Some y) | Ok None | Err EKey | Err ETypeErr => Ok None | Err e => Err e end).
      { change (convert start (PList m l)) with (MList (or_else m start) (map (convert start) l)). remember (pe2 :: rest) as p2 eqn:Ep. cbn [get_location]. rewrite Ep.
        cbn [mindex scan_key]. rewrite nth_error_map, Hx, scan_items_index. reflexivity. }
      rewrite E. destruct K as [->|[-> ->]]; [left; destruct r; reflexivity | right; auto].
Qed.
Lemma c98_location t p r : p <> [] -> wf (contents t) -> of_file t -> origin t p None r -> get_location (convert tuple_mark t) p = Ok r.
Proof. intros Hp Hw Hf Ho. destruct (convert_location p t tuple_mark r Hp Hw Hf Ho) as [H|[H ->]]; exact H. Qed.
Lemma c98_contents t start : erase (convert start t) = contents t.
Proof. apply convert_contents. Qed.

(** * Places *)
Lemma marked_det t pe b m m' : marked_in t pe b m -> marked_in t pe b m' -> m = m'.
Proof.
  intros H H'. assert (K : forall x, marked_in t pe b x -> marked_in t pe false x \/ exists m0 l i y, t = MList m0 l /\ pe = PIdx i /\ nth_error l i = Some y /\ loc_of y = Some x).
  { intros x Hx. inversion Hx; subst; [left; now constructor | left; now constructor | right; eauto 8]. }
  destruct (K _ H) as [A|(m0 & l & i & y & -> & -> & A & A2)], (K _ H') as [B|(m1 & l' & i' & y' & E & E' & B & B2)].
  - apply scan_key_spec in A, B. congruence.
  - subst. inversion A.
  - inversion B.
  - injection E as <- <-. injection E' as <-. congruence.
Qed.
Lemma position_det p : forall t n m m', position t p n m -> position t p n m' -> m = m'.
Proof.
  induction p as [|pe [|pe2 rest] IH]; intros t n m m' H H'.
  - destruct H as (b & e & a & c & E & _). now destruct b.
  - apply position_one in H as [_ H], H' as [_ H']. exact (marked_det _ _ _ _ _ H H').
  - apply position_cons in H as [[-> H]|(n1 & x & -> & S1 & H)], H' as [[E H']|(n2 & y & E & S2 & H')]; try discriminate E.
    + exact (marked_det _ _ _ _ _ H H').
    + injection E as <-. rewrite <- (step_det _ _ _ _ S1 S2) in H'. exact (IH _ _ _ _ H H').
Qed.
Lemma leads_convert before : forall t start c p near r, wf (contents t) -> origin t (before ++ p)%list near r -> p <> [] -> leads (convert start t) before c ->
  exists t' start' near', c = convert start' t' /\ origin t' p near' r.
Proof.
  induction before as [|pe b IH]; intros t start c p near r Hw Ho Hp Hl.
  - inversion Hl; subst. eauto.
  - apply leads_cons in Hl as (x & Hs & Hl). inversion Ho as [|m d k km y rest' near' r' Hx Hr|m l i y e rest' near' r' Hx Hr E|m l i y near' Hx E]; subst.
    + apply wf_contents_dict in Hw as [Hn Hw]. destruct (member_found start d k km y Hn Hx) as [M _].
      change (convert start (PDict m d)) with (MDict (or_else m start) (map (step_mark start) d)) in Hs. inversion Hs; subst. rewrite M in *. 
      match goal with E : Some _ = Some x |- _ => injection E as <- end. exact (IH _ _ _ _ _ _ (Hw _ _ _ Hx) Hr Hp Hl).
    + pose proof (wf_list _ Hw) as Hw'. change (convert start (PList m l)) with (MList (or_else m start) (map (convert start) l)) in Hs. inversion Hs; subst.
      match goal with E : nth_error (map _ _) _ = Some x |- _ => rewrite nth_error_map, Hx in E; injection E as <- end.
      match goal with E : _ :: _ = (_ ++ _)%list |- _ => rewrite E in Hr end. refine (IH _ _ _ _ _ _ _ Hr Hp Hl). apply Hw'. apply in_map. exact (nth_error_In _ _ Hx).
    + destruct b; [|discriminate]. destruct p; [congruence | discriminate].
Qed.
Lemma origin_indices t p near r start : wf (contents t) -> origin t p near r -> indices_ok (convert start t) p.
Proof.
  intros Hw Ho before i after c -> Hl. destruct (leads_convert before t start c (PIdx i :: after) near r Hw Ho ltac:(discriminate) Hl) as (t' & s' & n' & -> & H).
  inversion H; subst; cbn [convert]; rewrite map_length; apply nth_error_Some; congruence.
Qed.
Lemma c98_placed c t q r fi : c_tmpl c = convert tuple_mark t -> q <> [] -> wf (contents t) -> of_file t -> origin t q None r -> placed c q fi ->
  match r with
  | Some m => f_line fi = (sl m + 1)%Z /\ f_col fi = (sc m + 1)%Z /\ f_line_end fi = (el m + 1)%Z /\ f_col_end fi = (ec m + 1)%Z
  | None => f_line fi = 1%Z /\ f_col fi = 1%Z /\ f_line_end fi = 1%Z /\ f_col_end fi = 1%Z
  end.
Proof.
  intros Hc Hq Hw Hf Ho Hp. pose proof (get_location_located q (convert tuple_mark t) Hq (origin_indices _ _ _ _ _ Hw Ho)) as L.
  rewrite (c98_location t q r Hq Hw Hf Ho) in L. unfold placed in Hp. rewrite Hc in Hp. destruct r as [m|]; cbn [located] in L.
  - destruct L as (n & L1 & L2). destruct Hp as [(n' & m' & P1 & P2 & P3)|[P _]]; [|exfalso; exact (P _ _ L1)].
    assert (n' = n) as -> by (apply Nat.le_antisymm; [exact (L2 _ _ P1) | exact (P2 _ _ L1)]). now rewrite (position_det _ _ _ _ _ L1 P1).
  - destruct Hp as [(n' & m' & P1 & _)|[_ P]]; [exfalso; exact (L _ _ P1) | exact P].
Qed.

(** * Runs *)
Lemma translates_run translate exn_text c c' sp k rg man : translates translate c c' ->
  wants_transform (template c') = false ->
  run_checks sp (serverless_translator translate exn_text) k rg man c = run_checks sp (serverless_translator translate exn_text) k rg man c'.
Proof.
  intros [Hw (t & names & p & H1 & H2 & H3 & H4 & H5)] Hn. unfold run_checks. rewrite Hw, Hn. unfold serverless_translator at 1. rewrite H1, H2.
  destruct c' as [f r t']. cbn [c_file c_region c_tmpl] in *. subst. reflexivity.
Qed.
Lemma fails_run translate exn_text c texts sp k rg man : translation_fails translate exn_text c texts -> (forall r, In r rg -> In r REGIONS) ->
  snd (run_checks sp (serverless_translator translate exn_text) k rg man c) =
  Findings (if is_rule_enabled (k_set k) "E0001" false then map (transform_finding (c_file c)) texts else []).
Proof.
  intros [Hw H] Hr. unfold run_checks. assert (E : forallb (fun r => smem r REGIONS) rg = true).
  { apply forallb_forall. intros r H0. now apply smem_iff, Hr. }
  rewrite E, Hw. cbn [negb]. unfold serverless_translator.
  destruct H as [(e & -> & ->)|(t & names & -> & [(m & others & -> & ->)|(text & -> & ->)])]; reflexivity.
Qed.
Lemma translated_lints w sp translate exn_text k rg man c c' ds id l : translates translate c c' -> with_shipped w (k_all k) -> spec_ok sp -> e0002_selected (k_set k) ->
  selected id false (s_experimental (k_set k)) (s_ignore (k_set k)) (s_include (k_set k)) (s_mandatory (k_set k)) ->
  seen_as_is w c' id -> (exists m d, c_tmpl c' = MDict m d) -> get_directives (c_tmpl c') = Ok ds ->
  snd (run_checks sp (serverless_translator translate exn_text) k rg man c) = Findings l ->
  lints w sp (serverless_translator translate exn_text) k rg man c' ds id l.
Proof.
  intros Ht H1 H2 H3 H4 H5 H6 H7 H8. rewrite (translates_run translate exn_text c c' sp k rg man Ht (proj1 H5)) in H8. repeat (split; [assumption|]). exact H8.
Qed.
(** * Deciding *)
Definition lineb (m : option mark) : bool := match m with Some x => Z.leb 0 (sl x) | None => true end.
Fixpoint of_fileb (t : pval) : bool :=
  match t with
  | PScalar _ => true
  | PStr m _ => lineb m
  | PList m l => lineb m && forallb of_fileb l
  | PDict m d => lineb m && forallb (fun kv => lineb (snd (fst kv)) && of_fileb (snd kv)) d
  end.
Lemma lineb_sound m : lineb m = true -> forall x, m = Some x -> (0 <= sl x)%Z.
Proof. intros H x ->. now apply Z.leb_le. Qed.
Lemma of_fileb_sound t : of_fileb t = true -> of_file t.
Proof.
  induction t as [v|m s|m l IH|m d IH] using pval_rect'; cbn [of_fileb]; intros H.
  - constructor.
  - constructor. now apply lineb_sound.
  - apply andb_prop in H as [H1 H2]. constructor; [now apply lineb_sound|]. rewrite forallb_forall in H2. auto.
  - apply andb_prop in H as [H1 H2]. rewrite forallb_forall in H2. constructor; [now apply lineb_sound|]. intros k km x Hx.
    specialize (H2 _ Hx). apply andb_prop in H2 as [A B]. split; [exact (lineb_sound _ A) | exact (IH _ _ Hx B)].
Qed.
