(** Runs of rules of which the places of the findings are known, and of rules that fail (C96). *)
From Coq Require Import Lia ZArith Permutation.
From Verif.Model Require Import Base Node Locate Helpers Rules Runner Config Core Search Refs ConditionRules Standard.
From Verif.Spec Require Import Pipeline Paths RuleSets ConditionUse FunctionArguments Shipped ShippedPlaces.
From Verif.Proofs Require Import BaseFacts PipelineProofs RunProofs ReportProofs GroupProofs SearchProofs PropertyRuleProofs ActionMain RuleSetProofs RuleSetMain RuleSetLint
  ConditionUseProofs Places StandardProofs StandardRules.
Local Open Scope string_scope.

(** * Findings *)
Lemma tells_paths w sp tr k rg man c ds l id f ms (P : path -> Prop) :
  lints w sp tr k rg man c ds id l -> checks_by w c id f -> f = Ok ms ->
  (forall q, In q (map rm_path ms) <-> P q) -> (forall q, P q -> q <> [] /\ indices_ok (c_tmpl c) q) ->
  tells_places c man ds l id P.
Proof.
  intros Hl Hc E H Hq. destruct (tells_by w sp tr k rg man c ds l id f ms Hl Hc E) as [A B].
  { intros m Hm. apply Hq, H. now apply in_map. }
  split.
  - intros fi Hi Hr. destruct (A fi Hi Hr) as [N (q & words & Hm & F)]. split; [exact N|]. exists q, words. split; [|exact F].
    apply H. apply in_map_iff. exists (mkRM q words). auto.
  - intros q Hp. apply H in Hp. apply in_map_iff in Hp as [[q' words] [<- Hm]]. destruct (B _ _ Hm) as [fi [F T]]. exists words, fi. auto.
Qed.
Lemma tells_faults {A} w sp tr k rg man c ds l id f ms (fault : A -> Prop) (shown : A -> path -> string -> Prop) :
  lints w sp tr k rg man c ds id l -> checks_by w c id f -> f = Ok ms ->
  (forall m, In m ms -> exists a, fault a /\ shown a (rm_path m) (rm_msg m)) ->
  (forall a, fault a -> exists m, In m ms /\ shown a (rm_path m) (rm_msg m)) ->
  (forall m, In m ms -> rm_path m <> [] /\ indices_ok (c_tmpl c) (rm_path m)) ->
  tells_each c man ds l id fault shown.
Proof.
  intros Hl Hc E H1 H2 Hq. destruct (tells_by w sp tr k rg man c ds l id f ms Hl Hc E Hq) as [A1 B1]. split.
  - intros fi Hi Hr. destruct (A1 fi Hi Hr) as [N (q & words & Hm & F)]. split; [exact N|]. destruct (H1 _ Hm) as [a [Ha S]]. exists a, q, words. auto.
  - intros a Ha. destruct (H2 a Ha) as [[q words] [Hm S]]. destruct (B1 _ _ Hm) as [fi [F T]]. exists q, words, fi. auto.
Qed.

(** * Crashes *)
Lemma lints_raw w sp tr k rg man c ds id l : lints w sp tr k rg man c ds id l ->
  exists raw, run_body sp (initialize_all k c) c = Ok raw /\ l = sort_findings (filter_matches man ds raw []).
Proof.
  intros (Hw & Hsp & He & Hsel & (Hnt & _) & Hdict & Hds & Hrun).
  destruct (run_checks_cases sp tr k rg man c) as [[K _]|[(_ & K & _)|(_ & _ & K)]]; [congruence | congruence |].
  rewrite Hnt, Hrun in K. injection K as ->. rewrite reports_body.
  assert (He0 : e0002_on (k_set (initialize_all k c))) by (apply is_enabled_spec; exact He).
  destruct (run_body_total sp (initialize_all k c) c Hsp He0) as [raw Eraw]. rewrite Eraw, Hds. eauto.
Qed.
Lemma raw_told man ds raw fi : In fi raw -> heard man ds (sort_findings (filter_matches man ds raw [])) fi.
Proof.
  intros H. destruct (suppressed_dec man ds fi) as [S|S]; [now left | right]. destruct (report_complete man ds raw fi H S) as [u [Hu Su]].
  exists u. split; [|exact Su]. apply (Permutation_in _ (Permutation_sym (sort_perm _))). exact Hu.
Qed.
Lemma crash_by w sp tr k rg man c ds l id f e :
  lints w sp tr k rg man c ds id l -> checks_by w c id f ->
  bind f (map_res (locate_match c id)) = Err e -> e <> ETemplateAttribute -> tells_crash c man ds l id.
Proof.
  intros Hl (Hid & r0 & g & Hr & Hex & Hm & Hp & Hs & Hg) E Hne. apply rule_by_id_in in Hr as [Hin Er].
  destruct (lints_raw _ _ _ _ _ _ _ _ _ _ Hl) as [raw [Eraw ->]].
  destruct Hl as (Hw & _ & _ & Hsel & _). destruct (proj1 Hw r0 Hin) as [r [Hr Hc]]. destruct Hc as (Ei & Ex & _ & _ & Em & _).
  assert (Hi : In (prepare c r) (rules (initialize_all k c))).
  { apply init_In. exists r. split; [|reflexivity]. apply filter_In. split; [exact Hr|]. unfold enabled. rewrite Ei, Ex, Er, Hex. apply is_enabled_spec. exact Hsel. }
  destruct (match_reported _ _ _ _ _ Eraw Hi) as [_ K].
  assert (Ea : matchall (prepare c r) c = Err e).
  { unfold matchall. cbn [prepare add_types r_match r_config r_id]. rewrite Em, Hm, Hg, Ei, Er. exact E. }
  specialize (K e Ea Hne). cbn [prepare add_types r_id] in K. rewrite Ei, Er in K.
  exists (exn_str e), (crash_finding (c_file c) id e). unfold crash_finding. cbn [f_rule f_file f_msg f_line f_col f_line_end f_col_end].
  repeat (split; [reflexivity|]). apply raw_told. exact K.
Qed.
Definition safe {A} (r : res A) : Prop := r <> Err ETemplateAttribute.
Lemma crash_err w sp tr k rg man c ds l id f :
  lints w sp tr k rg man c ds id l -> checks_by w c id f -> safe f -> (forall ms, f <> Ok ms) -> tells_crash c man ds l id.
Proof.
  intros Hl Hc Hs Hn. destruct f as [ms|e] eqn:E; [exfalso; exact (Hn ms eq_refl)|].
  apply (crash_by w sp tr k rg man c ds l id (Err e) e Hl Hc); [reflexivity|]. intros ->. now apply Hs.
Qed.
Lemma location_err p : forall t e, get_location t p = Err e -> e = EIndex \/ e = EKey \/ e = ETypeErr.
Proof.
  assert (S : forall t x e, scan_key t x = Err e -> e = EIndex \/ e = EKey \/ e = ETypeErr) by (intros [v|m s|m l|m d] x e H; try discriminate; injection H as <-; auto).
  assert (M : forall t x e, mindex t x = Err e -> e = EIndex \/ e = EKey \/ e = ETypeErr).
  { intros [v|m s|m l|m d] x e H; destruct x as [key|i]; cbn in H; repeat match type of H with match ?y with _ => _ end = _ => destruct y end; try discriminate; injection H as <-; auto. }
  induction p as [|x p IH]; intros t e H; [injection H as <-; auto|]. destruct p as [|y p].
  - cbn [get_location] in H. destruct t as [v|m s|m l|m d]; [destruct v; try (injection H as <-; auto); try discriminate | | destruct x as [key|i]; [|destruct (nth_error l i); [discriminate | injection H as <-; auto]] |];
      try (apply (S _ _ _ H)).
  - change (get_location t (x :: y :: p)) with (match (match mindex t x with Ok sub => get_location sub (y :: p) | Err e => Err e end) with
      | Ok (Some m) => Ok (Some m) | Ok None | Err EKey | Err ETypeErr => match t with MScalar (VStr _) => Ok None | _ => scan_key t x end | Err e => Err e end) in H.
    assert (K : match t with MScalar (VStr _) => Ok None | _ => scan_key t x end = Err e -> e = EIndex \/ e = EKey \/ e = ETypeErr).
    { intros Q. destruct t as [v|m s|m l|m d]; [destruct v; try discriminate; try (apply (S _ _ _ Q))| | |]; apply (S _ _ _ Q). }
    destruct (mindex t x) as [sub|e'] eqn:Em.
    + destruct (get_location sub (y :: p)) as [[m|]|e'] eqn:El; [discriminate | apply K; exact H|].
      destruct (IH sub e' El) as [->|[->| ->]]; [injection H as <-; auto | apply K; exact H | apply K; exact H].
    + destruct (M _ _ _ Em) as [->|[->| ->]]; [injection H as <-; auto | apply K; exact H | apply K; exact H].
Qed.

Lemma location_beyond p : forall t m l i, leads t p (MList m l) -> List.length l <= i -> get_location t (p ++ [PIdx i])%list = Err EIndex.
Proof.
  induction p as [|x p IH]; intros t m l i H Hi.
  - inversion H; subst. cbn [app get_location]. rewrite (proj2 (nth_error_None l i) Hi). reflexivity.
  - apply leads_cons in H as [y [Hs H]]. specialize (IH y m l i H Hi).
    assert (E : mindex t x = Ok y) by (inversion Hs as [? ? ? ? K|? ? ? ? K]; subst; cbn [mindex]; now rewrite K).
    change ((x :: p) ++ [PIdx i])%list with (x :: (p ++ [PIdx i]))%list. destruct (p ++ [PIdx i])%list as [|z q] eqn:Eq; [destruct p; discriminate|].
    change (get_location t (x :: z :: q)) with (match (match mindex t x with Ok sub => get_location sub (z :: q) | Err e => Err e end) with
      | Ok (Some m) => Ok (Some m) | Ok None | Err EKey | Err ETypeErr => match t with MScalar (VStr _) => Ok None | _ => scan_key t x end | Err e => Err e end).
    rewrite E, IH. reflexivity.
Qed.
Lemma locate_err c id m e : locate_match c id m = Err e -> e <> ETemplateAttribute.
Proof.
  unfold locate_match. destruct (get_location (c_tmpl c) (rm_path m)) as [[x|]|e'] eqn:E; try discriminate. intros [= ->].
  destruct (location_err _ _ _ E) as [->|[->| ->]]; discriminate.
Qed.
Lemma locate_all_err c id ms e : map_res (locate_match c id) ms = Err e -> e <> ETemplateAttribute.
Proof.
  induction ms as [|m ms IH]; [discriminate|]. cbn [map_res]. destruct (locate_match c id m) as [y|e'] eqn:E; cbn [bind].
  - destruct (map_res (locate_match c id) ms) as [ys|e']; cbn [bind]; [discriminate|]. intros [= ->]. now apply IH.
  - intros [= <-]. exact (locate_err _ _ _ _ E).
Qed.
Lemma crash_place w sp tr k rg man c ds l id f ms m :
  lints w sp tr k rg man c ds id l -> checks_by w c id f -> f = Ok ms -> In m ms -> get_location (c_tmpl c) (rm_path m) = Err EIndex -> tells_crash c man ds l id.
Proof.
  intros Hl Hc E Hm Hg. destruct (map_res (locate_match c id) ms) as [ys|e] eqn:Es.
  - exfalso. apply map_res_inv in Es. clear E. induction Es as [|x y xs ys' H _ IH]; [destruct Hm|]. destruct Hm as [->|Hm]; [|auto].
    unfold locate_match in H. rewrite Hg in H. discriminate H.
  - apply (crash_by w sp tr k rg man c ds l id f e Hl Hc); [rewrite E; exact Es | exact (locate_all_err _ _ _ _ Es)].
Qed.
Lemma crash_or w sp tr k rg man c ds l id f (X : Prop) :
  lints w sp tr k rg man c ds id l -> checks_by w c id f -> safe f -> (forall ms, f = Ok ms -> X) -> tells_crash c man ds l id \/ X.
Proof.
  intros Hl Hc Hs H. destruct f as [ms|e] eqn:E; [right; exact (H ms eq_refl)|]. left. apply (crash_err w sp tr k rg man c ds l id (Err e)); auto. discriminate.
Qed.

(** * Rules that raise no TemplateAttributeError *)
Lemma safe_ok {A} (x : A) : safe (Ok x).
Proof. discriminate. Qed.
Lemma safe_bind {A B} (r : res A) (f : A -> res B) : safe r -> (forall x, r = Ok x -> safe (f x)) -> safe (bind r f).
Proof. intros Hr Hf. destruct r as [x|e]; cbn [bind]; [now apply Hf | intros [= ->]; now apply Hr]. Qed.
Lemma safe_concat {A B} (f : A -> res (list B)) l : (forall x, In x l -> safe (f x)) -> safe (concat_res f l).
Proof.
  induction l as [|x l IH]; intros H; [discriminate|]. cbn [concat_res]. apply safe_bind; [apply H; now left|]. intros y _.
  apply safe_bind; [apply IH; intros z Hz; apply H; now right | intros; discriminate].
Qed.
Lemma safe_map {A B} (f : A -> res B) l : (forall x, In x l -> safe (f x)) -> safe (map_res f l).
Proof.
  induction l as [|x l IH]; intros H; [discriminate|]. cbn [map_res]. apply safe_bind; [apply H; now left|]. intros y _.
  apply safe_bind; [apply IH; intros z Hz; apply H; now right | intros; discriminate].
Qed.

(** * Places *)
Lemma leads_erase p : forall t x, leads t p x -> at_path p (erase t) = Some (erase x).
Proof.
  induction p as [|e p IH]; intros t x H; [inversion H; reflexivity|]. apply leads_cons in H as [y [Hs H]].
  inversion Hs as [m d kk z K|m l i z K]; subst; cbn [erase at_path].
  - rewrite massoc_erase, K. exact (IH _ _ H).
  - rewrite nth_error_map, K. exact (IH _ _ H).
Qed.
Definition keys_only (r : path) : Prop := forall el_, In el_ r -> exists k, el_ = PKey k.
Definition fine_rest (v : val) (r : path) : Prop :=
  match r with
  | PIdx i :: r' => (exists l, v = VList l /\ i < List.length l /\ keys_only r') \/ (exists s, v = VStr s /\ r' = [])
  | _ => keys_only r
  end.
Lemma fine_indices t r : fine_rest (erase t) r -> indices_ok t r.
Proof.
  intros H. destruct r as [|[k|i] r]; [apply keys_indices; exact H | apply keys_indices; exact H |].
  intros before j after x E L. destruct before as [|b before].
  - injection E as <- <-. inversion L; subst. destruct H as [[l [El [Hi _]]]|[s [Es ->]]].
    + destruct x as [v|m s|m l'|m d]; cbn [erase] in El; [subst v; exact I | discriminate | injection El as <-; now rewrite map_length in Hi | exact I].
    + destruct x as [v|m s'|m l'|m d]; cbn [erase] in Es; [subst v; reflexivity | reflexivity | discriminate | exact I].
  - injection E as <- E. destruct H as [[l [_ [_ Hk]]]|[s [_ ->]]]; [|destruct before; discriminate].
    destruct (Hk (PIdx j)) as [k [=]]. rewrite E. apply in_or_app. right. now left.
Qed.
Lemma fault_fine c f p v r : occurs f (template c) (VDict []) p v -> fine_rest v r ->
  (p ++ PKey f :: r)%list <> [] /\ indices_ok (c_tmpl c) (p ++ PKey f :: r)%list.
Proof.
  intros H Hr. split; [now destruct p|]. apply occurs_here in H.
  replace (p ++ PKey f :: r)%list with ((p ++ [PKey f]) ++ r)%list by (rewrite <- app_assoc; reflexivity).
  apply (indices_after _ _ _ v H). intros t' <-. now apply fine_indices.
Qed.
Lemma judged_places f t fault ms q : judged f t (VDict []) fault ms -> (In q (map rm_path ms) <-> faults_at f t fault q).
Proof.
  intros (out & E & Ho & Hr). rewrite E, in_concat. split.
  - intros [x [Hx Hq]]. apply in_map_iff in Hx as [[[p v] rs] [<- Hi]]. apply in_map_iff in Hq as [r [<- Hr']]. cbn [fst snd] in *.
    exists p, v, r. split; [apply Ho; eauto|]. split; [now apply (Hr p v rs Hi) | reflexivity].
  - intros (p & v & r & Hp & Hf & ->). apply Ho in Hp as [rs Hi]. exists (map (fun r => p ++ PKey f :: r)%list rs). split.
    + apply in_map_iff. exists (p, v, rs). auto.
    + apply (in_map (fun r => p ++ PKey f :: r)%list). now apply (Hr p v rs Hi).
Qed.
Lemma tells_judged w sp tr k rg man c ds l id f fn fault ms :
  lints w sp tr k rg man c ds id l -> checks_by w c id f -> f = Ok ms -> judged fn (template c) (VDict []) fault ms ->
  (forall p v r, occurs fn (template c) (VDict []) p v -> fault p v r -> fine_rest v r) ->
  tells_places c man ds l id (faults_at fn (template c) fault).
Proof.
  intros Hl Hc E Hj Hf. apply (tells_paths w sp tr k rg man c ds l id f ms _ Hl Hc E).
  - intros q. now apply judged_places.
  - intros q (p & v & r & Hp & Hr & ->). apply (fault_fine c fn p v r Hp). now apply (Hf p v r Hp).
Qed.
