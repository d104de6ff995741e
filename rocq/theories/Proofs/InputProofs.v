(** Which rules each input of a run can influence (C113). *)
From Coq Require Import List String ZArith Bool Permutation.
From Verif.Model Require Import Base Node Locate Helpers Rules Runner Config Core Standard.
From Verif.Spec Require Import Pipeline Inputs.
From Verif.Proofs Require Import BaseFacts PipelineProofs RunProofs ReportProofs RuleSetMain StandardProofs InputRules.
Import Verif.Model.Rules.
Import ListNotations.
Local Open Scope string_scope.

(** Configuring keeps rules counterparts. *)
Lemma register_counterpart str ids s r r' : counterpart ids r r' ->
  (exists e, register_effect str s r = Err e /\ register_effect str s r' = Err e) \/ exists q q', register_effect str s r = Ok q /\ register_effect str s r' = Ok q' /\ counterpart ids q q'.
Proof.
  intros [<- | (I & E1 & E2 & E3 & E4)].
  - destruct (register_effect str s r) as [q|e]; [right; exists q, q; repeat split; now left | left; eauto].
  - assert (C : counterpart ids r r') by (right; auto).
    unfold register_effect, enabled. rewrite <- E1, <- E2. destruct (is_rule_enabled s (r_id r) (r_experimental r)); [|right; exists r, r'; auto].
    destruct (assoc (r_id r) (s_configure s)) as [cs|]; [|right; exists r, r'; auto].
    unfold rule_configure, config_defaults. rewrite <- E3, <- E4.
    assert (Q : forall x, counterpart ids (set_config r x) (set_config r' x)) by (intros x; right; cbn; auto).
    destruct cs; try (right; eexists; eexists; split; [reflexivity|]; split; [reflexivity | apply Q]).
    destruct (config_apply str (r_definition r) d _) as [x|e]; cbn [bind]; [right; eexists; eexists; split; [reflexivity|]; split; [reflexivity | apply Q] | left; eauto].
Qed.
Lemma extend_counterpart str ids rs rs' : Forall2 (counterpart ids) rs rs' -> forall k k', k_set k = k_set k' -> Forall2 (counterpart ids) (k_all k) (k_all k') ->
  forall q q', coll_extend str k rs = Ok q -> coll_extend str k' rs' = Ok q' -> k_set q = k_set q' /\ Forall2 (counterpart ids) (k_all q) (k_all q').
Proof.
  induction 1 as [|r r' rs rs' C F IH]; intros k k' S A q q'; cbn [coll_extend]; [intros E E'; injection E as <-; injection E' as <-; auto|].
  unfold coll_register. rewrite <- S. destruct (register_counterpart str ids (k_set k) r r' C) as [(e & E & E') | (x & x' & E & E' & C')]; rewrite E, E'; cbn [bind]; [discriminate|].
  apply IH; cbn [k_set k_all]; [reflexivity|]. apply Forall2_app; auto.
Qed.

Section Inputs.
Variables (ids : list string) (sp : spec) (k k' : collection) (c : cfn).
Hypothesis (Set_ : k_set k = k_set k') (Rs : Forall2 (counterpart ids) (k_all k) (k_all k')) (Sp : spec_ok sp) (On : e0002_on (k_set k)).

Definition within (l l' : list finding) : Prop := forall fi, In fi l -> ~ concerns ids fi -> In fi l'.
Definition mostly (a b : res (list finding)) : Prop := exists l l', a = Ok l /\ b = Ok l' /\ within l l' /\ within l' l.
Lemma mostly_same l : mostly (Ok l) (Ok l).
Proof using. exists l, l. repeat split; intros fi I _; exact I. Qed.
Lemma mostly_app a a' b b' : mostly a a' -> mostly b b' -> mostly (do x <- a; do y <- b; Ok (x ++ y)%list) (do x <- a'; do y <- b'; Ok (x ++ y)%list).
Proof using.
  intros (l & l' & -> & -> & H1 & H2) (m & m' & -> & -> & H3 & H4). cbn [bind]. eexists. eexists. split; [reflexivity|]. split; [reflexivity|].
  split; intros fi I N; apply in_app_iff; apply in_app_iff in I as [I|I]; [left; apply H1 | right; apply H3 | left; apply H2 | right; apply H4]; assumption.
Qed.
(** What a check of a rule that reads the input says concerns that rule. *)
Lemma own_findings id ms fi x : In id ids -> run_check (k_set k) (c_file c) id (do m <- ms; map_res (locate_match c id) m) = Ok x -> In fi x -> concerns ids fi.
Proof using.
  intros I E Hf. destruct (do m <- ms; map_res (locate_match c id) m) as [l|e] eqn:D.
  - injection E as <-. left. destruct ms as [ms|]; [|discriminate D]. cbn [bind] in D. clear -I D Hf. revert l D Hf.
    induction ms as [|m ms IH]; intros l D Hf; cbn [map_res] in D; [injection D as <-; destruct Hf|].
    destruct (locate_match c id m) as [y|] eqn:L; [|discriminate D]. cbn [bind] in D. destruct (map_res (locate_match c id) ms) as [ys|]; [|discriminate D]. cbn [bind] in D. injection D as <-.
    destruct Hf as [<-|Hf]; [|exact (IH ys eq_refl Hf)]. unfold locate_match in L. destruct (get_location _ _) as [[z|]|]; inversion L; subst; exact I.
  - right. assert (K : x = [] \/ x = [crash_finding (c_file c) id e]).
    { cbn [run_check] in E. destruct e; try (destruct (is_rule_enabled (k_set k) "E0002" false); [injection E as <-; auto | discriminate E]). injection E as <-. auto. }
    destruct K as [-> | ->]; [destruct Hf | destruct Hf as [<-|[]]]. exists id, (exn_str e). auto.
Qed.
Definition says (a b : res (list finding)) (id : string) : Prop :=
  a = b \/ In id ids /\ (forall fi l, run_check (k_set k) (c_file c) id a = Ok l -> In fi l -> concerns ids fi) /\ (forall fi l, run_check (k_set k) (c_file c) id b = Ok l -> In fi l -> concerns ids fi).
Lemma says_mostly a b id : says a b id -> mostly (run_check (k_set k) (c_file c) id a) (run_check (k_set k) (c_file c) id b).
Proof using On.
  intros [<- | (I & A & B)]; destruct (run_check_total (k_set k) (c_file c) id a On) as [l E]; rewrite E; [apply mostly_same|].
  destruct (run_check_total (k_set k) (c_file c) id b On) as [l' E']; rewrite E'. exists l, l'. split; [reflexivity|]. split; [reflexivity|].
  split; intros fi Hf N; destruct N; [exact (A fi l E Hf) | exact (B fi l' E' Hf)].
Qed.
Let k1 := initialize_all k c.
Let k2 := initialize_all k' c.
Lemma prepared_counterparts : Forall2 (counterpart ids) (rules k1) (rules k2).
Proof using Set_ Rs.
  unfold rules, k1, k2, initialize_all. cbn [k_set k_all]. rewrite <- Set_. clear -Rs. revert Rs. generalize (k_all k) (k_all k'). intros rs rs' F.
  induction F as [|r r' rs rs' C F IH]; [constructor|]. cbn [map].
  assert (C' : counterpart ids (if enabled (k_set k) r then add_types r (fst (r_init r c)) (snd (r_init r c)) else r) (if enabled (k_set k) r' then add_types r' (fst (r_init r' c)) (snd (r_init r' c)) else r')).
  { destruct C as [<- | (I & E1 & E2 & E3 & E4)]; [now left|]. right. destruct (enabled (k_set k) r), (enabled (k_set k) r'); cbn; auto. }
  revert C'. generalize (if enabled (k_set k) r then add_types r (fst (r_init r c)) (snd (r_init r c)) else r) (if enabled (k_set k) r' then add_types r' (fst (r_init r' c)) (snd (r_init r' c)) else r'). intros x x' C'.
  cbn [filter]. assert (E : enabled (k_set k) x = enabled (k_set k) x') by (destruct C' as [<- | (_ & E1 & E2 & _)]; [reflexivity | unfold enabled; congruence]). rewrite <- E.
  destruct (enabled (k_set k) x); [constructor; assumption | exact IH].
Qed.
Lemma checks_mostly (f g : rule -> res (list finding)) rs rs' : Forall2 (counterpart ids) rs rs' -> (forall r r', counterpart ids r r' -> mostly (f r) (g r')) -> mostly (concat_res f rs) (concat_res g rs').
Proof using.
  intros F H. induction F as [|r r' rs rs' C F IH]; [apply mostly_same|]. cbn [concat_res]. apply mostly_app; [apply H; exact C | exact IH].
Qed.
Lemma silent id fi l : run_check (k_set k) (c_file c) id (Ok []) = Ok l -> In fi l -> concerns ids fi.
Proof using. intros E. injection E as <-. intros []. Qed.
Lemma whole_says r r' : counterpart ids r r' -> says (matchall r c) (matchall r' c) (r_id r).
Proof using.
  intros [<- | (I & E & _)]; [now left|]. right. split; [exact I|]. unfold matchall. rewrite <- E.
  split; intros fi l; [destruct (r_match r) | destruct (r_match r')]; first [apply silent | apply own_findings; exact I].
Qed.
Lemma props_says r r' props rt p : counterpart ids r r' -> says (matchall_props r c props rt p) (matchall_props r' c props rt p) (r_id r).
Proof using.
  intros [<- | (I & E & _)]; [now left|]. right. split; [exact I|]. unfold matchall_props. rewrite <- E.
  split; intros fi l; [destruct (r_match_props r) | destruct (r_match_props r')]; try (destruct (negb _)); first [apply silent | apply own_findings; exact I].
Qed.
Lemma subs_says r r' props rt p : counterpart ids r r' -> says (matchall_subs r c props rt p) (matchall_subs r' c props rt p) (r_id r).
Proof using.
  intros [<- | (I & E & _)]; [now left|]. right. split; [exact I|]. unfold matchall_subs. rewrite <- E.
  split; intros fi l; [destruct (r_match_subs r) | destruct (r_match_subs r')]; try (destruct (negb _)); first [apply silent | apply own_findings; exact I].
Qed.
Lemma ids_same r r' : counterpart ids r r' -> r_id r = r_id r'.
Proof using. intros [<- | (_ & E & _)]; auto. Qed.
Lemma body_mostly : mostly (run_body sp k1 c) (run_body sp k2 c).
Proof using Set_ Rs Sp On.
  assert (S : k_set k2 = k_set k) by (symmetry; exact Set_). change (k_set k) with (k_set k1) in S.
  apply (run_body_rel mostly).
  - exact (mostly_same []).
  - exact mostly_app.
  - intros props name p. unfold sub_checks. rewrite S. apply checks_mostly; [exact prepared_counterparts|]. intros r r' C. rewrite <- (ids_same r r' C).
    pose proof (says_mostly _ _ _ (subs_says r r' props name p C)) as K. destruct props as [| | | | | |[|[key v] [|]]]; try exact K. destruct (String.eqb key "Fn::If"); [apply mostly_same | exact K].
  - intros rt ts H. left. exact (spec_ok_assoc sp Sp rt ts H).
  - intros props rt p. rewrite S. apply checks_mostly; [exact prepared_counterparts|]. intros r r' C. rewrite <- (ids_same r r' C). apply says_mostly, props_says, C.
  - rewrite S. apply checks_mostly; [exact prepared_counterparts|]. intros r r' C. rewrite <- (ids_same r r' C). apply says_mostly, whole_says, C.
  - reflexivity.
Qed.
Lemma reports_mostly man : else_in ids (reports sp k man c) (reports sp k' man c) /\ else_in ids (reports sp k' man c) (reports sp k man c).
Proof using Set_ Rs Sp On.
  rewrite !reports_body. destruct body_mostly as (l & l' & E & E' & W & W'). unfold k1, k2 in E, E'. rewrite E, E'. destruct (get_directives (c_tmpl c)) as [ds|]; [|split; intros fi []].
  assert (G : forall l l', within l l' -> else_in ids (sort_findings (filter_matches man ds l [])) (sort_findings (filter_matches man ds l' []))).
  { clear. intros l l' W fi H N. apply (Permutation_in _ (sort_perm _)) in H. apply report_sound in H as [H S].
    destruct (report_complete man ds l' fi (W fi H N) S) as (u & Hu & Su). exists u. split; [|exact Su]. apply (Permutation_in _ (Permutation_sym (sort_perm _))). exact Hu. }
  split; apply G; assumption.
Qed.
End Inputs.

Lemma else_in_same ids l : else_in ids l l.
Proof. intros fi I _. exists fi. split; [exact I | repeat split]. Qed.
Lemma input_reports str ids w w' sp tr ig inc cs ex man0 rg man c k k' l l' : input ids w w' -> spec_ok sp ->
  coll_new str (shipped w) ig inc cs ex man0 = Ok k -> coll_new str (shipped w') ig inc cs ex man0 = Ok k' -> e0002_selected (k_set k) ->
  snd (run_checks sp tr k rg man c) = Findings l -> snd (run_checks sp tr k' rg man c) = Findings l' -> else_in ids l l' /\ else_in ids l' l.
Proof.
  intros H Sp K K' On R R'. unfold coll_new in K, K'.
  match type of K with coll_extend _ ?k0 _ = _ => destruct (extend_counterpart str ids _ _ (input_rules ids w w' H) k0 k0 eq_refl (Forall2_nil (counterpart ids)) _ _ K K') as [S A] end.
  apply e0002_iff in On.
  destruct (run_checks_cases sp tr k rg man c) as [[Q _]|[(G1 & G2 & G3 & Q)|(G1 & G2 & Q)]]; [congruence | |];
    destruct (run_checks_cases sp tr k' rg man c) as [[Q' _]|[(G1' & G2' & G3' & Q')|(G1' & G2' & Q')]]; try congruence.
  - rewrite R in Q. rewrite R', <- S in Q'. rewrite <- Q in Q'. injection Q' as <-. split; apply else_in_same.
  - specialize (G2' G2). contradiction.
  - specialize (G2 G2'). contradiction.
  - rewrite R in Q. rewrite R' in Q'. injection Q as ->. injection Q' as ->. apply reports_mostly; assumption.
Qed.
