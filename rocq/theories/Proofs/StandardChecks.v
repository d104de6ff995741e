(** What a shipped rule tells in a run, whichever kind of checks it has (C94, C95). *)
From Coq Require Import Lia Permutation.
From Verif.Model Require Import Base Node Locate Helpers Rules Runner Config Core Standard.
From Verif.Spec Require Import Pipeline Paths Branches Walk Shipped.
From Verif.Proofs Require Import BaseFacts PipelineProofs RunProofs ReportProofs WalkProofs WalkSound GroupProofs RuleSetProofs RuleSetMain RuleSetLint SearchProofs StandardProofs.
Local Open Scope string_scope.

(** The types a shipped rule asks for do not depend on the template. *)
Lemma shipped_init w c c' : forall r, In r (shipped w) -> r_init r c = r_init r c'.
Proof.
  assert (E : map (fun r => r_init r c) (shipped w) = map (fun r => r_init r c') (shipped w)) by (vm_compute; reflexivity).
  intros r H. induction (shipped w) as [|a l IH]; [destruct H|]. cbn [map] in E. injection E as E1 E2. destruct H as [<-|H]; auto.
Qed.

Section Raised.
Variables (w : world) (sp : spec) (k : collection) (c : cfn) (r0 : rule).
Hypothesis (Hw : with_shipped w (k_all k)) (Hr0 : In r0 (shipped w)) (Hid : r_id r0 <> "E0002") (Hfree : unconfigured r0).

Lemma types_of r t : same_checks r0 r -> In t (r_types (prepare c r)) <-> types_seen r0 c t.
Proof using Hr0.
  intros (_ & _ & _ & Hi & _ & _ & _ & H1 & _ & H2 & _). unfold types_seen. cbn [prepare add_types r_types]. rewrite !in_app_iff, Hi. split.
  - intros [H|H]; [|now right]. apply H2 in H as [H|[c' H]]; [now left | right]. now rewrite (shipped_init w c c' r0 Hr0).
  - intros [H|H]; [left; now apply H1 | now right].
Qed.
Lemma subtypes_of r t : same_checks r0 r -> In t (r_subtypes (prepare c r)) <-> subtypes_seen r0 c t.
Proof using Hr0.
  intros (_ & _ & _ & Hi & _ & _ & _ & _ & H1 & _ & H2). unfold subtypes_seen. cbn [prepare add_types r_subtypes]. rewrite !in_app_iff, Hi. split.
  - intros [H|H]; [|now right]. apply H2 in H as [H|[c' H]]; [now left | right]. now rewrite (shipped_init w c c' r0 Hr0).
  - intros [H|H]; [left; now apply H1 | now right].
Qed.
Lemma prepared_from r : In r (rules (initialize_all k c)) -> r_id r = r_id r0 -> exists r1, In r1 (rules k) /\ r = prepare c r1 /\ same_checks r0 r1.
Proof using Hw Hr0.
  intros H E. apply init_In in H as [r1 [H1 ->]]. exists r1. split; [exact H1|]. split; [reflexivity|]. apply filter_In in H1 as [H1 _].
  exact (proj2 Hw r0 r1 Hr0 H1 E).
Qed.

Lemma asked_raised r a l fi : same_checks r0 r -> asked sp c (prepare c r) a -> a = Ok l -> In fi l ->
  exists m, raised sp c r0 m /\ locate_match c (r_id r0) m = Ok fi.
Proof using Hr0 Hfree.
  intros Hs Ha Hl Hf. assert (Hs' := Hs). destruct Hs' as (Ei & _ & _ & _ & Em & Ep & Es & _). destruct Hfree as (F1 & F2 & F3).
  destruct Ha as [->|[(name & rt & attrs & pd & Hres & Hpr & ->)|(name & rt & attrs & pd & n & v & q & Hres & Hpr & Hn & Hif & ->)]].
  - unfold matchall in Hl. cbn [prepare add_types r_match r_config r_id] in Hl. rewrite Em in Hl.
    destruct (r_match r0) as [f|] eqn:Ef; [|injection Hl as <-; destruct Hf]. rewrite (F1 f (r_config r) c eq_refl) in Hl.
    destruct (f [] c) as [ms|] eqn:Ems; [|discriminate]. cbn [bind] in Hl. apply (map_res_In _ _ _ Hl) in Hf as [m [Hm L]]. rewrite Ei in L.
    exists m. split; [|exact L]. left. exists f, ms. auto.
  - unfold matchall_props in Hl. cbn [prepare add_types r_match_props r_config r_id] in Hl. rewrite Ep in Hl.
    destruct (r_match_props r0) as [f|] eqn:Ef; [|injection Hl as <-; destruct Hf].
    match type of Hl with (if negb ?b then _ else _) = _ => destruct b eqn:Et end; cbn [negb] in Hl; [|injection Hl as <-; destruct Hf].
    apply smem_iff in Et. apply (types_of r rt Hs) in Et. rewrite (F2 f (r_config r)) in Hl by reflexivity.
    match type of Hl with bind ?x _ = _ => destruct x as [ms|] eqn:Ems end; [|discriminate]. cbn [bind] in Hl. apply (map_res_In _ _ _ Hl) in Hf as [m [Hm L]]. rewrite Ei in L.
    exists m. split; [|exact L]. right. left. exists name, rt, attrs, pd, f, ms. auto 10.
  - unfold matchall_subs in Hl. cbn [prepare add_types r_match_subs r_config r_id] in Hl. rewrite Es in Hl.
    destruct (r_match_subs r0) as [f|] eqn:Ef; [|injection Hl as <-; destruct Hf].
    match type of Hl with (if negb ?b then _ else _) = _ => destruct b eqn:Et end; cbn [negb] in Hl; [|injection Hl as <-; destruct Hf].
    apply smem_iff in Et. apply (subtypes_of r n Hs) in Et. rewrite (F3 f (r_config r)) in Hl by reflexivity.
    match type of Hl with bind ?x _ = _ => destruct x as [ms|] eqn:Ems end; [|discriminate]. cbn [bind] in Hl. apply (map_res_In _ _ _ Hl) in Hf as [m [Hm L]]. rewrite Ei in L.
    exists m. split; [|exact L]. right. right. exists name, rt, attrs, pd, n, v, q, f, ms. auto 12.
Qed.
Lemma raised_sound raw fi : run_body sp (initialize_all k c) c = Ok raw -> In fi raw -> f_rule fi = r_id r0 ->
  exists m, raised sp c r0 m /\ locate_match c (r_id r0) m = Ok fi.
Proof using Hw Hr0 Hid Hfree.
  intros H Hf Er. destruct (body_from _ _ _ _ _ H Hf) as (r & a & l & Hr & Ha & Hc & Hl).
  assert (Whose : forall fs x, a = Ok fs -> In x fs -> f_rule x = r_id r).
  { intros fs x E Hx.
    assert (G : forall o : res (list rulematch), bind o (map_res (locate_match c (r_id r))) = Ok fs -> f_rule x = r_id r).
    { intros o Q. destruct o as [ms|e0]; [|discriminate]. cbn [bind] in Q. destruct (proj1 (map_res_In _ _ _ Q x) Hx) as [m [_ L]]. exact (proj1 (locate_rule _ _ _ _ L)). }
    destruct Ha as [->|[(? & rt & ? & pd & _ & _ & ->)|(? & ? & ? & ? & n & v & q & _ & _ & _ & _ & ->)]].
    - unfold matchall in E. destruct (r_match r); [exact (G _ E) | injection E as <-; destruct Hx].
    - unfold matchall_props in E. destruct (r_match_props r); [|injection E as <-; destruct Hx]. destruct (negb _); [injection E as <-; destruct Hx | exact (G _ E)].
    - unfold matchall_subs in E. destruct (r_match_subs r); [|injection E as <-; destruct Hx]. destruct (negb _); [injection E as <-; destruct Hx | exact (G _ E)]. }
  destruct a as [fs|e]; cbn [run_check] in Hc.
  - injection Hc as <-. assert (Eid : r_id r = r_id r0) by (rewrite <- Er; symmetry; now apply (Whose fs)).
    destruct (prepared_from r Hr Eid) as (r1 & _ & -> & Hs). exact (asked_raised r1 (Ok fs) fs fi Hs Ha eq_refl Hl).
  - assert (X : l = [] \/ l = [crash_finding (c_file c) (r_id r) e]).
    { destruct e; try (destruct (is_rule_enabled _ _ _); [right | discriminate]); injection Hc as <-; auto. }
    destruct X as [X|X]; rewrite X in Hl; [destruct Hl|]. destruct Hl as [<-|[]]. cbn in Er. congruence.
Qed.
Lemma raised_complete raw m fi : run_body sp (initialize_all k c) c = Ok raw -> is_rule_enabled (k_set k) (r_id r0) (r_experimental r0) = true ->
  (forall m, raised sp c r0 m -> exists fi, locate_match c (r_id r0) m = Ok fi) -> raised sp c r0 m -> locate_match c (r_id r0) m = Ok fi -> In fi raw.
Proof using Hw Hr0 Hfree.
  intros H He Hall Hm Hfi. destruct (proj1 Hw r0 Hr0) as [r [Hr Hs]]. assert (Hs' := Hs). destruct Hs' as (Ei & Ex & _ & _ & Em & Ep & Es & _). destruct Hfree as (F1 & F2 & F3).
  assert (Hin : In (prepare c r) (rules (initialize_all k c))).
  { apply init_In. exists r. split; [|reflexivity]. apply filter_In. split; [exact Hr|]. unfold enabled. now rewrite Ei, Ex. }
  assert (L : forall ms, (forall m, In m ms -> raised sp c r0 m) -> In m ms -> exists fs, map_res (locate_match c (r_id r0)) ms = Ok fs /\ In fi fs).
  { intros ms Hms Hmm. assert (Z : exists fs, map_res (locate_match c (r_id r0)) ms = Ok fs).
    { clear Hmm. induction ms as [|x l IH]; [exists []; reflexivity|]. destruct (Hall x (Hms x (or_introl eq_refl))) as [y E].
      destruct IH as [fs E']; [intros z Hz; apply Hms; now right|]. exists (y :: fs). cbn [map_res]. now rewrite E, E'. }
    destruct Z as [fs Z]. exists fs. split; [exact Z|]. apply (map_res_In _ _ _ Z). eauto. }
  destruct Hm as [(f & ms & Ef & Ems & Hm)|[(name & rt & attrs & pd & f & ms & Hres & Hpr & Ht & Ef & Ems & Hm)|(name & rt & attrs & pd & n & v & q & f & ms & Hres & Hpr & Hn & Hif & Ht & Ef & Ems & Hm)]].
  - destruct (L ms) as [fs [Efs Hfs]]; [intros x Hx; left; exists f, ms; auto | exact Hm|].
    destruct (match_reported _ _ _ _ _ H Hin) as [K _]. apply (K fs); [|exact Hfs].
    unfold matchall. cbn [prepare add_types r_match r_config r_id]. rewrite Em, Ef, (F1 f (r_config r) c Ef), Ems, Ei. exact Efs.
  - destruct (L ms) as [fs [Efs Hfs]]; [intros x Hx; right; left; exists name, rt, attrs, pd, f, ms; auto 10 | exact Hm|].
    assert (Hty : assoc "Type" attrs = Some (VStr rt)) by now destruct Hres as [? [? [_ [_ [_ ?]]]]].
    destruct (props_reported sp _ c raw (prepare c r) name (VDict attrs) rt pd H Hin (resource_of_listed _ _ _ _ Hres) Hty Hpr) as [K _]. apply (K fs); [|exact Hfs].
    apply (types_of r rt Hs) in Ht. apply smem_iff in Ht.
    unfold matchall_props. rewrite Ht. cbn [prepare add_types r_match_props r_config r_id negb]. rewrite Ep, Ef, (F2 f (r_config r) c _ _ _ Ef), Ems, Ei. exact Efs.
  - destruct (L ms) as [fs [Efs Hfs]]; [intros x Hx; right; right; exists name, rt, attrs, pd, n, v, q, f, ms; auto 12 | exact Hm|].
    destruct (subs_reported sp _ c raw (prepare c r) name rt attrs pd n v q H Hin Hres Hpr Hn Hif) as [K _]. apply (K fs); [|exact Hfs].
    apply (subtypes_of r n Hs) in Ht. apply smem_iff in Ht.
    unfold matchall_subs. rewrite Ht. cbn [prepare add_types r_match_subs r_config r_id negb]. rewrite Es, Ef, (F3 f (r_config r) c _ _ _ Ef), Ems, Ei. exact Efs.
Qed.
End Raised.

Lemma tells_raised w sp tr k rg man c ds id l r0 :
  lints w sp tr k rg man c ds id l ->
  In r0 (shipped w) -> r_id r0 = id -> r_experimental r0 = false -> unconfigured r0 -> id <> "E0002" ->
  (forall m, raised sp c r0 m -> rm_path m <> [] /\ indices_ok (c_tmpl c) (rm_path m)) ->
  tells_exactly c man ds l id (fun q words => raised sp c r0 (mkRM q words)).
Proof.
  intros (Hw & Hsp & He & Hsel & (Hnt & _) & Hdict & Hds & Hrun) Hin <- Hex Hfree Hid Hpath.
  destruct (run_checks_cases sp tr k rg man c) as [[K _]|[(_ & K & _)|(_ & _ & K)]]; [congruence | congruence |].
  rewrite Hnt, Hrun in K. injection K as ->. rewrite reports_body.
  assert (He0 : e0002_on (k_set (initialize_all k c))) by (apply is_enabled_spec; exact He).
  destruct (run_body_total sp (initialize_all k c) c Hsp He0) as [raw Eraw]. rewrite Eraw, Hds.
  assert (Hall : forall m, raised sp c r0 m -> exists fi, locate_match c (r_id r0) m = Ok fi).
  { intros m Hm. destruct (Hpath m Hm) as [P1 P2]. destruct (locate_finding c (r_id r0) m Hdict P1 P2) as [fi [L _]]. eauto. }
  split.
  - intros fi Hfi Er. apply (Permutation_in _ (sort_perm _)) in Hfi. apply report_sound in Hfi as [Hfi Hn]. split; [exact Hn|].
    destruct (raised_sound w sp k c r0 Hw Hin Hid Hfree raw fi Eraw Hfi Er) as [m [Hm L]].
    destruct (Hpath m Hm) as [P1 P2]. destruct (locate_finding c (r_id r0) m Hdict P1 P2) as [fi' [L' F]].
    assert (fi' = fi) by congruence. subst fi'. exists (rm_path m), (rm_msg m). split; [destruct m; exact Hm | exact F].
  - intros q words Hm. destruct (Hpath _ Hm) as [P1 P2]. destruct (locate_finding c (r_id r0) _ Hdict P1 P2) as [fi [L F]].
    exists fi. split; [exact F|].
    assert (Hraw : In fi raw).
    { apply (raised_complete w sp k c r0 Hw Hin Hfree raw (mkRM q words) fi Eraw); [|exact Hall|exact Hm|exact L]. rewrite Hex. apply is_enabled_spec. exact Hsel. }
    destruct (suppressed_dec man ds fi) as [S|S]; [now left | right].
    destruct (report_complete man ds raw fi Hraw S) as [u [Hu Su]]. exists u. split; [|exact Su].
    apply (Permutation_in _ (Permutation_sym (sort_perm _))). exact Hu.
Qed.
