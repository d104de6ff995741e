(** What a shipped rule that has settings, or is experimental, tells in a run (C99). *)
From Coq Require Import Lia Permutation.
From Verif.Model Require Import Base Node Locate Helpers Rules Runner Config Core Standard.
From Verif.Spec Require Import Pipeline Paths Branches Walk Shipped Configured.
From Verif.Proofs Require Import BaseFacts PipelineProofs RunProofs ReportProofs WalkProofs WalkSound GroupProofs RuleSetProofs RuleSetMain RuleSetLint SearchProofs PropertyRuleProofs Says StandardProofs StandardRules StandardChecks StandardObjects StandardNested.
Local Open Scope string_scope.

(** What the checks of a rule with the settings [cfg] raise. *)
Definition raises_with (cfg : list (string * val)) (sp : spec) (c : cfn) (r : rule) (m : rulematch) : Prop :=
  (exists f ms, r_match r = Some f /\ f cfg c = Ok ms /\ In m ms) \/
  (exists name rt attrs pd f ms, resource_of (template c) name rt attrs /\ assoc "Properties" attrs = Some (VDict pd) /\ types_seen r c rt /\
     r_match_props r = Some f /\ f cfg c (VDict pd) rt [PKey "Resources"; PKey name; PKey "Properties"] = Ok ms /\ In m ms) \/
  (exists name rt attrs pd n v q f ms, resource_of (template c) name rt attrs /\ assoc "Properties" attrs = Some (VDict pd) /\
     resource_nested sp rt (VDict pd) [PKey "Resources"; PKey name; PKey "Properties"] n v q /\ ~ is_if v /\ subtypes_seen r c n /\
     r_match_subs r = Some f /\ f cfg c v n q = Ok ms /\ In m ms).

Section Raised.
Variables (w : world) (sp : spec) (k : collection) (c : cfn) (r0 : rule) (cfg : list (string * val)).
Hypothesis (Hw : with_shipped w (k_all k)) (Hr0 : In r0 (shipped w)) (Hid : r_id r0 <> "E0002") (Hcfg : forall r, In r (k_all k) -> r_id r = r_id r0 -> r_config r = cfg).

Lemma asked_raised r a l fi : In r (k_all k) -> same_checks r0 r -> asked sp c (prepare c r) a -> a = Ok l -> In fi l ->
  exists m, raises_with cfg sp c r0 m /\ locate_match c (r_id r0) m = Ok fi.
Proof using Hr0 Hcfg.
  intros Hk Hs Ha Hl Hf. assert (Hs' := Hs). destruct Hs' as (Ei & _ & _ & _ & Em & Ep & Es & _). assert (F := Hcfg r Hk Ei).
  destruct Ha as [->|[(name & rt & attrs & pd & Hres & Hpr & ->)|(name & rt & attrs & pd & n & v & q & Hres & Hpr & Hn & Hif & ->)]].
  - unfold matchall in Hl. cbn [prepare add_types r_match r_config r_id] in Hl. rewrite Em in Hl.
    destruct (r_match r0) as [f|] eqn:Ef; [|injection Hl as <-; destruct Hf]. rewrite F in Hl.
    destruct (f cfg c) as [ms|] eqn:Ems; [|discriminate]. cbn [bind] in Hl. apply (map_res_In _ _ _ Hl) in Hf as [m [Hm L]]. rewrite Ei in L.
    exists m. split; [|exact L]. left. exists f, ms. auto.
  - unfold matchall_props in Hl. cbn [prepare add_types r_match_props r_config r_id] in Hl. rewrite Ep in Hl.
    destruct (r_match_props r0) as [f|] eqn:Ef; [|injection Hl as <-; destruct Hf].
    match type of Hl with (if negb ?b then _ else _) = _ => destruct b eqn:Et end; cbn [negb] in Hl; [|injection Hl as <-; destruct Hf].
    apply smem_iff in Et. apply (types_of w c r0 Hr0 r rt Hs) in Et. rewrite F in Hl.
    match type of Hl with bind ?x _ = _ => destruct x as [ms|] eqn:Ems end; [|discriminate]. cbn [bind] in Hl. apply (map_res_In _ _ _ Hl) in Hf as [m [Hm L]]. rewrite Ei in L.
    exists m. split; [|exact L]. right. left. exists name, rt, attrs, pd, f, ms. auto 10.
  - unfold matchall_subs in Hl. cbn [prepare add_types r_match_subs r_config r_id] in Hl. rewrite Es in Hl.
    destruct (r_match_subs r0) as [f|] eqn:Ef; [|injection Hl as <-; destruct Hf].
    match type of Hl with (if negb ?b then _ else _) = _ => destruct b eqn:Et end; cbn [negb] in Hl; [|injection Hl as <-; destruct Hf].
    apply smem_iff in Et. apply (subtypes_of w c r0 Hr0 r n Hs) in Et. rewrite F in Hl.
    match type of Hl with bind ?x _ = _ => destruct x as [ms|] eqn:Ems end; [|discriminate]. cbn [bind] in Hl. apply (map_res_In _ _ _ Hl) in Hf as [m [Hm L]]. rewrite Ei in L.
    exists m. split; [|exact L]. right. right. exists name, rt, attrs, pd, n, v, q, f, ms. auto 12.
Qed.
Lemma raised_sound raw fi : run_body sp (initialize_all k c) c = Ok raw -> In fi raw -> f_rule fi = r_id r0 ->
  exists m, raises_with cfg sp c r0 m /\ locate_match c (r_id r0) m = Ok fi.
Proof using Hw Hr0 Hid Hcfg.
  intros H Hf Er. destruct (body_from _ _ _ _ _ H Hf) as (r & a & l & Hr & Ha & Hc & Hl).
  assert (Whose : forall fs x, a = Ok fs -> In x fs -> f_rule x = r_id r).
  { intros fs x E Hx.
    assert (G : forall o : res (list rulematch), bind o (map_res (locate_match c (r_id r))) = Ok fs -> f_rule x = r_id r).
    { intros o Q. destruct o as [ms|e0]; [|discriminate]. cbn [bind] in Q. destruct (proj1 (map_res_In _ _ _ Q x) Hx) as [m [_ L]]. exact (proj1 (locate_rule _ _ _ _ L)). }
    destruct Ha as [->|[(? & rt & ? & pd & _ & _ & ->)|(? & ? & ? & ? & n & v & q & _ & _ & _ & _ & ->)]].
    - unfold matchall in E. destruct (r_match r); [exact (G _ E) | injection E as <-; destruct Hx].
    - unfold matchall_props in E. destruct (r_match_props r); [|injection E as <-; destruct Hx]. destruct (negb _); [injection E as <-; destruct Hx | exact (G _ E)].
    - unfold matchall_subs in E. destruct (r_match_subs r); [|injection E as <-; destruct Hx]. destruct (negb _); [injection E as <-; destruct Hx | exact (G _ E)]. }
  destruct a as [fs|e]; cbn [run_check] in Hc.
  - injection Hc as <-. assert (Eid : r_id r = r_id r0) by (rewrite <- Er; symmetry; now apply (Whose fs)).
    destruct (prepared_from w k c r0 Hw Hr0 r Hr Eid) as (r1 & Hk & -> & Hs). apply filter_In in Hk as [Hk _]. exact (asked_raised r1 (Ok fs) fs fi Hk Hs Ha eq_refl Hl).
  - assert (X : l = [] \/ l = [crash_finding (c_file c) (r_id r) e]).
    { destruct e; try (destruct (is_rule_enabled _ _ _); [right | discriminate]); injection Hc as <-; auto. }
    destruct X as [X|X]; rewrite X in Hl; [destruct Hl|]. destruct Hl as [<-|[]]. cbn in Er. congruence.
Qed.
Lemma raised_complete raw m fi : run_body sp (initialize_all k c) c = Ok raw -> is_rule_enabled (k_set k) (r_id r0) (r_experimental r0) = true ->
  (forall m, raises_with cfg sp c r0 m -> exists fi, locate_match c (r_id r0) m = Ok fi) -> raises_with cfg sp c r0 m -> locate_match c (r_id r0) m = Ok fi -> In fi raw.
Proof using Hw Hr0 Hcfg.
  intros H He Hall Hm Hfi. destruct (proj1 Hw r0 Hr0) as [r [Hr Hs]]. assert (Hs' := Hs). destruct Hs' as (Ei & Ex & _ & _ & Em & Ep & Es & _). assert (F := Hcfg r Hr Ei).
  assert (Hin : In (prepare c r) (rules (initialize_all k c))).
  { apply init_In. exists r. split; [|reflexivity]. apply filter_In. split; [exact Hr|]. unfold enabled. now rewrite Ei, Ex. }
  assert (L : forall ms, (forall m, In m ms -> raises_with cfg sp c r0 m) -> In m ms -> exists fs, map_res (locate_match c (r_id r0)) ms = Ok fs /\ In fi fs).
  { intros ms Hms Hmm. assert (Z : exists fs, map_res (locate_match c (r_id r0)) ms = Ok fs).
    { clear Hmm. induction ms as [|x l IH]; [exists []; reflexivity|]. destruct (Hall x (Hms x (or_introl eq_refl))) as [y E].
      destruct IH as [fs E']; [intros z Hz; apply Hms; now right|]. exists (y :: fs). cbn [map_res]. now rewrite E, E'. }
    destruct Z as [fs Z]. exists fs. split; [exact Z|]. apply (map_res_In _ _ _ Z). eauto. }
  destruct Hm as [(f & ms & Ef & Ems & Hm)|[(name & rt & attrs & pd & f & ms & Hres & Hpr & Ht & Ef & Ems & Hm)|(name & rt & attrs & pd & n & v & q & f & ms & Hres & Hpr & Hn & Hif & Ht & Ef & Ems & Hm)]].
  - destruct (L ms) as [fs [Efs Hfs]]; [intros x Hx; left; exists f, ms; auto | exact Hm|].
    destruct (match_reported _ _ _ _ _ H Hin) as [K _]. apply (K fs); [|exact Hfs].
    unfold matchall. cbn [prepare add_types r_match r_config r_id]. rewrite Em, Ef, F, Ems, Ei. exact Efs.
  - destruct (L ms) as [fs [Efs Hfs]]; [intros x Hx; right; left; exists name, rt, attrs, pd, f, ms; auto 10 | exact Hm|].
    assert (Hty : assoc "Type" attrs = Some (VStr rt)) by now destruct Hres as [? [? [_ [_ [_ ?]]]]].
    destruct (props_reported sp _ c raw (prepare c r) name (VDict attrs) rt pd H Hin (resource_of_listed _ _ _ _ Hres) Hty Hpr) as [K _]. apply (K fs); [|exact Hfs].
    apply (types_of w c r0 Hr0 r rt Hs) in Ht. apply smem_iff in Ht.
    unfold matchall_props. rewrite Ht. cbn [prepare add_types r_match_props r_config r_id negb]. rewrite Ep, Ef, F, Ems, Ei. exact Efs.
  - destruct (L ms) as [fs [Efs Hfs]]; [intros x Hx; right; right; exists name, rt, attrs, pd, n, v, q, f, ms; auto 12 | exact Hm|].
    destruct (subs_reported sp _ c raw (prepare c r) name rt attrs pd n v q H Hin Hres Hpr Hn Hif) as [K _]. apply (K fs); [|exact Hfs].
    apply (subtypes_of w c r0 Hr0 r n Hs) in Ht. apply smem_iff in Ht.
    unfold matchall_subs. rewrite Ht. cbn [prepare add_types r_match_subs r_config r_id negb]. rewrite Es, Ef, F, Ems, Ei. exact Efs.
Qed.
End Raised.

Lemma tells_set w sp tr k rg man c ds id ex cfg l r0 :
  lints_with w sp tr k rg man c ds id ex cfg l ->
  In r0 (shipped w) -> r_id r0 = id -> r_experimental r0 = ex -> id <> "E0002" ->
  (forall m, raises_with cfg sp c r0 m -> rm_path m <> [] /\ indices_ok (c_tmpl c) (rm_path m)) ->
  tells_exactly c man ds l id (fun q words => raises_with cfg sp c r0 (mkRM q words)).
Proof.
  intros (Hw & Hsp & He & Hsel & Hcfg & (Hnt & _) & Hdict & Hds & Hrun) Hin <- Hex Hid Hpath.
  destruct (run_checks_cases sp tr k rg man c) as [[K _]|[(_ & K & _)|(_ & _ & K)]]; [congruence | congruence |].
  rewrite Hnt, Hrun in K. injection K as ->. rewrite reports_body.
  assert (He0 : e0002_on (k_set (initialize_all k c))) by (apply is_enabled_spec; exact He).
  destruct (run_body_total sp (initialize_all k c) c Hsp He0) as [raw Eraw]. rewrite Eraw, Hds.
  assert (Hall : forall m, raises_with cfg sp c r0 m -> exists fi, locate_match c (r_id r0) m = Ok fi).
  { intros m Hm. destruct (Hpath m Hm) as [P1 P2]. destruct (locate_finding c (r_id r0) m Hdict P1 P2) as [fi [L _]]. eauto. }
  split.
  - intros fi Hfi Er. apply (Permutation_in _ (sort_perm _)) in Hfi. apply report_sound in Hfi as [Hfi Hn]. split; [exact Hn|].
    destruct (raised_sound w sp k c r0 cfg Hw Hin Hid Hcfg raw fi Eraw Hfi Er) as [m [Hm L]].
    destruct (Hpath m Hm) as [P1 P2]. destruct (locate_finding c (r_id r0) m Hdict P1 P2) as [fi' [L' F]].
    assert (fi' = fi) by congruence. subst fi'. exists (rm_path m), (rm_msg m). split; [destruct m; exact Hm | exact F].
  - intros q words Hm. destruct (Hpath _ Hm) as [P1 P2]. destruct (locate_finding c (r_id r0) _ Hdict P1 P2) as [fi [L F]].
    exists fi. split; [exact F|].
    assert (Hraw : In fi raw).
    { apply (raised_complete w sp k c r0 cfg Hw Hin Hcfg raw (mkRM q words) fi Eraw); [|exact Hall|exact Hm|exact L]. rewrite Hex. apply is_enabled_spec. exact Hsel. }
    destruct (suppressed_dec man ds fi) as [S|S]; [now left | right].
    destruct (report_complete man ds raw fi Hraw S) as [u [Hu Su]]. exists u. split; [|exact Su].
    apply (Permutation_in _ (Permutation_sym (sort_perm _))). exact Hu.
Qed.
Definition rule_set (w : world) (id : string) (ex : bool) (r : rule) : Prop := id <> "E0002" /\ rule_by_id w id = Some r /\ r_experimental r = ex.
Lemma checked_set w sp tr k rg man c ds l id ex cfg r M (T U : string -> Prop) P Q :
  lints_with w sp tr k rg man c ds id ex cfg l -> rule_set w id ex r ->
  (forall t, types_seen r c t <-> T t) -> (forall t, subtypes_seen r c t <-> U t) ->
  match r_match r with None => forall m, ~ M m | Some f => says (f cfg c) M end ->
  match r_match_props r with None => forall rt, ~ T rt
  | Some f => forall rt pd p, properties_of (template c) rt pd p -> T rt -> says (f cfg c (VDict pd) rt p) (P rt pd p) end ->
  match r_match_subs r with None => forall n, ~ U n
  | Some f => forall n v q, nested_of sp (template c) n v q -> U n -> says (f cfg c v n q) (Q n v q) end ->
  (forall m, put_together sp (template c) M T U P Q m -> rm_path m <> [] /\ indices_ok (c_tmpl c) (rm_path m)) ->
  tells_exactly c man ds l id (fun q words => put_together sp (template c) M T U P Q (mkRM q words)).
Proof.
  intros Hl (Hid & Hr & Hex) HT HU HM HP HQ Hpath. apply rule_by_id_in in Hr as [Hin Er].
  assert (E : forall m, raises_with cfg sp c r m <-> put_together sp (template c) M T U P Q m).
  { intros m. unfold raises_with, put_together. split.
    - intros [(f & ms & Ef & Ems & Hm)|[(name & rt & attrs & pd & f & ms & Hres & Hpr & Ht & Ef & Ems & Hm)|(name & rt & attrs & pd & n & v & q & f & ms & Hres & Hpr & Hn & Hif & Ht & Ef & Ems & Hm)]].
      + left. rewrite Ef in HM. destruct HM as [o [Eo Ho]]. rewrite Ems in Eo. injection Eo as <-. now apply Ho.
      + right. left. rewrite Ef in HP. apply HT in Ht. assert (Hpo : properties_of (template c) rt pd [PKey "Resources"; PKey name; PKey "Properties"]) by (exists name, attrs; auto).
        destruct (HP _ _ _ Hpo Ht) as [o [Eo Ho]]. rewrite Ems in Eo. injection Eo as <-. exists rt, pd, [PKey "Resources"; PKey name; PKey "Properties"]. split; [exact Hpo|]. split; [exact Ht|]. now apply Ho.
      + right. right. rewrite Ef in HQ. apply HU in Ht. assert (Hno : nested_of sp (template c) n v q) by (exists rt, pd, [PKey "Resources"; PKey name; PKey "Properties"]; split; [exists name, attrs; auto | auto]).
        destruct (HQ _ _ _ Hno Ht) as [o [Eo Ho]]. rewrite Ems in Eo. injection Eo as <-. exists n, v, q. split; [exact Hno|]. split; [exact Ht|]. now apply Ho.
    - intros [Hm|[(rt & pd & p & Hpo & Ht & Hm)|(n & v & q & Hno & Ht & Hm)]].
      + left. destruct (r_match r) as [f|]; [|elim (HM m Hm)]. destruct HM as [o [Eo Ho]]. exists f, o. split; [reflexivity|]. split; [exact Eo|]. now apply Ho.
      + right. left. destruct (r_match_props r) as [f|]; [|elim (HP rt Ht)]. destruct (HP _ _ _ Hpo Ht) as [o [Eo Ho]]. destruct Hpo as (name & attrs & Hres & Hpr & ->).
        exists name, rt, attrs, pd, f, o. split; [exact Hres|]. split; [exact Hpr|]. split; [now apply HT|]. split; [reflexivity|]. split; [exact Eo|]. now apply Ho.
      + right. right. destruct (r_match_subs r) as [f|]; [|elim (HQ n Ht)]. destruct (HQ _ _ _ Hno Ht) as [o [Eo Ho]]. destruct Hno as (rt & pd & p & (name & attrs & Hres & Hpr & ->) & Hn & Hif).
        exists name, rt, attrs, pd, n, v, q, f, o. split; [exact Hres|]. split; [exact Hpr|]. split; [exact Hn|]. split; [exact Hif|]. split; [now apply HU|]. split; [reflexivity|]. split; [exact Eo|]. now apply Ho. }
  apply (tells_ext _ _ _ _ _ (fun q words => raises_with cfg sp c r (mkRM q words))); [intros q words; apply E|].
  apply (tells_set w sp tr k rg man c ds id ex cfg l r); auto. intros m Hm. apply Hpath, E, Hm.
Qed.

Lemma objects_set w sp tr k rg man c ds l id ex cfg r f g (T U : string -> Prop) P Q (R R' : string -> list (string * val) -> path -> path -> string -> Prop) :
  lints_with w sp tr k rg man c ds id ex cfg l -> rule_set w id ex r -> r_match r = None -> r_match_props r = Some f -> r_match_subs r = Some g ->
  (forall t, types_seen r c t <-> T t) -> (forall t, subtypes_seen r c t <-> U t) -> wf (template c) ->
  (forall n v q, nested_of sp (template c) n v q -> U n -> exists d, v = VDict d) ->
  (forall rt pd p, properties_of (template c) rt pd p -> T rt -> says (f cfg c (VDict pd) rt p) (P rt pd p)) ->
  (forall n d q, nested_of sp (template c) n (VDict d) q -> U n -> says (g cfg c (VDict d) n q) (Q n d q)) ->
  (forall rt pd p q words, P rt pd p (mkRM q words) <-> R rt pd p q words) -> (forall n d p q words, Q n d p (mkRM q words) <-> R' n d p q words) ->
  (forall rt pd p q words, properties_of (template c) rt pd p -> T rt -> at_path p (template c) = Some (VDict pd) -> p <> [] -> R rt pd p q words -> fine_place c q) ->
  (forall n d p q words, nested_of sp (template c) n (VDict d) p -> U n -> at_path p (template c) = Some (VDict d) -> p <> [] -> R' n d p q words -> fine_place c q) ->
  tells_exactly c man ds l id (fun q words => (exists rt pd p, properties_of (template c) rt pd p /\ T rt /\ R rt pd p q words) \/
    (exists n d p, nested_of sp (template c) n (VDict d) p /\ U n /\ R' n d p q words)).
Proof.
  intros Hl Hr E1 E2 E3 HT HU Hw Hobj HP HQ HR HR' Hpath Hpath'.
  set (Q0 := fun n v q m => exists d, v = VDict d /\ Q n d q m).
  apply (tells_ext _ _ _ _ _ (fun q words => put_together sp (template c) (fun _ => False) T U P Q0 (mkRM q words))).
  - intros q words. unfold put_together, Q0. split.
    + intros [[]|[(rt & pd & p & H1 & H2 & H3)|(n & v & p & H1 & H2 & d & -> & H3)]].
      * left. exists rt, pd, p. split; [exact H1|]. split; [exact H2|]. now apply HR.
      * right. exists n, d, p. split; [exact H1|]. split; [exact H2|]. now apply HR'.
    + intros [(rt & pd & p & H1 & H2 & H3)|(n & d & p & H1 & H2 & H3)]; right; [left | right].
      * exists rt, pd, p. split; [exact H1|]. split; [exact H2|]. now apply HR.
      * exists n, (VDict d), p. split; [exact H1|]. split; [exact H2|]. exists d. split; [reflexivity|]. now apply HR'.
  - apply (checked_set w sp tr k rg man c ds l id ex cfg r); auto.
    + rewrite E1. intros m [].
    + rewrite E2. exact HP.
    + rewrite E3. intros n v q H1 H2. destruct (Hobj n v q H1 H2) as [d ->]. destruct (HQ n d q H1 H2) as [o [Eo Ho]]. exists o. split; [exact Eo|]. intros m. rewrite Ho. unfold Q0. split; [eauto|]. now intros (d' & [= <-] & H).
    + intros [q words] [[]|[(rt & pd & p & H1 & H2 & H3)|(n & v & p & H1 & H2 & d & -> & H3)]].
      * destruct (properties_at c rt pd p Hw H1) as [Ha Hne]. apply HR in H3. exact (Hpath rt pd p q words H1 H2 Ha Hne H3).
      * destruct (nested_at sp c n (VDict d) p Hw H1) as [Ha Hne]. apply HR' in H3. exact (Hpath' n d p q words H1 H2 Ha Hne H3).
Qed.
Lemma with_set {A} w sp tr k rg man c ds l id ex cfg r f g (rts pts : list (string * A)) (T U : string -> Prop) P (R : string -> list (string * val) -> path -> A -> path -> string -> Prop) :
  lints_with w sp tr k rg man c ds id ex cfg l -> rule_set w id ex r -> r_match r = None -> r_match_props r = Some f -> r_match_subs r = Some g ->
  (forall t, types_seen r c t <-> T t) -> (forall t, subtypes_seen r c t <-> U t) ->
  (forall t, T t -> In t (keys rts)) -> (forall t, U t -> In t (keys pts)) ->
  (forall n d p a q words, assoc n rts = Some a -> R n d p a q words -> T n) -> (forall n d p a q words, assoc n pts = Some a -> R n d p a q words -> U n) ->
  wf (template c) -> objects_nested sp pts (template c) ->
  (forall n d p a, properties_of (template c) n d p -> assoc n rts = Some a -> says (f cfg c (VDict d) n p) (P n d p a)) ->
  (forall n d p a, nested_of sp (template c) n (VDict d) p -> assoc n pts = Some a -> says (g cfg c (VDict d) n p) (P n d p a)) ->
  (forall n d p a q words, P n d p a (mkRM q words) <-> R n d p a q words) ->
  (forall n d p a q words, object_with sp rts pts (template c) n d p a -> at_path p (template c) = Some (VDict d) -> p <> [] -> R n d p a q words -> fine_place c q) ->
  tells_exactly c man ds l id (fun q words => exists n d p a, object_with sp rts pts (template c) n d p a /\ R n d p a q words).
Proof.
  intros Hl Hr E1 E2 E3 HT HU Tk Uk RT RU Hw Hobj HP HQ HR Hpath.
  apply (tells_ext _ _ _ _ _ (fun q words => (exists rt pd p, properties_of (template c) rt pd p /\ T rt /\ exists a, assoc rt rts = Some a /\ R rt pd p a q words) \/
    (exists n d p, nested_of sp (template c) n (VDict d) p /\ U n /\ exists a, assoc n pts = Some a /\ R n d p a q words))).
  - intros q words. split.
    + intros [(n & d & p & H1 & _ & a & H2 & H3)|(n & d & p & H1 & _ & a & H2 & H3)]; exists n, d, p, a; (split; [|exact H3]); [left | right]; auto.
    + intros (n & d & p & a & [[H1 H2]|[H1 H2]] & H3); [left | right]; exists n, d, p; (split; [exact H1|]); (split; [|exists a; auto]); [exact (RT n d p a q words H2 H3) | exact (RU n d p a q words H2 H3)].
  - apply (objects_set w sp tr k rg man c ds l id ex cfg r f g T U (fun n d p m => exists a, assoc n rts = Some a /\ P n d p a m) (fun n d p m => exists a, assoc n pts = Some a /\ P n d p a m)
      (fun n d p q words => exists a, assoc n rts = Some a /\ R n d p a q words) (fun n d p q words => exists a, assoc n pts = Some a /\ R n d p a q words)); auto.
    + intros n v q H1 H2. exact (Hobj n v q H1 (Uk n H2)).
    + intros rt pd p H1 H2. destruct (key_in rt rts (Tk rt H2)) as [a Ea]. eapply says_ext; [exact (HP rt pd p a H1 Ea)|]. intros m. split; [eauto|]. intros (a' & E & H). congruence.
    + intros n d p H1 H2. destruct (key_in n pts (Uk n H2)) as [a Ea]. eapply says_ext; [exact (HQ n d p a H1 Ea)|]. intros m. split; [eauto|]. intros (a' & E & H). congruence.
    + intros n d p q words. split; intros (a & H1 & H2); exists a; (split; [exact H1|]); now apply HR.
    + intros n d p q words. split; intros (a & H1 & H2); exists a; (split; [exact H1|]); now apply HR.
    + intros rt pd p q words H1 H2 Ha Hne (a & H3 & H4). apply (Hpath rt pd p a q words); auto. left. auto.
    + intros n d p q words H1 H2 Ha Hne (a & H3 & H4). apply (Hpath n d p a q words); auto. right. auto.
Qed.
(** A rule that looks at all objects of the specification. *)
Lemma specified_set {A} w sp tr k rg man c ds l id ex cfg r f g (rts pts : list (string * A)) P (R : string -> list (string * val) -> path -> A -> path -> string -> Prop) :
  lints_with w sp tr k rg man c ds id ex cfg l -> rule_set w id ex r -> r_match r = None -> r_match_props r = Some f -> r_match_subs r = Some g ->
  (forall t, types_seen r c t <-> In t (keys rts)) -> (forall t, subtypes_seen r c t <-> In t (keys pts)) ->
  wf (template c) -> objects_nested sp pts (template c) ->
  (forall n d p a, properties_of (template c) n d p -> assoc n rts = Some a -> says (f cfg c (VDict d) n p) (P n d p a)) ->
  (forall n d p a, nested_of sp (template c) n (VDict d) p -> assoc n pts = Some a -> says (g cfg c (VDict d) n p) (P n d p a)) ->
  (forall n d p a q words, P n d p a (mkRM q words) <-> R n d p a q words) ->
  (forall n d p a q words, object_with sp rts pts (template c) n d p a -> at_path p (template c) = Some (VDict d) -> p <> [] -> R n d p a q words -> fine_place c q) ->
  tells_exactly c man ds l id (fun q words => exists n d p a, object_with sp rts pts (template c) n d p a /\ R n d p a q words).
Proof.
  intros Hl Hr E1 E2 E3 HT HU Hw Hobj HP HQ HR Hpath. apply (with_set w sp tr k rg man c ds l id ex cfg r f g rts pts (fun t => In t (keys rts)) (fun t => In t (keys pts)) P); auto.
  - intros n d p a q words H _. exact (in_key _ _ _ H).
  - intros n d p a q words H _. exact (in_key _ _ _ H).
Qed.
