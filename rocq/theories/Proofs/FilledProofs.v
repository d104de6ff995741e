(** Runs without findings and the properties of the template (C108). *)
From Coq Require Import List String Bool ZArith Permutation Lia.
From Verif.Model Require Import Base Node Locate Helpers Rules Runner Config Core Conditions Relationship Resolve PropertyRules ValueRules Standard.
From Verif.Spec Require Import Pipeline Paths Branches Walk Required Resolved Groups Sizes Values Shipped ShippedChecks Crashes Filled.
From Verif.Proofs Require Import BaseFacts BranchProofs WalkProofs RunProofs PipelineProofs ReportProofs PropertyRuleProofs GroupProofs GroupMain SizeProofs ValueProofs Says StandardProofs StandardRules StandardChecks StandardObjects StandardNested RuleSetProofs RuleSetMain RuleSetLint CrashProofs SilenceProofs CleanProofs.
Import Verif.Model.Rules.
Import ListNotations.
Local Open Scope string_scope.

Definition silent (x : res (list rulematch)) : Prop := x = Ok [] \/ x = Err ETemplateAttribute.
Lemma silent_by (c : cfn) (id : string) (raw : list finding) (x : res (list rulematch)) : (forall fi, ~ In fi raw) ->
  (forall fs, (do ms <- x; map_res (locate_match c id) ms) = Ok fs -> incl fs raw) ->
  (forall e, (do ms <- x; map_res (locate_match c id) ms) = Err e -> e <> ETemplateAttribute -> In (crash_finding (c_file c) id e) raw) -> silent x.
Proof.
  intros Hnone M1 M2. destruct x as [ms|e]; cbn [bind] in M1, M2.
  - left. destruct ms as [|m ms]; [reflexivity|]. exfalso.
    destruct (map_res (locate_match c id) (m :: ms)) as [fs|e] eqn:E.
    + pose proof (M1 fs eq_refl) as I1. cbn [map_res] in E. destruct (locate_match c id m) as [fi|]; cbn [bind] in E; [|discriminate E].
      destruct (map_res (locate_match c id) ms); cbn [bind] in E; [|discriminate E]. injection E as <-. exact (Hnone fi (I1 fi (or_introl eq_refl))).
    + exact (Hnone _ (M2 e eq_refl (map_locate_error _ _ _ _ E))).
  - right. destruct e; try reflexivity; exfalso; (eapply Hnone; apply (M2 _ eq_refl); discriminate).
Qed.
(** In such a run every check of a selected rule on an object is silent. *)
Lemma clean_objects w sp tr k rg man c id r0 : plain_run w sp tr k rg man c [] -> get_directives (c_tmpl c) = Ok [] ->
  selected id false (s_experimental (k_set k)) (s_ignore (k_set k)) (s_include (k_set k)) (s_mandatory (k_set k)) -> rule_is w id r0 ->
  (forall f, r_match r0 = Some f -> silent (f [] c)) /\
  (forall f n d p, r_match_props r0 = Some f -> types_seen r0 c n -> properties_of (template c) n d p -> silent (f [] c (VDict d) n p)) /\
  (forall f n v q, r_match_subs r0 = Some f -> subtypes_seen r0 c n -> nested_of sp (template c) n v q -> silent (f [] c v n q)).
Proof.
  intros (Hw & Ho & Hsp & He & Hnt & _ & _ & Hdict & _ & Hrun) Hds Hsel (Hid & Hr & Hex & U1 & U2 & U3).
  apply rule_by_id_in in Hr as [Hin Eid].
  destruct (run_checks_cases sp tr k rg man c) as [[K _]|[(_ & K & _)|(_ & _ & K)]]; [congruence | congruence |].
  rewrite Hnt, Hrun in K. injection K as K. rewrite reports_body in K.
  assert (He0 : e0002_on (k_set (initialize_all k c))) by (apply is_enabled_spec; exact He).
  destruct (run_body_total sp (initialize_all k c) c Hsp He0) as [raw Eraw]. rewrite Eraw, Hds in K.
  assert (Hnone : forall fi, ~ In fi raw).
  { intros fi Hfi. assert (S : ~ suppressed man [] fi) by (unfold suppressed; intros [[d [[] _]] _]).
    destruct (report_complete man [] raw fi Hfi S) as [u [Hu _]].
    apply (Permutation_in _ (Permutation_sym (sort_perm _))) in Hu. rewrite <- K in Hu. destruct Hu. }
  destruct (proj1 Hw r0 Hin) as [r [Hr Hc]].
  assert (Hin' : In (prepare c r) (rules (initialize_all k c))).
  { apply init_In. exists r. split; [|reflexivity]. apply filter_In. split; [exact Hr|]. destruct Hc as (Ei & Ex & _).
    unfold enabled. rewrite Ei, Ex, Eid, Hex. apply is_enabled_spec. exact Hsel. }
  assert (Hc' := Hc). destruct Hc' as (Ei & _ & _ & _ & Em & Ep & Es & _).
  split; [|split].
  - intros f Hf. destruct (match_reported _ _ _ _ _ Eraw Hin') as [M1 M2].
    unfold matchall in M1, M2. cbn [prepare add_types r_match r_config r_id] in M1, M2. rewrite Em, Hf, (U1 _ _ _ Hf) in M1, M2. exact (silent_by c _ raw _ Hnone M1 M2).
  - intros f n d p Hf Ht (name & attrs & Hres & Hpr & ->). assert (Hty : assoc "Type" attrs = Some (VStr n)) by now destruct Hres as [? [? [_ [_ [_ ?]]]]].
    destruct (props_reported sp _ c raw (prepare c r) name (VDict attrs) n d Eraw Hin' (resource_of_listed _ _ _ _ Hres) Hty Hpr) as [M1 M2].
    apply (types_of w c r0 Hin r n Hc) in Ht. apply smem_iff in Ht.
    unfold matchall_props in M1, M2. rewrite Ht in M1, M2. cbn [prepare add_types r_match_props r_config r_id negb] in M1, M2.
    rewrite Ep, Hf, (U2 _ _ _ _ _ _ Hf) in M1, M2. exact (silent_by c _ raw _ Hnone M1 M2).
  - intros f n v q Hf Ht (rt & pd & p & (name & attrs & Hres & Hpr & ->) & Hn & Hif).
    destruct (subs_reported sp _ c raw (prepare c r) name rt attrs pd n v q Eraw Hin' Hres Hpr Hn Hif) as [M1 M2].
    apply (subtypes_of w c r0 Hin r n Hc) in Ht. apply smem_iff in Ht.
    unfold matchall_subs in M1, M2. rewrite Ht in M1, M2. cbn [prepare add_types r_match_subs r_config r_id negb] in M1, M2.
    rewrite Es, Hf, (U3 _ _ _ _ _ _ Hf) in M1, M2. exact (silent_by c _ raw _ Hnone M1 M2).
Qed.
Lemma clean_table {A} w sp tr k rg man c id r f g (rts pts : list (string * A)) (check : list (string * val) -> A -> path -> res (list rulematch)) :
  plain_run w sp tr k rg man c [] -> get_directives (c_tmpl c) = Ok [] ->
  selected id false (s_experimental (k_set k)) (s_ignore (k_set k)) (s_include (k_set k)) (s_mandatory (k_set k)) -> rule_is w id r ->
  r_match_props r = Some f -> r_match_subs r = Some g ->
  (forall t, types_seen r c t <-> In t (keys rts)) -> (forall t, subtypes_seen r c t <-> In t (keys pts)) ->
  (forall n a d p, assoc n rts = Some a -> f [] c (VDict d) n p = check d a p) -> (forall n a d p, assoc n pts = Some a -> g [] c (VDict d) n p = check d a p) ->
  forall n d p a, object_with sp rts pts (template c) n d p a -> silent (check d a p).
Proof.
  intros Hrun Hds Hsel Hr Ef Eg HT HU Hf Hg n d p a Ho. destruct (clean_objects _ _ _ _ _ _ _ _ _ Hrun Hds Hsel Hr) as (_ & S1 & S2).
  destruct Ho as [[H1 H2]|[H1 H2]].
  - rewrite <- (Hf _ _ _ _ H2). apply (S1 _ _ _ _ Ef); [|exact H1]. apply HT. exact (in_key _ _ _ H2).
  - rewrite <- (Hg _ _ _ _ H2). apply (S2 _ _ _ _ Eg); [|exact H1]. apply HU. exact (in_key _ _ _ H2).
Qed.
Lemma silent_says x (P : rulematch -> Prop) : silent x -> says x P -> forall m, ~ P m.
Proof. intros [E|E] [ms [K H]] m Hm; rewrite E in K; [|discriminate K]. injection K as <-. exact (proj2 (H m) Hm). Qed.

(** * Missing properties *)
Lemma silent_required props required p : silent (required_check (VDict props) required p) ->
  forall name v q, In name required -> branch (VDict props) p v q -> has_members v /\ ~ lacks v name.
Proof.
  intros S.
  assert (F : required <> [] -> all_members (VDict props) p).
  { intros Hne v q Hb. assert (Hd : has_members v \/ ~ has_members v) by (unfold has_members; destruct v; eauto; right; intros [[? ?]|[[? ?]|[? ?]]]; discriminate).
    destruct Hd as [Hd|Hd]; [exact Hd|]. rewrite (required_fails required props p v q Hne Hb Hd) in S. destruct S as [S|S]; discriminate S. }
  intros name v q Hn Hb. assert (Hne : required <> []) by (intros ->; destruct Hn). split; [exact (F Hne v q Hb)|].
  intros Hl. apply (silent_says _ _ S (required_objects required props p (F Hne)) (mkRM q ("Property " ++ name ++ " missing at " ++ path_text q))). exists v, q, name. auto.
Qed.
Lemma concat_silent {X} (f : X -> res (list rulematch)) l : silent (concat_res f l) -> (exists x, In x l /\ f x = Err ETemplateAttribute) \/ forall x, In x l -> f x = Ok [].
Proof.
  intros [E|E]; [right | left; exact (concat_error f l _ E)].
  exact (concat_nothing f l E).
Qed.
Section Main.
Variables (w : world) (sp : spec) (tr : translator) (k : collection) (rg man : list string) (c : cfn).
Hypothesis (Hrun : plain_run w sp tr k rg man c []) (Hds : get_directives (c_tmpl c) = Ok []).
Hypothesis (Hsel : forall id, In id filling_rules -> selected id false (s_experimental (k_set k)) (s_ignore (k_set k)) (s_include (k_set k)) (s_mandatory (k_set k))).
Local Notation rs := (w_rspec w).
Local Notation t := (template c).
Let Hw : wf t.
Proof using Hrun. exact (proj1 (proj2 (proj2 (proj2 (proj2 (proj2 (proj2 (proj2 (proj2 Hrun))))))))). Qed.

Lemma filled_missing : types_are_texts t -> nothing_missing sp t rs.
Proof using Hrun Hds Hsel.
  intros Ht. assert (R : rule_is w "E3003" (required_rule rs)) by is_rule.
  destruct (clean_objects w sp tr k rg man c "E3003" (required_rule rs) Hrun Hds (Hsel "E3003" ltac:(cbn; tauto)) R) as (S0 & _ & _).
  specialize (S0 _ eq_refl). cbn beta in S0. split.
  - intros n d p specs name ps v q Ho Hi Hr Hb.
    assert (S : silent (required_check (VDict d) (required_attrs specs) p)).
    { refine (clean_table w sp tr k rg man c "E3003" (required_rule rs) _ _ (rs_resource_types rs) (rs_property_types rs) (fun d a p => required_check (VDict d) (required_attrs a) p) Hrun Hds (Hsel "E3003" ltac:(cbn; tauto)) R eq_refl eq_refl _ _ _ _ n d p specs Ho).
      - listed.
      - listed.
      - intros n0 a d0 p0 E. cbn beta. unfold required_props, specs_of. now rewrite E.
      - intros n0 a d0 p0 E. cbn beta. unfold required_subs, specs_of. now rewrite E. }
    apply (silent_required _ _ _ S name v q); [|exact Hb]. unfold required_attrs, keys. apply in_map_iff. exists (name, ps). split; [reflexivity|]. apply filter_In. auto.
  - unfold required_match in S0. apply concat_silent in S0 as [[[name v] [Hi E]]|S0].
    + left. unfold required_custom in E. cbn [fst snd] in E. destruct v as [| | | | | |attrs]; try discriminate E.
      destruct (assoc "Properties" attrs) as [x|] eqn:Ep; [|discriminate E]. destruct (assoc "Type" attrs) as [ty|] eqn:Et; [|discriminate E].
      assert (Z : exists rt, ty = VStr rt).
      { unfold get_resources, vget_def in Hi. destruct t as [| | | | | |top] eqn:Etop; try destruct Hi. destruct (assoc "Resources" top) as [[| | | | | |rs0]|] eqn:E0; try destruct Hi.
        apply filter_In in Hi as [Hi K]. cbn [snd] in K. rewrite Et in K. destruct (Ht top rs0 name attrs ty eq_refl E0 Hi Et) as [->|H]; [discriminate K | exact H]. }
      destruct Z as [rt ->]. destruct (starts_with "Custom::" rt && negb (mem_assoc rt (rs_resource_types rs)))%bool eqn:Ec; [|discriminate E].
      assert (Hc : custom_type rs rt).
      { apply Bool.andb_true_iff in Ec as [E1 E2]. split; [apply prefix_iff; exact E1|]. intros K. apply mem_assoc_iff in K. rewrite K in E2. discriminate E2. }
      exists name, rt, attrs. assert (Z : exists s, x = VStr s).
      { unfold required_check in E. destruct x as [| | | |s|l|d]; try discriminate E; [eauto | |]; exfalso; cbn [obj_items_safe bind] in E; apply concat_error in E as [[y q] [_ E]];
          unfold required_obj in E; apply concat_error in E as [z [_ E]]; cbn [fst snd] in E; destruct y; cbn in E; discriminate E. }
      destruct Z as [s ->]. exists s. split; [exact (listed_resource_of _ _ _ _ Hi Et) | auto].
    + right. intros rt d p name v q (rname & attrs & Hres & Hpr & ->) Hc Hq Hb. pose proof (resource_of_listed _ _ _ _ Hres) as Hi. specialize (S0 _ Hi).
      unfold required_custom in S0. cbn [fst snd] in S0. assert (Hty : assoc "Type" attrs = Some (VStr rt)) by now destruct Hres as [? [? [_ [_ [_ ?]]]]].
      rewrite Hpr, Hty in S0. assert (Ec : (starts_with "Custom::" rt && negb (mem_assoc rt (rs_resource_types rs)))%bool = true).
      { destruct Hc as [H1 H2]. apply andb_true_iff. split; [apply prefix_iff; exact H1|]. apply negb_true_iff. destruct (mem_assoc rt (rs_resource_types rs)) eqn:E; [|reflexivity]. apply mem_assoc_iff in E. contradiction. }
      rewrite Ec in S0. apply (silent_required d _ _ (or_introl S0) name v q); [|exact Hb]. now apply required_attrs_in.
Qed.

(** * Values and sizes *)
Ltac table id r check H := refine (clean_table w sp tr k rg man c id r _ _ _ _ check Hrun Hds (Hsel id ltac:(cbn; tauto)) _ eq_refl eq_refl _ _ _ _ _ _ _ _ H);
  [is_rule | listed | listed | intros ? ? ? ? E_; cbn beta; unfold specs_of, table_of; rewrite E_; reflexivity | intros ? ? ? ? E_; cbn beta; unfold specs_of, table_of; rewrite E_; reflexivity].
Lemma filled_allowed : ~ In "" (keys (w_values w)) -> values_allowed sp t rs (w_values w) (py_str (w_str w)).
Proof using Hrun Hds Hsel.
  intros Hv n d p specs prop x r ps vr v q Ho H1 H2 H3 H4 H5 H6 H7 H8 H9.
  assert (S : silent (allowed_value_check (w_values w) (w_str w) (VDict d) specs p)) by (table "E3030" (allowed_value_rule (w_hash w) (w_fuel w) (w_str w) rs (w_values w)) (fun d a p => allowed_value_check (w_values w) (w_str w) (VDict d) a p) Ho).
  destruct (in_dec string_dec (py_str (w_str w) v) (vr_allowed vr)) as [Y|N]; [exact Y|]. exfalso.
  eapply (silent_says _ _ S (c57_allowed (w_values w) (w_str w) d specs p Hv H1 H2)). exists prop, x, r, ps, vr, v, q. repeat (split; [eassumption|]). reflexivity.
Qed.
Lemma filled_patterns : ~ In "" (keys (w_values w)) -> values_match sp t rs (w_values w) (py_str (w_str w)) (w_matches w).
Proof using Hrun Hds Hsel.
  intros Hv n d p specs prop x r ps vr v q Ho H1 H2 H3 H4 H5 H6 H7 H8 H9.
  assert (S : silent (allowed_pattern_check (w_values w) (w_str w) (w_matches w) (VDict d) specs p)) by (table "E3031" (allowed_pattern_rule (w_hash w) (w_fuel w) (w_str w) (w_matches w) rs (w_values w)) (fun d a p => allowed_pattern_check (w_values w) (w_str w) (w_matches w) (VDict d) a p) Ho).
  destruct (w_matches w (vr_pattern vr) (py_str (w_str w) v)) eqn:E; [reflexivity|]. exfalso.
  eapply (silent_says _ _ S (c58_pattern (w_values w) (w_str w) (w_matches w) d specs p Hv H1 H2)). exists prop, x, r, ps, vr, v, q. repeat (split; [eassumption|]). reflexivity.
Qed.
Lemma within_dec lo hi n : within lo hi n \/ ~ within lo hi n.
Proof. unfold within. lia. Qed.
Lemma filled_lists : (forall l, Permutation (w_order w l) l) -> ~ In "" (keys (rs_value_types rs)) -> lists_fit sp t rs.
Proof using Hrun Hds Hsel.
  intros Hor Hv n d p specs e q prop ps lo hi l Ho H1 H2 H3 H4 H5 H6.
  assert (S : silent (list_size_check (w_order w) (load (w_hash w) (w_fuel w) t) rs (VDict d) specs p)) by (table "E3032" (list_size_rule (w_hash w) (w_order w) (w_fuel w) rs) (fun d a p => list_size_check (w_order w) (load (w_hash w) (w_fuel w) t) rs (VDict d) a p) Ho).
  destruct (within_dec lo hi (List.length l)) as [Y|N]; [exact Y|]. exfalso.
  eapply (silent_says _ _ S (c29_list_plain (w_order w) _ rs d specs p Hor Hv H1 H2)). exists e, q, prop, ps, lo, hi, l. repeat (split; [eassumption|]). reflexivity.
Qed.
Lemma filled_texts : ~ In "" (keys (rs_value_types rs)) -> texts_fit sp t rs.
Proof using Hrun Hds Hsel.
  intros Hv n d p specs prop ps x lo hi s q Ho H1 H2 H3 H4 H5 H6 H7 H8 H9.
  assert (S : silent (string_size_check rs (VDict d) specs p)) by (table "E3033" (string_size_rule (w_hash w) (w_fuel w) rs) (fun d a p => string_size_check rs (VDict d) a p) Ho).
  destruct (within_dec lo hi (String.length s)) as [Y|N]; [exact Y|]. exfalso.
  eapply (silent_says _ _ S (c29_string rs d specs p Hv H1 H2 (object_keys _ _ _ _ _ _ _ _ Hw Ho) H3)). exists prop, ps, x, lo, hi, s, q. repeat (split; [eassumption|]). reflexivity.
Qed.
Lemma filled_numbers : ~ In "" (keys (rs_value_types rs)) -> numbers_fit sp t rs (w_py_float w).
Proof using Hrun Hds Hsel.
  intros Hv n d p specs prop ps x lo hi v q Ho H1 H2 H3 H4 H5 H6 H7 H8.
  assert (S : silent (number_size_check (w_py_float w) rs (VDict d) specs p)) by (table "E3034" (number_size_rule (w_hash w) (w_fuel w) (w_py_float w) rs) (fun d a p => number_size_check (w_py_float w) rs (VDict d) a p) Ho).
  eapply (silent_says _ _ S (c29_number (w_py_float w) rs d specs p Hv H1 H2 (object_keys _ _ _ _ _ _ _ _ Hw Ho) H3)). exists prop, ps, x, lo, hi, v, q. repeat (split; [eassumption|]). reflexivity.
Qed.

(** * Groups *)
Lemma filled_excluded : (forall l, Permutation (w_order w l) l) -> none_excluded sp t (fst (w_exclusive w)) (snd (w_exclusive w)).
Proof using Hrun Hds Hsel.
  intros Hor n d p a d' k0 e Ho H1 H2 H3 H4 H5 [H6 H7].
  assert (S : silent (exclusive_check (w_order w) (load (w_hash w) (w_fuel w) t) (VDict d) a p)) by (table "E2520" (exclusive_rule (w_hash w) (w_order w) (w_fuel w) (fst (w_exclusive w)) (snd (w_exclusive w))) (fun d a p => exclusive_check (w_order w) (load (w_hash w) (w_fuel w) t) (VDict d) a p) Ho).
  eapply (silent_says _ _ S (c28_exclusive_plain (w_order w) _ d d' a p Hor H1 H2 H3 H4)). exists k0, e. split; [exact H5|]. split; [split; assumption | reflexivity].
Qed.
Lemma filled_alone : (forall l, Permutation (w_order w l) l) -> none_alone sp t (fst (w_inclusive w)) (snd (w_inclusive w)).
Proof using Hrun Hds Hsel.
  intros Hor n d p a d' k0 e Ho H1 H2 H3 H4 H5 H6.
  assert (S : silent (inclusive_check (w_order w) (load (w_hash w) (w_fuel w) t) (VDict d) a p)) by (table "E2521" (inclusive_rule (w_hash w) (w_order w) (w_fuel w) (fst (w_inclusive w)) (snd (w_inclusive w))) (fun d a p => inclusive_check (w_order w) (load (w_hash w) (w_fuel w) t) (VDict d) a p) Ho).
  destruct (in_dec string_dec e (keys d')) as [Y|N]; [exact Y|]. exfalso.
  eapply (silent_says _ _ S (c28_inclusive_plain (w_order w) _ d d' a p Hor H1 H2 H3 H4)). exists k0, e. split; [exact H5|]. split; [split; assumption | reflexivity].
Qed.
Lemma filled_given : (forall l, Permutation (w_order w l) l) -> each_group_given sp t (fst (w_at_least_one w)) (snd (w_at_least_one w)).
Proof using Hrun Hds Hsel.
  intros Hor n d p a e q group Ho (H1 & H2 & H3) H4 H5.
  assert (S : silent (at_least_one_check (w_order w) (load (w_hash w) (w_fuel w) t) (VDict d) a p)) by (table "E2522" (at_least_one_rule (w_hash w) (w_order w) (w_fuel w) (fst (w_at_least_one w)) (snd (w_at_least_one w))) (fun d a p => at_least_one_check (w_order w) (load (w_hash w) (w_fuel w) t) (VDict d) a p) Ho).
  destruct (existsb (fun k => smem k (keys e)) group) eqn:E.
  - apply existsb_exists in E as [k0 [K1 K2]]. exists k0. split; [exact K1 | now apply smem_iff].
  - exfalso. eapply (silent_says _ _ S (c28_at_least_plain_stated (w_order w) _ d a p Hor H1 H2 H3)). exists e, q, group. split; [exact H4|]. split; [exact H5|]. split; [|reflexivity].
    intros k0 K1 K2. assert (X : existsb (fun k => smem k (keys e)) group = true) by (apply existsb_exists; exists k0; split; [exact K1 | now apply smem_iff]). congruence.
Qed.
Lemma one_dec group (d : list (string * val)) : NoDup group -> exactly_one group (keys d) \/ ~ exactly_one group (keys d).
Proof.
  intros Hn. assert (Hf : forall k, In k (filter (fun k => mem_assoc k d) group) <-> In k group /\ In k (keys d)) by (intros x; now rewrite filter_In, mem_keys).
  assert (Hnf : NoDup (filter (fun k => mem_assoc k d) group)) by now apply NoDup_filter.
  destruct (filter (fun k => mem_assoc k d) group) as [|a [|b l]].
  - right. intros [x [H1 [H2 _]]]. now destruct (proj2 (Hf x)).
  - left. exists a. destruct (proj1 (Hf a) (or_introl eq_refl)) as [H1 H2]. split; [exact H1|]. split; [exact H2|]. intros k' H3 H4. now destruct (proj2 (Hf k') (conj H3 H4)) as [->|[]].
  - right. intros [x [_ [_ Hx]]]. assert (a = x) by (apply Hx; apply Hf; now left). assert (b = x) by (apply Hx; apply Hf; right; now left). subst. inversion Hnf as [|? ? N]; subst. apply N. now left.
Qed.
Lemma filled_once : (forall l, Permutation (w_order w l) l) -> each_group_once sp t (fst (w_only_one w)) (snd (w_only_one w)).
Proof using Hrun Hds Hsel.
  intros Hor n d p a e q group Ho (H1 & H2 & H3) H4 H5.
  assert (S : silent (only_one_check (w_order w) (load (w_hash w) (w_fuel w) t) (VDict d) a p)) by (table "E2523" (only_one_rule (w_hash w) (w_order w) (w_fuel w) (fst (w_only_one w)) (snd (w_only_one w))) (fun d a p => only_one_check (w_order w) (load (w_hash w) (w_fuel w) t) (VDict d) a p) Ho).
  destruct (one_dec group e (proj1 (proj2 (H2 _ H5)))) as [Y|N]; [exact Y|]. exfalso.
  eapply (silent_says _ _ S (c28_only_one_plain_stated (w_order w) _ d a p Hor H1 H2 H3)). exists e, q, group. split; [exact H4|]. split; [exact H5|]. split; [exact N | reflexivity].
Qed.
End Main.
Lemma c108_filled w sp tr k rg man c : plain_run w sp tr k rg man c [] -> get_directives (c_tmpl c) = Ok [] ->
  (forall id, In id filling_rules -> selected id false (s_experimental (k_set k)) (s_ignore (k_set k)) (s_include (k_set k)) (s_mandatory (k_set k))) ->
  types_are_texts (template c) -> (forall l, Permutation (w_order w l) l) -> ~ In "" (keys (w_values w)) -> ~ In "" (keys (rs_value_types (w_rspec w))) ->
  let text := py_str (w_str w) in
  nothing_missing sp (template c) (w_rspec w) /\
  values_allowed sp (template c) (w_rspec w) (w_values w) text /\ values_match sp (template c) (w_rspec w) (w_values w) text (w_matches w) /\
  lists_fit sp (template c) (w_rspec w) /\ texts_fit sp (template c) (w_rspec w) /\ numbers_fit sp (template c) (w_rspec w) (w_py_float w) /\
  none_excluded sp (template c) (fst (w_exclusive w)) (snd (w_exclusive w)) /\ none_alone sp (template c) (fst (w_inclusive w)) (snd (w_inclusive w)) /\
  each_group_given sp (template c) (fst (w_at_least_one w)) (snd (w_at_least_one w)) /\ each_group_once sp (template c) (fst (w_only_one w)) (snd (w_only_one w)).
Proof.
  intros Hrun Hds Hsel Ht Hor Hv Hv' text.
  split; [exact (filled_missing w sp tr k rg man c Hrun Hds Hsel Ht)|]. split; [exact (filled_allowed w sp tr k rg man c Hrun Hds Hsel Hv)|].
  split; [exact (filled_patterns w sp tr k rg man c Hrun Hds Hsel Hv)|]. split; [exact (filled_lists w sp tr k rg man c Hrun Hds Hsel Hor Hv')|].
  split; [exact (filled_texts w sp tr k rg man c Hrun Hds Hsel Hv')|]. split; [exact (filled_numbers w sp tr k rg man c Hrun Hds Hsel Hv')|].
  split; [exact (filled_excluded w sp tr k rg man c Hrun Hds Hsel Hor)|]. split; [exact (filled_alone w sp tr k rg man c Hrun Hds Hsel Hor)|].
  split; [exact (filled_given w sp tr k rg man c Hrun Hds Hsel Hor) | exact (filled_once w sp tr k rg man c Hrun Hds Hsel Hor)].
Qed.
