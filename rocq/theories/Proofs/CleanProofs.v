(** What a report without findings guarantees (C106). *)
From Coq Require Import List String Bool ZArith Permutation.
From Verif.Model Require Import Base Node Locate Helpers Rules Runner Config Core Search Refs ConditionRules Limits Shape Parameters Standard.
From Verif.Spec Require Import Pipeline Paths Limited ConditionUse Faults Shipped Crashes Silence Clean.
From Verif.Proofs Require Import BaseFacts SearchProofs RelationRule PipelineProofs RunProofs ReportProofs ConditionUseProofs ShapeProofs
  RuleSetProofs RuleSetMain RuleSetLint StandardProofs StandardRules CrashProofs SilenceProofs.
Import Verif.Model.Rules.
Import ListNotations.
Local Open Scope string_scope.

(** * A selected rule that finds something is heard *)
Lemma location_error : forall p t e, get_location t p = Err e -> e <> ETemplateAttribute.
Proof.
  assert (Hm : forall t pe e, mindex t pe = Err e -> e <> ETemplateAttribute).
  { intros t pe e H. destruct t as [v|m s|m l|m d], pe as [k|n]; cbn [mindex] in H;
      try (destruct v); try (destruct (String.get n s)); try (destruct (nth_error l n)); try (destruct (massoc k d)); congruence. }
  assert (Hs : forall t pe e, scan_key t pe = Err e -> e <> ETemplateAttribute).
  { intros t pe e H. destruct t; cbn [scan_key] in H; congruence. }
  induction p as [|a p IH]; intros t e H; [cbn [get_location] in H; congruence|].
  destruct p as [|b p].
  - cbn [get_location] in H. destruct t as [v|m s|m l|m d], a as [k|n]; try (destruct v); try (destruct (nth_error l n)); try congruence; exact (Hs _ _ _ H).
  - change (match (match mindex t a with Ok sub => get_location sub (b :: p) | Err e0 => Err e0 end) with
            | Ok (Some m) => Ok (Some m)
            | Ok None | Err EKey | Err ETypeErr => match t with MScalar (VStr _) => Ok None | _ => scan_key t a end
            | Err e0 => Err e0
            end = Err e) in H.
    destruct (mindex t a) as [sub|e0] eqn:E.
    + destruct (get_location sub (b :: p)) as [[m|]|e1] eqn:E'; [congruence | |].
      * destruct t as [v| | |]; try (destruct v); try congruence; exact (Hs _ _ _ H).
      * pose proof (IH _ _ E') as K. destruct e1; try congruence; destruct t as [v| | |]; try (destruct v); try congruence; exact (Hs _ _ _ H).
    + pose proof (Hm _ _ _ E) as K. destruct e0; try congruence; destruct t as [v| | |]; try (destruct v); try congruence; exact (Hs _ _ _ H).
Qed.
Lemma locate_error c id m e : locate_match c id m = Err e -> e <> ETemplateAttribute.
Proof.
  unfold locate_match. destruct (get_location (c_tmpl c) (rm_path m)) as [[k|]|e0] eqn:E; cbn [bind]; intros H; try discriminate H.
  injection H as <-. exact (location_error _ _ _ E).
Qed.
Lemma map_locate_error c id : forall ms e, map_res (locate_match c id) ms = Err e -> e <> ETemplateAttribute.
Proof.
  induction ms as [|m ms IH]; intros e H; [discriminate H|]. cbn [map_res] in H. destruct (locate_match c id m) as [fi|e0] eqn:E; cbn [bind] in H.
  - destruct (map_res (locate_match c id) ms) as [fs|e1]; cbn [bind] in H; [discriminate H|]. injection H as <-. exact (IH _ eq_refl).
  - injection H as <-. exact (locate_error _ _ _ _ E).
Qed.
Lemma clean_check w sp tr k rg man c id f : plain_run w sp tr k rg man c [] -> get_directives (c_tmpl c) = Ok [] ->
  selected id false (s_experimental (k_set k)) (s_ignore (k_set k)) (s_include (k_set k)) (s_mandatory (k_set k)) ->
  checks_by w c id f -> f = Ok [] \/ f = Err ETemplateAttribute.
Proof.
  intros (Hw & Ho & Hsp & He & Hnt & _ & _ & Hdict & _ & Hrun) Hds Hsel (Hid & r0 & g & Hr & Hex & Hm & Hp & Hs & Hg).
  apply rule_by_id_in in Hr as [Hin Eid].
  destruct (run_checks_cases sp tr k rg man c) as [[K _]|[(_ & K & _)|(_ & _ & K)]]; [congruence | congruence |].
  rewrite Hnt, Hrun in K. injection K as K. rewrite reports_body in K.
  assert (He0 : e0002_on (k_set (initialize_all k c))) by (apply is_enabled_spec; exact He).
  destruct (run_body_total sp (initialize_all k c) c Hsp He0) as [raw Eraw]. rewrite Eraw, Hds in K.
  assert (Hnone : forall fi, ~ In fi raw).
  { intros fi Hfi. assert (S : ~ suppressed man [] fi) by (unfold suppressed; intros [[d [[] _]] _]).
    destruct (report_complete man [] raw fi Hfi S) as [u [Hu _]].
    apply (Permutation_in _ (Permutation_sym (sort_perm _))) in Hu. rewrite <- K in Hu. destruct Hu. }
  destruct (proj1 Hw r0 Hin) as [r [Hr Hc]].
  assert (Hin' : In (prepare c r) (rules (initialize_all k c))).
  { apply init_In. exists r. split; [|reflexivity]. apply filter_In. split; [exact Hr|]. destruct Hc as (Ei & Ex & _).
    unfold enabled. rewrite Ei, Ex, Eid, Hex. apply is_enabled_spec. exact Hsel. }
  destruct (match_reported _ _ _ _ _ Eraw Hin') as [M1 M2]. destruct Hc as (Ei & _ & _ & _ & Em & _).
  unfold matchall in M1, M2. cbn [prepare add_types r_match r_config r_id] in M1, M2. rewrite Em, Hm, Hg, Ei in M1, M2.
  destruct f as [ms|e]; cbn [bind] in M1, M2.
  - left. destruct ms as [|m ms]; [reflexivity|]. exfalso.
    destruct (map_res (locate_match c (r_id r0)) (m :: ms)) as [fs|e] eqn:E.
    + pose proof (M1 fs eq_refl) as I1. cbn [map_res] in E. destruct (locate_match c (r_id r0) m) as [fi|]; cbn [bind] in E; [|discriminate E].
      destruct (map_res (locate_match c (r_id r0)) ms); cbn [bind] in E; [|discriminate E]. injection E as <-. exact (Hnone fi (I1 fi (or_introl eq_refl))).
    + exact (Hnone _ (M2 e eq_refl (map_locate_error _ _ _ _ E))).
  - right. destruct e; try reflexivity; exfalso; (eapply Hnone; apply (M2 _ eq_refl); discriminate).
Qed.

(** * The sections *)
Lemma concat_error {A B} (f : A -> res (list B)) l e : concat_res f l = Err e -> exists x, In x l /\ f x = Err e.
Proof.
  induction l as [|y l IH]; cbn [concat_res]; [discriminate|]. destruct (f y) as [a|e0] eqn:E; cbn [bind].
  - destruct (concat_res f l) as [b|e1]; cbn [bind]; [discriminate|]. intros [= <-]. destruct (IH eq_refl) as [x [Hx Ex]]. exists x. split; [now right | exact Ex].
  - intros [= <-]. exists y. split; [now left | exact E].
Qed.
Lemma concat_nothing {A B} (f : A -> res (list B)) l : concat_res f l = Ok [] -> forall x, In x l -> f x = Ok [].
Proof.
  induction l as [|y l IH]; cbn [concat_res]; [intros _ x []|]. destruct (f y) as [a|e0] eqn:E; cbn [bind]; [|discriminate].
  destruct (concat_res f l) as [b|e1]; cbn [bind]; [|discriminate]. intros [= H]. apply app_eq_nil in H as [-> ->].
  intros x [<-|Hx]; [exact E | exact (IH eq_refl x Hx)].
Qed.
Lemma get_def d k x : vget_def k x (VDict d) = Ok (match assoc k d with Some v => v | None => x end).
Proof. unfold vget_def. destruct (assoc k d); reflexivity. Qed.
Lemma empty_or v : empty v \/ truthy v = true.
Proof. destruct (truthy v) eqn:E; [now right | left; now apply truthy_spec]. Qed.
Lemma items_cases v r : ConditionRules.items_of v = r -> (exists d, v = VDict d /\ r = Ok d) \/ no_object v \/ r = Err EAttribute.
Proof. intros <-. destruct v as [|b|z|q|s|l|d]; cbn; unfold no_object; eauto. Qed.
Lemma cbool (b : bool) : b = true \/ b = false.
Proof. destruct b; auto. Qed.

Lemma clean_parameters d v : assoc "Parameters" d = Some v ->
  (parameter_configuration_match (VDict d) = Ok [] \/ parameter_configuration_match (VDict d) = Err ETemplateAttribute) ->
  in_name_only v \/ exists ps, v = VDict ps /\ objects_that proper_parameter ps.
Proof.
  intros E H. destruct (empty_or v) as [Hv|Hv]; [left; now left|].
  assert (G : get_parameters (VDict d) = Ok v) by (unfold get_parameters; rewrite get_def, E; cbn [bind]; now rewrite Hv).
  unfold parameter_configuration_match in H. rewrite G in H. cbn [bind] in H.
  destruct (items_cases v _ eq_refl) as [(ps & -> & Ei)|[Hno|Ei]]; [|left; now right | rewrite Ei in H; cbn [bind] in H; destruct H; discriminate].
  right. exists ps. split; [reflexivity|]. cbn [ConditionRules.items_of bind] in H. destruct H as [H|H].
  - right. assert (O : forall n x, In (n, x) ps -> exists def, x = VDict def).
    { intros n x Hi. pose proof (concat_nothing _ _ H _ Hi) as K. unfold parameter_one in K. cbn [snd fst] in K.
      destruct x; try discriminate K. eauto. }
    destruct (parameters_spec (VDict d) ps (ex_intro _ d (conj eq_refl E)) O) as [ms [E2 K]].
    unfold parameter_configuration_match in E2. rewrite G in E2. cbn [bind ConditionRules.items_of] in E2. rewrite H in E2. injection E2 as <-.
    intros n x Hi. destruct (O n x Hi) as [def ->]. exists def. split; [reflexivity|]. intros p m Hf. destruct (proj2 (K (mkRM p m))). eauto.
  - left. apply concat_error in H as [[n x] [Hi Hx]]. exists n, x. split; [exact Hi|]. unfold parameter_one in Hx. cbn [snd fst] in Hx.
    destruct (items_cases x _ eq_refl) as [(def & -> & ?)|[Hno|Ex]]; [discriminate Hx | exact Hno | rewrite Ex in Hx; discriminate Hx].
Qed.
Lemma value_fault_text text text' p p' v m : value_fault text p v m -> exists m', value_fault text' p' v m'.
Proof. intros H. inversion H; subst; [eexists; constructor; assumption | eexists; constructor]. Qed.
Lemma clean_outputs text d v : assoc "Outputs" d = Some v ->
  (output_configuration_match text (VDict d) = Ok [] \/ output_configuration_match text (VDict d) = Err ETemplateAttribute) ->
  (output_required_match (VDict d) = Ok [] \/ output_required_match (VDict d) = Err ETemplateAttribute) ->
  empty v \/ exists os, v = VDict os /\ objects_that proper_output os.
Proof.
  intros E H1 H2. destruct (empty_or v) as [Hv|Hv]; [now left|]. right.
  unfold output_configuration_match in H1. rewrite get_def, E in H1. cbn [bind] in H1.
  destruct v as [|b|z|q|s|l|os]; try (rewrite Hv in H1; destruct H1 as [H1|H1]; discriminate H1).
  exists os. split; [reflexivity|]. destruct H1 as [H1|H1].
  - right. assert (O : forall n x, In (n, x) os -> exists def, x = VDict def).
    { intros n x Hi. pose proof (concat_nothing _ _ H1 _ Hi) as K. unfold output_one in K. cbn [snd fst] in K. destruct x; try discriminate K. eauto. }
    destruct (required_spec (VDict d) os (ex_intro _ d (conj eq_refl E)) O) as [ms [E2 K]].
    destruct H2 as [H2|H2]; [|congruence]. assert (ms = []) by congruence. subst ms.
    intros n x Hi. destruct (O n x Hi) as [def ->]. exists def. split; [reflexivity|].
    pose proof (concat_nothing _ _ H1 _ Hi) as Q. unfold output_one in Q. cbn [snd fst members_then_get bind] in Q. injection Q as Q.
    apply app_eq_nil in Q as [Q1 Q]. apply app_eq_nil in Q as [Q2 _]. split; [|split].
    + intros kk Hk. apply in_map_iff in Hk as [[a b] [<- Hk]]. cbn [fst].
      destruct (cbool (smem a Shape.output_keys)) as [S|S]; [apply smem_in in S; exact S|]. exfalso.
      match type of Q1 with ?F = _ => assert (X : In (mkRM [PKey "Outputs"; PKey n; PKey a] ("Output " ++ n ++ " has invalid property " ++ a)) F) end.
      { apply in_flat_map. exists (a, b). split; [exact Hk|]. cbv beta. change (fst (a, b)) with a. clear -S. match goal with |- In _ (if ?b then _ else _) => replace b with false by exact (eq_sym S) end. now left. }
      rewrite Q1 in X. destruct X.
    + destruct (in_dec string_dec "Value" (map fst def)) as [Y|N]; [exact Y|]. exfalso.
      destruct (proj2 (K (mkRM [PKey "Outputs"; PKey n; PKey "Value"] ("Output " ++ n ++ " is missing property Value")))). eauto 6.
    + intros v Ev Hne text' p m Hf. rewrite Ev in Q2. rewrite (proj2 (truthy_not v) Hne) in Q2.
      destruct (value_fault_text _ text _ [PKey "Outputs"; PKey n; PKey "Value"] _ _ Hf) as [m' Hf'].
      pose proof (proj2 (check_func_spec text v [PKey "Outputs"; PKey n; PKey "Value"] (mkRM _ m') Hne) (ex_intro _ m' (conj Hf' eq_refl))) as X.
      rewrite Q2 in X. destruct X.
  - left. apply concat_error in H1 as [[n x] [Hi Hx]]. exists n, x. split; [exact Hi|]. unfold output_one in Hx. cbn [snd fst] in Hx.
    destruct x as [| | | |s|l|def]; try discriminate Hx; unfold no_object; eauto.
Qed.
Lemma mapping_fault_text show show' n v p m : mapping_fault show n v p m -> exists m', mapping_fault show' n v p m'.
Proof. intros H. inversion H; subst; eexists; [apply mf_map | eapply mf_first | eapply mf_second]; eauto. Qed.
Lemma clean_mappings show d v : assoc "Mappings" d = Some v ->
  (mapping_configuration_match show (VDict d) = Ok [] \/ mapping_configuration_match show (VDict d) = Err ETemplateAttribute) ->
  in_name_only v \/ exists ms, v = VDict ms /\ forall n x, In (n, x) ms -> forall sh p message, ~ mapping_fault sh n x p message.
Proof.
  intros E H. destruct (empty_or v) as [Hv|Hv]; [left; now left|]. pose proof H as H0.
  unfold mapping_configuration_match in H. rewrite get_def, E in H. cbn [bind] in H. rewrite Hv in H.
  destruct (items_cases v _ eq_refl) as [(ms & -> & Ei)|[Hno|Ei]]; [|left; now right | rewrite Ei in H; cbn [bind] in H; destruct H; discriminate].
  right. exists ms. split; [reflexivity|]. destruct (mappings_spec show (VDict d) ms (ex_intro _ d (conj eq_refl E))) as [rs [E2 K]].
  destruct H0 as [H0|H0]; [|congruence]. assert (rs = []) by congruence. subst rs.
  intros n x Hi sh p m Hf. destruct (mapping_fault_text _ (py_str show) _ _ _ _ Hf) as [m' Hf']. destruct (proj2 (K (mkRM p m'))). eauto.
Qed.
Lemma clean_conditions d v : assoc "Conditions" d = Some v ->
  (configuration_match (VDict d) = Ok [] \/ configuration_match (VDict d) = Err ETemplateAttribute) ->
  in_name_only v \/ exists cs, v = VDict cs /\ forall n x, In (n, x) cs -> condition_object x.
Proof.
  intros E H. destruct (empty_or v) as [Hv|Hv]; [left; now left|].
  unfold configuration_match in H. rewrite get_def, E in H. cbn [bind] in H. rewrite Hv in H.
  destruct (items_cases v _ eq_refl) as [(cs & -> & Ei)|[Hno|Ei]]; [|left; now right | rewrite Ei in H; cbn [bind] in H; destruct H; discriminate].
  right. exists cs. split; [reflexivity|]. cbn [ConditionRules.items_of bind] in H. destruct H as [H|H]; [|discriminate H]. injection H as H.
  intros n x Hi. assert (Z : configuration_check (n, x) = []).
  { destruct (configuration_check (n, x)) as [|m l] eqn:Ec; [reflexivity|]. exfalso.
    assert (X : In m []) by (rewrite <- H; apply in_flat_map; exists (n, x); split; [exact Hi | rewrite Ec; now left]). destruct X. }
  unfold configuration_check in Z. destruct x as [| | | | | |[|[kk y] [|]]]; try discriminate Z.
  destruct (cbool (smem kk condition_keys)) as [S|S]; rewrite S in Z; [|discriminate Z]. exists kk, y. split; [reflexivity|].
  apply smem_in in S. cbn [condition_keys In] in S |- *. tauto.
Qed.

Lemma c106_clean w sp tr k rg man c : plain_run w sp tr k rg man c [] -> get_directives (c_tmpl c) = Ok [] ->
  (forall id, In id section_rules -> selected id false (s_experimental (k_set k)) (s_ignore (k_set k)) (s_include (k_set k)) (s_mandatory (k_set k))) ->
  known_regions (w_specs w) (w_regions w) ->
  well_made (w_specs w) (w_registry_names w) (w_regions w) (template c).
Proof.
  intros Hrun Hds Hsel Hreg.
  pose proof (fun id f Hi => clean_check w sp tr k rg man c id f Hrun Hds (Hsel id Hi)) as Q.
  destruct Hrun as (_ & _ & _ & _ & _ & _ & _ & (m0 & d0 & Et) & _ & _).
  assert (Ed : exists d, template c = VDict d) by (unfold template; rewrite Et; cbn [erase]; eauto).
  destruct Ed as [d Ed].
  pose proof (Q "E1001" (match template c with VDict d => Ok (base_match d) | _ => Err ETemplateAttribute end) ltac:(cbn; tauto) ltac:(by_id)) as Q1.
  pose proof (Q "E1004" (description_match (template c)) ltac:(cbn; tauto) ltac:(by_id)) as Q2.
  pose proof (Q "E2001" (parameter_configuration_match (template c)) ltac:(cbn; tauto) ltac:(by_id)) as Q3.
  pose proof (Q "E3001" (resource_configuration_match (w_specs w) (w_registry_names w) (w_regions w) (template c)) ltac:(cbn; tauto) ltac:(by_id)) as Q4.
  pose proof (Q "E6001" (output_configuration_match (w_funcs_text w) (template c)) ltac:(cbn; tauto) ltac:(by_id)) as Q5.
  pose proof (Q "E6002" (output_required_match (template c)) ltac:(cbn; tauto) ltac:(by_id)) as Q6.
  pose proof (Q "E7001" (mapping_configuration_match (w_str w) (template c)) ltac:(cbn; tauto) ltac:(by_id)) as Q7.
  pose proof (Q "E8001" (configuration_match (template c)) ltac:(cbn; tauto) ltac:(by_id)) as Q8.
  rewrite Ed in *. clear Q. exists d. split; [reflexivity|].
  destruct Q1 as [Q1|Q1]; [|discriminate Q1]. injection Q1 as Q1.
  assert (T : forall p m, ~ template_fault d p m).
  { intros p m Hf. pose proof (proj2 (base_spec d (mkRM p m)) Hf) as X. rewrite Q1 in X. destruct X. }
  split; [|split; [|split; [|split; [|split; [|split]]]]].
  - intros kk Hk. destruct (in_dec string_dec kk sections) as [Y|N]; [exact Y|]. exfalso. eapply T. apply (tf_unknown d kk Hk N).
  - intros v Ev. destruct (description_spec d) as [ms [E2 K]]. destruct Q2 as [Q2|Q2]; [|congruence]. assert (ms = []) by congruence. subst ms.
    destruct (empty_or v) as [Hv|Hv]; [now left|]. right. destruct v as [| | | |s| |]; eauto; exfalso;
      (destruct (proj2 (K (mkRM [PKey "Description"] "Description can only be a string"))); split; [|reflexivity]; eexists; split; [exact Ev|]; split; [discriminate | now apply truthy_not]).
  - assert (Hin : In "Resources" (map fst d)).
    { destruct (in_dec string_dec "Resources" (map fst d)) as [Y|N]; [exact Y|]. exfalso. eapply T. apply (tf_missing d N). }
    destruct (assoc "Resources" d) as [v|] eqn:Ev.
    2:{ exfalso. apply assoc_None in Ev. apply Ev. exact Hin. }
    unfold resource_configuration_match in Q4 at 1 2. rewrite get_def, Ev in Q4. cbn [bind] in Q4.
    destruct v as [| | | | | |rs]; try (destruct Q4; discriminate). exists rs. split; [reflexivity|].
    destruct (resources_spec (w_specs w) (w_registry_names w) (w_regions w) (VDict d) rs (ex_intro _ d (conj eq_refl Ev)) ltac:(right; exact Hreg)) as [ms [E2 K]].
    unfold resource_configuration_match in E2. rewrite get_def, Ev in E2. cbn [bind] in E2.
    destruct Q4 as [Q4|Q4]; [|congruence]. assert (ms = []) by congruence. subst ms.
    intros n v Hi p m Hf. destruct (proj2 (K (mkRM p m))). eauto.
  - intros v Ev. exact (clean_parameters d v Ev Q3).
  - intros v Ev. exact (clean_outputs _ d v Ev Q5 Q6).
  - intros v Ev. exact (clean_mappings _ d v Ev Q7).
  - intros v Ev. exact (clean_conditions d v Ev Q8).
Qed.
