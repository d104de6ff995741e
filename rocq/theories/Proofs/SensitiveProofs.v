(** C62-C64: availability zones, packaged code, passwords and image ids. *)
From Coq Require Import Lia.
From Verif.Model Require Import Base Helpers Node Conditions Search Resolve Rules Refs Relationship Limits Parameters JsonDump PropertyRules Functions ValueRules.
From Verif.Spec Require Import Paths Branches Required References ConditionUse Values Sensitive.
From Verif.Proofs Require Import BaseFacts BranchProofs SearchProofs PropertyRuleProofs GroupProofs SizeProofs RefProofs RelationRule ConditionUseProofs EqualsProofs ValueProofs DynRefProofs.
Import Verif.Model.Rules.
Import ListNotations.
Local Open Scope string_scope.

(** * Values of given keys *)
Lemma keyed_values f props p key : (forall x q, assoc key props = Some x -> ~ alternative x (p ++ [PKey key])%list VNull q) -> (forall w r, exists o, f w r = Ok o) ->
  exists o, check_value (VDict props) key p f [] = Ok o /\
    forall m, In m o <-> exists x w r o', assoc key props = Some x /\ single x (p ++ [PKey key])%list w r /\ ~ is_call w /\ f w r = Ok o' /\ In m o'.
Proof.
  intros Hn Hf. destruct (assoc key props) as [x|] eqn:E.
  - destruct (check_value_calls f [] props key x p E) as [o [Eo Ho]]; [intros q; now apply Hn | intros w r _; now apply handles_plain|].
    exists o. split; [exact Eo|]. intros m. rewrite Ho. split.
    + intros [w [r [Hs Hh]]]. apply handled_plain in Hh as [Hc [o' [Eo' Hm]]]. exists x, w, r, o'. auto.
    + intros [x' [w [r [o' [[= <-] [Hs [Hc [Eo' Hm]]]]]]]]. exists w, r. split; [exact Hs|]. apply handled_plain. eauto.
  - exists []. split; [now apply check_value_absent|]. intros m. split; [intros [] | intros [x' [w [r [o' [[=] _]]]]]].
Qed.
Lemma zone_value_in str_other v p m : (exists o, zone_value str_other v p = Ok o /\ In m o) <-> v <> VStr "all" /\ m = mkRM p ("Don't hardcode " ++ py_str str_other v ++ " for AvailabilityZones").
Proof.
  unfold zone_value. destruct (eq_str "all" v) eqn:E.
  - split; [intros [o [[= <-] []]]|]. intros [H _]. exfalso. apply H. destruct v as [| | | |s| |]; try discriminate. change (String.eqb "all" s = true) in E. apply String.eqb_eq in E. now subst.
  - split; [intros [o [[= <-] [<-|[]]]] | intros [_ ->]; eexists; split; [reflexivity | now left]]. split; [|reflexivity]. intros ->. discriminate.
Qed.
Lemma c62_zones str_other props p : (forall key x q, assoc key props = Some x -> ~ alternative x (p ++ [PKey key])%list VNull q) ->
  exists ms, zone_check str_other (VDict props) p = Ok ms /\
    forall m, In m ms <-> exists key x w r, In key ["AvailabilityZone"; "AvailabilityZones"] /\ assoc key props = Some x /\ single x (p ++ [PKey key])%list w r /\ ~ is_call w /\
      w <> VStr "all" /\ m = mkRM r ("Don't hardcode " ++ py_str str_other w ++ " for AvailabilityZones").
Proof.
  intros Hn. unfold zone_check. assert (Hf : forall w r, exists o, zone_value str_other w r = Ok o) by (intros w r; eexists; reflexivity).
  destruct (keyed_values (zone_value str_other) props p "AvailabilityZone" (Hn _) Hf) as [a [Ea Ha]]. destruct (keyed_values (zone_value str_other) props p "AvailabilityZones" (Hn _) Hf) as [b [Eb Hb]].
  rewrite Ea. cbn [bind]. rewrite Eb. cbn [bind]. eexists. split; [reflexivity|]. intros m. rewrite in_app_iff, Ha, Hb. split.
  - intros [[x [w [r [o [Hx [Hs [Hc [Eo Hm]]]]]]]]|[x [w [r [o [Hx [Hs [Hc [Eo Hm]]]]]]]]]; destruct (proj1 (zone_value_in str_other w r m)) as [H1 H2]; eauto;
      [exists "AvailabilityZone", x, w, r | exists "AvailabilityZones", x, w, r]; (split; [cbn; tauto|]); auto.
  - intros [key [x [w [r [Hk [Hx [Hs [Hc [H1 H2]]]]]]]]]. destruct (proj2 (zone_value_in str_other w r m) (conj H1 H2)) as [o [Eo Hm]].
    destruct Hk as [<-|[<-|[]]]; [left|right]; exists x, w, r, o; auto.
Qed.
Lemma packaged_iff rt key : In key (match assoc rt templated with Some l => l | None => [] end) <-> In (rt, key) packaged.
Proof.
  unfold templated, packaged. cbn [assoc].
  destruct (String.eqb_spec rt "AWS::ApiGateway::RestApi") as [->|N1]; [cbn; intuition congruence|].
  destruct (String.eqb_spec rt "AWS::Lambda::Function") as [->|N2]; [cbn; intuition congruence|].
  destruct (String.eqb_spec rt "AWS::Lambda::LayerVersion") as [->|N3]; [cbn; intuition congruence|].
  destruct (String.eqb_spec rt "AWS::ElasticBeanstalk::ApplicationVersion") as [->|N4]; [cbn; intuition congruence|].
  destruct (String.eqb_spec rt "AWS::StepFunctions::StateMachine") as [->|N5]; [cbn; intuition congruence|].
  cbn. intuition congruence.
Qed.
Lemma c62_packaged rt props p : (forall key x q, assoc key props = Some x -> ~ alternative x (p ++ [PKey key])%list VNull q) ->
  exists ms, templated_check rt (VDict props) p = Ok ms /\
    forall m, In m ms <-> exists key x s r, In (rt, key) packaged /\ assoc key props = Some x /\ single x (p ++ [PKey key])%list (VStr s) r /\
      m = mkRM r ("This code may only work with `package` cli command as the property (" ++ path_text r ++ ") is a string").
Proof.
  intros Hn. unfold templated_check. set (l := match assoc rt templated with Some l => l | None => [] end).
  assert (K : forall key, exists o, check_value (VDict props) key p templated_value [] = Ok o /\
    forall m, In m o <-> exists x w r o', assoc key props = Some x /\ single x (p ++ [PKey key])%list w r /\ ~ is_call w /\ templated_value w r = Ok o' /\ In m o').
  { intros key. apply keyed_values; [apply Hn | intros w r; eexists; reflexivity]. }
  destruct (concat_res_total (fun key => check_value (VDict props) key p templated_value []) l) as [ms E].
  { intros key _. destruct (K key) as [o [Eo _]]. eauto. }
  exists ms. split; [exact E|]. intros m. rewrite (concat_res_ok_iff _ _ _ E). split.
  - intros [key [o [Hk [Eo Hm]]]]. destruct (K key) as [o' [Eo' Ho]]. rewrite Eo in Eo'. injection Eo' as <-. apply Ho in Hm as [x [w [r [o' [Hx [Hs [_ [Et Hm]]]]]]]].
    apply packaged_iff in Hk. destruct w; injection Et as <-; try destruct Hm. subst m. exists key, x, s, r. auto. destruct H.
  - intros [key [x [s [r [Hk [Hx [Hs ->]]]]]]]. destruct (K key) as [o [Eo Ho]]. exists key, o. split; [now apply packaged_iff|]. split; [exact Eo|]. apply Ho.
    exists x, (VStr s), r. eexists. split; [exact Hx|]. split; [exact Hs|]. split; [intros [fn [y [[=] _]]]|]. split; [reflexivity | now left].
Qed.

(** * Passwords *)
Section Password.
Variable template globals : val.
Hypothesis Hwf : wf template.
Hypothesis Hgw : wf globals.
Hypothesis Hpl : plain_sections template.

Lemma parameters_section : exists m, vget_def "Parameters" (VDict []) template = Ok (VDict m) /\
    (forall n, In n (keys m) -> exists o, vget "Parameters" template = Ok (VDict m) /\ assoc n m = Some (VDict o) /\ defined_in "Parameters" template n o) /\
    (forall n o, defined_in "Parameters" template n o -> assoc n m = Some (VDict o)).
Proof using Hwf Hpl.
  destruct Hpl as [d [-> H]]. cbn [vget_def vget]. destruct (assoc "Parameters" d) as [s|] eqn:E.
  - destruct (H "Parameters" s (or_introl eq_refl) E) as [m [-> Hm]]. exists m. split; [reflexivity|]. split.
    + intros n Hn. apply assoc_Some_key in Hn as [x Hx]. destruct (Hm n x (assoc_In _ _ _ Hx)) as [o [-> _]]. exists o. split; [reflexivity|]. split; [exact Hx|]. exists d, m. auto.
    + intros n o [d' [s' [[= <-] [E1 E2]]]]. rewrite E in E1. injection E1 as <-. exact E2.
  - exists []. split; [reflexivity|]. split; [intros n []|]. intros n o [d' [s' [[= <-] [E1 E2]]]]. congruence.
Qed.
Lemma password_parameter_in names n : get_parameter_names template = Ok names ->
  exists l, password_parameter template names (VStr n) = Ok l /\ forall n', In n' l <-> n' = n /\ echoed template n.
Proof using Hwf Hpl.
  intros En. destruct parameters_section as [m [E [H1 H2]]]. unfold get_parameter_names in En. rewrite E in En. cbn [bind] in En. injection En as <-.
  unfold password_parameter. destruct (smem n (keys m)) eqn:Es.
  - apply smem_iff in Es. destruct (H1 n Es) as [o [Ev [Ea Ho]]]. rewrite Ev. cbn [bind vget]. rewrite Ea. cbn [bind py_member]. unfold mem_assoc.
    assert (Hu : forall o', defined_in "Parameters" template n o' -> o' = o) by (intros o' Ho'; apply H2 in Ho'; congruence).
    destruct (assoc "NoEcho" o) as [x|] eqn:Ex; cbn [bind].
    + rewrite ?Ex. eexists. split; [reflexivity|]. intros n'. destruct (truthy x) eqn:Et.
      * split; [intros []|]. intros [_ [o' [Ho' Hx]]]. rewrite (Hu o' Ho') in Hx. specialize (Hx x Ex). congruence.
      * split; [intros [<-|[]]; split; [reflexivity|]; exists o; split; [exact Ho|]; intros y Ey; congruence | intros [-> _]; now left].
    + eexists. split; [reflexivity|]. intros n'. split; [intros [<-|[]]; split; [reflexivity|]; exists o; split; [exact Ho|]; intros y Ey; congruence | intros [-> _]; now left].
  - exists []. split; [reflexivity|]. intros n'. split; [intros []|]. intros [_ [o [Ho _]]]. apply H2 in Ho. exfalso. apply not_true_iff_false in Es. apply Es, smem_iff, assoc_Some_key. eauto.
Qed.
Definition findings (prop : string) (r : list rulematch * list string) : list rulematch := (fst r ++ map (echo_match prop) (snd r))%list.
Lemma password_value_in names prop q v : get_parameter_names template = Ok names ->
  exists r, password_value template names q v = Ok r /\ forall m, In m (findings prop r) <-> exists at_ words, password_fault template prop q v at_ words /\ m = mkRM at_ words.
Proof using Hwf Hpl.
  intros En.
  assert (Hnone : (forall at_ words, ~ password_fault template prop q v at_ words) -> password_value template names q v = Ok ([], []) -> exists r, password_value template names q v = Ok r /\ forall m, In m (findings prop r) <-> exists at_ words, password_fault template prop q v at_ words /\ m = mkRM at_ words).
  { intros H E. exists ([], []). split; [exact E|]. intros m. split; [intros [] | intros [a [w [K _]]]; now apply H in K]. }
  destruct v as [|b|z|c|s|l|d]; try (apply Hnone; [intros a w K; inversion K | reflexivity]).
  - eexists. split; [reflexivity|]. intros m. unfold findings. cbn [fst snd map]. rewrite app_nil_r. unfold password_text. destruct (dyn_ref s) eqn:E1.
    + pose proof (proj1 (dyn_ref_iff s) E1) as D. destruct (dyn_ref_ssm s) eqn:E2.
      * apply dyn_ref_ssm_iff in E2. split; [intros [<-|[]]; do 2 eexists; split; [now apply (pf_insecure template prop q s) | reflexivity] | intros [a [w [K ->]]]; inversion K; subst; [contradiction | now left]].
      * split; [intros []|]. intros [a [w [K ->]]]. inversion K as [s' Hd|s' Hd Hv| |]; subst; [contradiction|]. apply dyn_ref_ssm_iff in Hv. congruence.
    + assert (D : ~ dynamic_reference s) by (rewrite <- dyn_ref_iff; congruence). split; [intros [<-|[]]; do 2 eexists; split; [now apply (pf_plain template prop q s) | reflexivity] | intros [a [w [K ->]]]; inversion K; subst; [now left | contradiction]].
  - destruct d as [|[k x] [|z d]].
    + eexists. split; [reflexivity|]. intros m. split; [intros [<-|[]]; do 2 eexists; split; [now apply (pf_map template prop q []) | reflexivity] | intros [a [w [K ->]]]; inversion K; subst; now left].
    + cbn [password_value]. destruct (String.eqb_spec k "Ref") as [->|Hk].
      * assert (Hx : (exists n, x = VStr n) \/ (forall n, x <> VStr n)) by (destruct x; eauto; right; discriminate). destruct Hx as [[n ->]|Hx].
        -- destruct (password_parameter_in names n En) as [l [El Hl]]. rewrite El. cbn [bind]. eexists. split; [reflexivity|]. intros m. unfold findings. cbn [fst snd app]. rewrite in_map_iff. split.
           ++ intros [n' [<- Hn']]. apply Hl in Hn' as [-> He]. do 2 eexists. split; [now apply (pf_echo template prop q n) | reflexivity].
           ++ intros [a [w [K ->]]]. inversion K as [| |d' Hd|n' He]; subst; [cbn in Hd; congruence|]. exists n. split; [reflexivity|]. now apply Hl.
        -- assert (Ep : password_parameter template names x = Ok []) by (destruct x; try reflexivity; now destruct (Hx s)). rewrite Ep. cbn [bind]. exists ([], []). split; [reflexivity|]. intros m. split; [intros []|].
           intros [a [w [K ->]]]. inversion K as [| |d' Hd|n' He]; subst; [cbn in Hd; congruence | now destruct (Hx n')].
      * exists ([], []). split; [reflexivity|]. intros m. split; [intros []|]. intros [a [w [K ->]]]. inversion K as [| |d' Hd|n' He]; subst; [cbn in Hd|]; congruence.
    + eexists. split; [reflexivity|]. intros m. split; [intros [<-|[]]; do 2 eexists; split; [apply (pf_map template prop q); discriminate | reflexivity] | intros [a [w [K ->]]]; inversion K; subst; now left].
Qed.
Lemma in_properties_iff p prop v : In prop password_names -> occurs prop template globals p v -> no_stray template globals ->
  (in_properties (p ++ [PKey prop])%list v = true <-> into_properties p).
Proof using.
  intros Hp Ho Hs. destruct p as [|e1 [|e2 [|e3 rest]]]; cbn [app in_properties].
  - split; [destruct (PKey prop); discriminate | intros [r [rest [=]]]].
  - destruct e1 as [k|i].
    + split; [|intros [r [rest [=]]]]. rewrite andb_true_iff, String.eqb_eq. intros [-> Hv]. destruct v as [| | | |s| |]; try discriminate. change (String.eqb "Properties" s = true) in Hv. apply String.eqb_eq in Hv. subst s. now apply Hs in Ho.
    + split; [discriminate | intros [r [rest [=]]]].
  - destruct e1 as [k|i]; [|split; [discriminate | intros [r [rest [=]]]]]. rewrite andb_true_iff, !String.eqb_eq. split; [|intros [r [rest [=]]]].
    intros [_ ->]. exfalso. cbn in Hp. intuition discriminate.
  - destruct e1 as [k|i]; [|split; [discriminate | intros [r [rs [=]]]]]. rewrite andb_true_iff, String.eqb_eq. split.
    + intros [-> H]. destruct e3 as [k'|i']; [|discriminate]. apply String.eqb_eq in H. subst k'. exists e2, rest. reflexivity.
    + intros [r [rs [= -> _ -> _]]]. auto.
Qed.
Lemma c63_passwords : no_stray template globals ->
  exists ms, password_match template globals = Ok ms /\
    forall m, In m ms <-> exists prop p v at_ words, In prop password_names /\ occurs prop template globals p v /\ into_properties p /\
      password_fault template prop (p ++ [PKey prop])%list v at_ words /\ m = mkRM at_ words.
Proof using Hwf Hgw Hpl.
  intros Hst. unfold password_match. assert (En : exists names, get_parameter_names template = Ok names).
  { destruct parameters_section as [m [E _]]. unfold get_parameter_names. rewrite E. cbn [bind]. eauto. }
  destruct En as [names En]. rewrite En. cbn [bind].
  set (g := fun (prop : string) (pv : path * val) => match password_value template names (fst pv) (snd pv) with Ok r => (prop, r) | Err _ => (prop, (@nil rulematch, @nil string)) end).
  assert (Ef : forall prop l, map_res (fun pv => do r <- password_value template names (fst pv) (snd pv); Ok (prop, r)) l = Ok (map (g prop) l)).
  { intros prop l. apply map_res_Ok. intros [q v] _. unfold g. cbn [fst snd]. destruct (password_value_in names prop q v En) as [r [-> _]]. reflexivity. }
  rewrite (concat_res_Ok _ (fun prop => map (g prop) (filter (fun pv => in_properties (fst pv) (snd pv)) (search_deep_keys prop template globals)))) by (intros prop _; apply Ef).
  cbn [bind]. eexists. split; [reflexivity|]. intros m.
  set (found := flat_map (fun prop => map (g prop) (filter (fun pv => in_properties (fst pv) (snd pv)) (search_deep_keys prop template globals))) password_properties).
  assert (Hall : In m (flat_map (fun r => fst (snd r)) found ++ flat_map (fun r => map (echo_match (fst r)) (snd (snd r))) found)%list <-> exists r, In r found /\ In m (findings (fst r) (snd r))).
  { rewrite in_app_iff, !in_flat_map. unfold findings. split.
    - intros [[r [H1 H2]]|[r [H1 H2]]]; exists r; (split; [exact H1|]); apply in_app_iff; auto.
    - intros [r [H1 H2]]. apply in_app_iff in H2 as [H2|H2]; [left|right]; eauto. }
  rewrite Hall. clear Hall. unfold found. split.
  - intros [r [Hr Hm]]. apply in_flat_map in Hr as [prop [Hp Hr]]. apply in_map_iff in Hr as [[q v] [<- Hr]]. apply filter_In in Hr as [Hs Hi]. cbn [fst snd] in Hi.
    apply in_search_deep in Hs as [p [-> Ho]]; [|assumption|assumption]. change (In prop password_names) in Hp.
    apply (in_properties_iff p prop v Hp Ho Hst) in Hi. destruct (password_value_in names prop (p ++ [PKey prop])%list v En) as [r [Er Hin]]. unfold g in Hm. cbn [fst snd] in Hm. rewrite Er in Hm. cbn [fst snd] in Hm.
    apply Hin in Hm as [a [w [Hf ->]]]. exists prop, p, v, a, w. auto.
  - intros [prop [p [v [a [w [Hp [Ho [Hi [Hf ->]]]]]]]]]. destruct (password_value_in names prop (p ++ [PKey prop])%list v En) as [r [Er Hin]].
    exists (prop, r). cbn [fst snd]. split; [|apply Hin; eauto]. apply in_flat_map. exists prop. split; [exact Hp|]. apply in_map_iff. exists ((p ++ [PKey prop])%list, v). split; [unfold g; cbn [fst snd]; now rewrite Er|].
    apply filter_In. split; [apply in_search_deep; eauto|]. cbn [fst snd]. now apply (in_properties_iff p prop v Hp Ho Hst).
Qed.

(** * Image ids *)
Lemma resource_entries rs : (forall n x, In (n, x) rs -> exists o, x = VDict o /\ forall t, assoc "Type" o = Some t -> exists u, t = VStr u) ->
  forall r out, resource_refs rs r = Ok out ->
  forall k i, In (k, i) out -> ends_with ".*" k = false -> In (k, i) r \/ exists o t, In (k, VDict o) rs /\ assoc "Type" o = Some (VStr t) /\ ref_type i = VStr t.
Proof using.
  induction rs as [|[n x] rs IH]; intros Ho r out H k i Hi Hk; cbn [resource_refs] in H; [injection H as <-; now left|].
  destruct (Ho n x (or_introl eq_refl)) as [o [-> Ht]]. cbn [vget_def bind] in H.
  assert (Hcase : (exists t, assoc "Type" o = Some (VStr t)) \/ assoc "Type" o = None).
  { destruct (assoc "Type" o) as [t|]; [|auto]. destruct (Ht t eq_refl) as [u ->]. eauto. }
  assert (IH' := IH (fun n' x' Hi => Ho n' x' (or_intror Hi))). clear IH.
  destruct Hcase as [[t Et]|Et]; rewrite Et in H.
  - destruct (IH' _ _ H k i Hi Hk) as [Hr|[o' [t' [H1 H2]]]]; [|right; exists o', t'; split; [now right | exact H2]].
    destruct (ends_with "::MODULE" t).
    + apply in_set_assoc in Hr as [[-> _]|Hr]; [|now left]. assert (ends_with ".*" (n ++ ".*") = true) by (apply ends_with_iff; now exists n). congruence.
    + destruct (String.eqb t ""); [now left|]. apply in_set_assoc in Hr as [[-> ->]|Hr]; [|now left]. right. exists o, t. split; [now left|]. auto.
  - destruct (IH' _ _ H k i Hi Hk) as [Hr|[o' [t' [H1 H2]]]]; [now left | right; exists o', t'; split; [now right | exact H2]].
Qed.
Lemma pseudo_entries r k i : In (k, i) (pseudo_refs r) -> In (k, i) r \/ (In k PSEUDOPARAMS /\ ref_type i = VStr "Pseudo").
Proof using.
  unfold pseudo_refs. revert r. induction PSEUDOPARAMS as [|p l IH]; intros r; cbn [fold_left]; [auto|]. intros Hi. apply IH in Hi as [Hi|[H1 H2]]; [|right; split; [now right | exact H2]].
  apply in_set_assoc in Hi as [[-> ->]|Hi]; [right; split; [now left | reflexivity] | now left].
Qed.
Definition entry (n : string) (i : ref_info) : Prop :=
  (exists o, defined_in "Parameters" template n o /\ assoc "Type" o = Some (ref_type i)) \/
  (exists o t, defined_in "Resources" template n o /\ assoc "Type" o = Some (VStr t) /\ ref_type i = VStr t) \/
  (In n PSEUDOPARAMS /\ ref_type i = VStr "Pseudo").
Lemma valid_entry valid n : get_valid_refs template = Ok valid -> names template n -> (forall m rest, module template m -> n <> m ++ rest) ->
  exists i, regex_get valid n = Some i /\ entry n i.
Proof using Hwf Hpl.
  intros Hv Hn Hmod.
  unfold get_valid_refs in Hv. destruct (section_items template Hwf Hpl "Parameters") as [x [ps [Ex [Ep [Hp Hpd]]]]]; [now left|].
  destruct (section_items template Hwf Hpl "Resources") as [y [rs [Ey [Er [Hr Hrd]]]]]; [now right; left|].
  assert (Np := section_NoDup template Hwf Hpl _ _ _ Ex Ep).
  rewrite Ex in Hv. cbn [bind] in Hv. rewrite Ep in Hv. cbn [bind] in Hv.
  assert (Hpo : forall n x, In (n, x) ps -> exists o, x = VDict o) by (intros n' v' H; destruct (Hp n' v' H) as [o [-> _]]; eauto).
  assert (Hro : forall n x, In (n, x) rs -> exists o, x = VDict o /\ forall t, assoc "Type" o = Some t -> exists u, t = VStr u).
  { intros n' v' H. destruct (Hr n' v' H) as [o [-> [H1 _]]]. exists o. split; [reflexivity|]. now apply H1. }
  destruct (parameter_refs_keys ps Hpo []) as [a [Ea Ka]]. rewrite Ea in Hv. cbn [bind] in Hv. rewrite Ey in Hv. cbn [bind] in Hv. rewrite Er in Hv. cbn [bind] in Hv.
  destruct (resource_refs_keys rs Hro a) as [b [Eb Kb]]. rewrite Eb in Hv. cbn [bind] in Hv. injection Hv as <-.
  destruct (parameter_refs_entries ps Np Hpo [] a (NoDup_nil _) Ea) as [Na [Ia _]].
  destruct (resource_refs_entries rs Hro a b Na Eb) as [Nb _]. destruct (pseudo_refs_entries b Nb) as [Nc _].
  assert (He : ends_with ".*" n = false).
  { destruct Hn as [n o t Hd _|n o t Hd _|n Hi].
    - apply Hpd in Hd. destruct (Hp _ _ Hd) as [_ [_ [_ He]]]. exact He.
    - apply Hrd in Hd. destruct (Hr _ _ Hd) as [_ [_ [_ He]]]. exact He.
    - cbn in Hi. repeat (destruct Hi as [<-|Hi]; [reflexivity|]). destruct Hi. }
  assert (Hk : In n (keys (pseudo_refs b))).
  { apply pseudo_refs_keys. destruct Hn as [n o t Hd Ht|n o t Hd Ht Hne Hm|n Hi]; [left|left|now right].
    - apply Kb. left. apply Ka. right. exists o, t. split; [now apply Hpd | exact Ht].
    - apply Kb. right. exists n, o, t. split; [now apply Hrd|]. auto. }
  apply assoc_Some_key in Hk as [i Hi]. exists i. split.
  - unfold regex_get. rewrite (best_found (pseudo_refs b) n i); [reflexivity|exact Nc|now apply assoc_In| | |exact I].
    + unfold regex_matches. rewrite key_name_plain by exact He. apply prefix_iff. exists "". now rewrite append_nil_r.
    + intros k z Hkz Hne Hm. unfold regex_matches, starts_with in Hm. apply prefix_iff in Hm as [rest Hm].
      assert (Hkey : In k (keys (pseudo_refs b))) by (unfold keys; apply in_map_iff; now exists (k, z)).
      assert (Hplain : ends_with ".*" k = false -> String.length k < String.length n).
      { intros Hek. rewrite key_name_plain in Hm by exact Hek. destruct rest as [|c rest]; [rewrite append_nil_r in Hm; congruence|].
        rewrite Hm, length_append. cbn. lia. }
      apply pseudo_refs_keys in Hkey as [Hkey|Hkey].
      * apply Kb in Hkey as [Hkey|[n' [o [t [Hd [Ht Hc']]]]]].
        -- apply Ka in Hkey as [[]|[o [t [Hd Ht]]]]. apply Hplain. destruct (Hp _ _ Hd) as [_ [_ [_ H]]]. exact H.
        -- destruct Hc' as [[Hmo ->]|[_ [_ ->]]].
           ++ exfalso. rewrite key_name_module in Hm. apply (Hmod n' rest); [|exact Hm]. exists o, t. split; [now apply Hrd|]. auto.
           ++ apply Hplain. destruct (Hr _ _ Hd) as [_ [_ [_ H]]]. exact H.
      * apply Hplain. cbn in Hkey. repeat (destruct Hkey as [<-|Hkey]; [reflexivity|]). destruct Hkey.
  - apply assoc_In in Hi. apply pseudo_entries in Hi as [Hi|Hi]; [|now right; right].
    destruct (resource_entries rs Hro a b Eb n i Hi He) as [Ha|[o [t [H1 [H2 H3]]]]].
    + apply Ia in Ha as [[]|[o [H1 [H2 _]]]]. left. exists o. split; [now apply Hpd | exact H2].
    + right; left. exists o, t. split; [now apply Hrd|]. auto.
Qed.
Lemma defined_unique section n o o' : defined_in section template n o -> defined_in section template n o' -> o = o'.
Proof using. clear. intros [d [s [E [E1 E2]]]] [d' [s' [E' [E1' E2']]]]. congruence. Qed.
Lemma kind_in t : existsb (fun s => eq_str s t) image_types = true <-> exists u, t = VStr u /\ In u image_kinds.
Proof using.
  rewrite existsb_exists. split.
  - intros [s [Hs E]]. destruct t as [| | | |u| |]; try discriminate. change (String.eqb s u = true) in E. apply String.eqb_eq in E. subst u. eauto.
  - intros [u [-> Hu]]. exists u. split; [exact Hu|]. change (String.eqb u u = true). apply String.eqb_refl.
Qed.
Lemma entry_typed n i : image_parameters_only template -> unambiguous template n -> entry n i -> existsb (fun s => eq_str s (ref_type i)) image_types = true <-> image_typed template n.
Proof using.
  intros Honly [_ [Hd [Hp _]]] He. rewrite kind_in. destruct He as [[o [Ho Et]]|[[o [t [Ho [Et Ei]]]]|[Hps Ei]]].
  - split.
    + intros [u [Eu Hu]]. exists o, u. rewrite Eu in Et. auto.
    + intros [o' [t [Ho' [Et' Ht]]]]. rewrite (defined_unique _ _ _ _ Ho' Ho), Et in Et'. injection Et' as ->. eauto.
  - split.
    + intros [u [Eu Hu]]. rewrite Ei in Eu. injection Eu as <-. destruct (Honly n o t Ho Et Hu).
    + intros [o' [t' [Ho' _]]]. destruct (Hd o' o (conj Ho' Ho)).
  - split.
    + intros [u [Eu Hu]]. rewrite Ei in Eu. injection Eu as <-. cbn in Hu. intuition discriminate.
    + intros [o' [t' [Ho' _]]]. destruct (Hp o' Hps Ho').
Qed.
Lemma regex_get_contains {A} (d : list (string * A)) n i : regex_get d n = Some i -> regex_contains d n = true.
Proof using.
  unfold regex_get, regex_contains. intros H. assert (E : exists r, regex_best d n None = Some r) by (destruct (regex_best d n None); [eauto | discriminate]). clear H. destruct E as [r E].
  induction d as [|[k v] d IH]; [discriminate|]. cbn [existsb fst regex_best] in *. destruct (regex_matches k n); [reflexivity|]. exact (IH E).
Qed.
Lemma c64_images : image_parameters_only template ->
  (forall p y, occurs "ImageId" template globals p (VDict [("Ref", y)]) -> into_resources p -> exists n, y = VStr n /\ (unambiguous template n \/ unknown template n)) ->
  exists ms, image_match template globals = Ok ms /\
    forall m, In m ms <-> exists p v at_ words, occurs "ImageId" template globals p v /\ into_resources p /\ image_fault template (p ++ [PKey "ImageId"])%list v at_ words /\ m = mkRM at_ words.
Proof using Hwf Hgw Hpl.
  intros Honly Href. destruct (valid_refs_spec template Hwf Hpl) as [valid [Ev [_ Hv]]]. unfold image_match. rewrite Ev. cbn [bind].
  assert (Hres : forall p, in_resources (p ++ [PKey "ImageId"])%list = true <-> into_resources p).
  { intros [|[k|i] p]; cbn [app in_resources]; (split; [|intros [rest E]; try discriminate E]).
    - destruct (String.eqb_spec "ImageId" "Resources"); discriminate.
    - intros H. apply String.eqb_eq in H. subst k. now exists p.
    - injection E as ->. reflexivity.
    - discriminate. }
  assert (K : forall p v, occurs "ImageId" template globals p v -> into_resources p -> exists o, image_value valid ((p ++ [PKey "ImageId"])%list, v) = Ok o /\
     forall m, In m o <-> exists at_ words, image_fault template (p ++ [PKey "ImageId"])%list v at_ words /\ m = mkRM at_ words).
  { intros p v Ho Hi. assert (Hnone : (forall a w, ~ image_fault template (p ++ [PKey "ImageId"])%list v a w) -> image_value valid ((p ++ [PKey "ImageId"])%list, v) = Ok [] -> exists o, image_value valid ((p ++ [PKey "ImageId"])%list, v) = Ok o /\
     forall m, In m o <-> exists at_ words, image_fault template (p ++ [PKey "ImageId"])%list v at_ words /\ m = mkRM at_ words).
    { intros H E. exists []. split; [exact E|]. intros m. split; [intros [] | intros [a [w [Hf _]]]; now apply H in Hf]. }
    destruct v as [|b|z|c|s|l|d]; try (apply Hnone; [intros a w Hf; inversion Hf | reflexivity]).
    destruct d as [|[k x] [|z d]].
    - eexists. split; [reflexivity|]. intros m. split; [intros [<-|[]]; do 2 eexists; split; [now apply imf_map | reflexivity] | intros [a [w [Hf ->]]]; inversion Hf; subst; now left].
    - unfold image_value. cbn [snd fst]. destruct (String.eqb_spec k "Ref") as [->|Hk].
      + destruct (Href p x Ho Hi) as [n [-> Hn]]. cbn [image_parameter]. destruct Hn as [Hn|Hn].
        * destruct (valid_entry valid n Ev (proj1 Hn) (fun m rest Hm => proj2 (proj2 (proj2 Hn)) m rest Hm)) as [i [Ei He]]. rewrite Ei. eexists. split; [reflexivity|]. intros m.
          destruct (existsb (fun t => eq_str t (ref_type i)) image_types) eqn:E.
          -- apply (entry_typed n i Honly Hn He) in E. split; [intros []|]. intros [a [w [Hf _]]]. inversion Hf as [d' Hd|n' H1 H2]; subst; [now cbn in Hd | contradiction].
          -- assert (Ht : ~ image_typed template n) by (rewrite <- (entry_typed n i Honly Hn He); congruence). split.
             ++ intros [<-|[]]. do 2 eexists. split; [now apply (imf_type template _ n (proj1 Hn)) | reflexivity].
             ++ intros [a [w [Hf ->]]]. inversion Hf as [d' Hd|n' H1 H2]; subst; [now cbn in Hd | now left].
        * assert (Er : regex_get valid n = None).
          { destruct (regex_get valid n) as [i|] eqn:Ei; [|reflexivity]. exfalso. assert (Hc : regex_contains valid n = true).
            { exact (regex_get_contains valid n i Ei). }
            apply Hv in Hc as [m [rest [Hm ->]]]. destruct (Hn m rest eq_refl) as [H1 H2]. destruct Hm; contradiction. }
          rewrite Er. exists []. split; [reflexivity|]. intros m. split; [intros []|]. intros [a [w [Hf _]]]. inversion Hf as [d' Hd|n' H1 H2]; subst; [now cbn in Hd|].
          destruct (Hn n "") as [H _]; [now rewrite append_nil_r | contradiction].
      + exists []. split; [reflexivity|]. intros m. split; [intros []|]. intros [a [w [Hf _]]]. inversion Hf as [d' Hd|n' H1 H2]; subst; [now cbn in Hd | contradiction].
    - eexists. split; [reflexivity|]. intros m. split; [intros [<-|[]]; do 2 eexists; split; [apply imf_map; discriminate | reflexivity] | intros [a [w [Hf ->]]]; inversion Hf; subst; now left]. }
  set (l := filter (fun pv => in_resources (fst pv)) (search_deep_keys "ImageId" template globals)).
  assert (Hl : forall q v, In (q, v) l -> exists p, q = (p ++ [PKey "ImageId"])%list /\ occurs "ImageId" template globals p v /\ into_resources p).
  { intros q v H. apply filter_In in H as [H1 H2]. apply in_search_deep in H1 as [p [-> Ho]]; [|assumption|assumption]. exists p. split; [reflexivity|]. split; [exact Ho|]. now apply Hres. }
  destruct (concat_res_total (image_value valid) l) as [ms E].
  { intros [q v] H. destruct (Hl q v H) as [p [-> [Ho Hi]]]. destruct (K p v Ho Hi) as [o [Eo _]]. eauto. }
  exists ms. split; [exact E|]. intros m. rewrite (concat_res_ok_iff _ _ _ E). split.
  - intros [[q v] [o [H [Eo Hm]]]]. destruct (Hl q v H) as [p [-> [Ho Hi]]]. destruct (K p v Ho Hi) as [o' [Eo' Hin]]. pose proof (eq_trans (eq_sym Eo) Eo') as Q'. injection Q' as <-. apply Hin in Hm as [a [w [Hf ->]]]. exists p, v, a, w. auto.
  - intros [p [v [a [w [Ho [Hi [Hf ->]]]]]]]. destruct (K p v Ho Hi) as [o [Eo Hin]]. exists ((p ++ [PKey "ImageId"])%list, v), o. split; [|split; [exact Eo | apply Hin; eauto]].
    apply filter_In. split; [apply in_search_deep; eauto | cbn [fst]; now apply Hres].
Qed.
End Password.
