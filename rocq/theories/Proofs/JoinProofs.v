(** Proofs about Fn::Join (C32). *)
From Coq Require Import Lia.
From Verif.Model Require Import Base Helpers Rules Search Refs ConditionRules Relationship Limits Parameters Policies Functions.
From Verif.Spec Require Import Paths References ParameterUse ConditionUse FunctionArguments Attributes.
From Verif.Proofs Require Import BaseFacts SearchProofs ConditionUseProofs RefProofs FunctionProofs AttributeProofs.
Import Verif.Model.Rules.
Local Open Scope string_scope.

Lemma item_first v r : getatt_item v 0 = Ok (VStr r) <-> getatt_first v r.
Proof.
  split.
  - intros H. destruct v as [|b|z|q|s|l|d]; try discriminate; cbn [getatt_item] in H.
    + destruct (split_dot s) as [[x y]|] eqn:E; injection H as <-.
      * apply split_dot_some in E as [-> Hd]. now constructor.
      * apply split_dot_none in E. now constructor.
    + destruct l as [|x l]; [discriminate|]. injection H as ->. constructor.
  - intros [x a Hd|x Hd|x rest]; cbn [getatt_item].
    + rewrite (proj2 (split_dot_some _ x a)); auto.
    + now rewrite (proj2 (split_dot_none _)).
    + reflexivity.
Qed.
Lemma item_second v a : getatt_item v 1 = Ok (VStr a) <-> getatt_second v a.
Proof.
  split.
  - intros H. destruct v as [|b|z|q|s|l|d]; try discriminate; cbn [getatt_item] in H.
    + destruct (split_dot s) as [[x y]|] eqn:E; [|discriminate]. injection H as <-. apply split_dot_some in E as [-> Hd]. now constructor.
    + destruct l as [|x [|y l]]; try discriminate. injection H as ->. constructor.
  - intros [x y Hd|x y rest]; cbn [getatt_item]; [|reflexivity]. rewrite (proj2 (split_dot_some _ x y)); auto.
Qed.
Lemma eq_str_true s v : eq_str s v = true <-> v = VStr s.
Proof.
  destruct v as [|b|z|q|t|l|d]; try (split; discriminate). change (eq_str s (VStr t)) with (String.eqb s t). rewrite String.eqb_eq. split; [now intros -> | now intros [= ->]].
Qed.
Lemma atts_other item r atts o x : item 0 = Ok x -> x <> VStr r -> getatt_list_atts item r atts = Ok o -> o = None.
Proof.
  intros E Hx. induction atts as [|[n a] atts IH]; intros H; [now injection H as <-|]. cbn [getatt_list_atts] in H. rewrite E in H. cbn [bind] in H.
  destruct (eq_str r x) eqn:Er; [apply eq_str_true in Er; contradiction | exact (IH H)].
Qed.
Lemma atts_error item r atts o e : item 0 = Err e -> getatt_list_atts item r atts = Ok o -> o = None.
Proof. intros E. destruct atts as [|[n a] atts]; intros H; [now injection H as <-|]. cbn [getatt_list_atts] in H. rewrite E in H. discriminate. Qed.
Lemma atts_listed item r atts o : item 0 = Ok (VStr r) -> ~ In "*" (map fst atts) -> getatt_list_atts item r atts = Ok o ->
  (o = Some VTrue /\ exists a s, item 1 = Ok (VStr a) /\ In (a, s) atts /\ att_type s = Some "List") \/
  (o = None /\ forall a s, item 1 = Ok (VStr a) -> In (a, s) atts -> att_type s <> Some "List").
Proof.
  intros E. induction atts as [|[n a] atts IH]; intros Hs H; [injection H as <-; right; split; [reflexivity | intros a s _ []]|].
  cbn [getatt_list_atts] in H. rewrite E in H. cbn [bind] in H. assert (Er : eq_str r (VStr r) = true) by now apply eq_str_true. rewrite Er in H.
  assert (En : String.eqb n "*" = false) by (apply String.eqb_neq; intros ->; apply Hs; now left). rewrite En in H.
  assert (Hs' : ~ In "*" (map fst atts)) by (intros Hi; apply Hs; now right).
  destruct (item 1) as [x|] eqn:E1; [|discriminate]. cbn [bind] in H.
  assert (Hskip : getatt_list_atts item r atts = Ok o -> (forall b s, x = VStr b -> (b, s) = (n, a) -> att_type s <> Some "List") ->
    (o = Some VTrue /\ exists a0 s, Ok x = Ok (VStr a0) /\ In (a0, s) ((n, a) :: atts) /\ att_type s = Some "List") \/
    (o = None /\ forall a0 s, Ok x = Ok (VStr a0) -> In (a0, s) ((n, a) :: atts) -> att_type s <> Some "List")).
  { intros H' Hn. destruct (IH Hs' H') as [[-> [b [s [Hb [Hi Ht]]]]]|[-> Hno]].
    - left. split; [reflexivity|]. exists b, s. split; [exact Hb|]. split; [now right | exact Ht].
    - right. split; [reflexivity|]. intros b s [= ->] [Hi|Hi]; [now apply (Hn b s eq_refl) | now apply (Hno b s)]. }
  destruct (eq_str n x) eqn:Ex.
  - apply eq_str_true in Ex. subst x. destruct (att_type a) as [t|] eqn:Et.
    + destruct (String.eqb_spec t "List") as [->|Ht].
      * injection H as <-. left. split; [reflexivity|]. exists n, a. split; [reflexivity|]. split; [now left | exact Et].
      * apply (Hskip H). intros b s _ [= -> ->]. congruence.
    + apply (Hskip H). intros b s _ [= -> ->]. congruence.
  - apply (Hskip H). intros b s -> [= -> ->]. assert (eq_str n (VStr n) = true) by now apply eq_str_true. congruence.
Qed.
Lemma list_none item valid b : (forall r atts o, In (r, atts) valid -> getatt_list_atts item r atts = Ok o -> o = None) -> getatt_list item valid = Ok b -> b = VFalse.
Proof.
  induction valid as [|[r atts] valid IH]; intros Hn H; [now injection H as <-|]. cbn [getatt_list] in H. destruct (getatt_list_atts item r atts) as [o|] eqn:E; [|discriminate]. cbn [bind] in H.
  rewrite (Hn r atts o (or_introl eq_refl) E) in H. apply IH; [|exact H]. intros r' atts' o' Hi. apply Hn. now right.
Qed.
Lemma list_at item valid b r : item 0 = Ok (VStr r) -> NoDup (map fst valid) -> getatt_list item valid = Ok b ->
  match assoc r valid with None => b = VFalse | Some atts => exists o, getatt_list_atts item r atts = Ok o /\ b = match o with Some b => b | None => VFalse end end.
Proof.
  intros E0. induction valid as [|[r' atts] valid IH]; intros Hnd H; [now injection H as <-|]. cbn [getatt_list] in H.
  destruct (getatt_list_atts item r' atts) as [o|] eqn:E; [|discriminate]. cbn [bind] in H. inversion Hnd as [|? ? Hn Hd]; subst. cbn [assoc].
  destruct (String.eqb_spec r r') as [<-|Hr].
  - exists o. split; [exact E|]. destruct o as [b'|]; [now injection H as <-|]. apply (list_none item valid); [|exact H].
    intros r' atts' o' Hi. apply (atts_other item r' atts' o' (VStr r) E0). intros [= ->]. apply Hn. apply in_map_iff. exists (r', atts'). auto.
  - assert (Eo : o = None) by (apply (atts_other item r' atts o (VStr r) E0); [congruence | exact E]). subst o. exact (IH Hd H).
Qed.

Lemma flat_map_nil {A B} (g : A -> list B) l : flat_map g l = [] <-> Forall (fun x => g x = []) l.
Proof.
  induction l as [|x l IH]; [split; [constructor | reflexivity]|]. cbn [flat_map]. split.
  - intros H. apply app_eq_nil in H as [H1 H2]. constructor; [exact H1 | now apply IH].
  - intros H. inversion H; subst. rewrite H2. now apply IH.
Qed.
Lemma is_list_type_spec t : is_list_type t = true <-> exists s, t = VStr s /\ In s VALID_PARAMETER_TYPES_LIST.
Proof.
  unfold is_list_type. rewrite existsb_exists. split.
  - intros [s [Hi E]]. apply eq_str_true in E. eauto.
  - intros [s [-> Hi]]. exists s. split; [exact Hi | now apply eq_str_true].
Qed.

Section Join.
Variable template : val.
Variable types : list (string * option (list (string * attspec))).
Hypothesis Hw : wf template.
Hypothesis Hpl : plain_sections template.
Hypothesis Hpt : plain_types types.

Lemma parameters_spec ps : parameter_types template = Ok ps ->
  (forall n, (exists t, assoc n ps = Some t) <-> exists o, defined_in "Parameters" template n o) /\
  forall n, (exists t, assoc n ps = Some t /\ is_list_type t = true) <-> list_parameter template n.
Proof using Hw Hpl.
  destruct Hpl as [d [-> H]]. unfold parameter_types, list_parameter. cbn [vget_def]. destruct (assoc "Parameters" d) as [x|] eqn:E; cbn [bind].
  - destruct (H "Parameters" x) as [s [-> Hs]]; [now left | exact E|]. intros Hm.
    assert (Hd : forall n o, defined_in "Parameters" (VDict d) n o <-> assoc n s = Some (VDict o)).
    { intros n o. split; [intros [d' [s' [[= <-] [E1 E2]]]]; congruence | intros Ea; exists d, s; auto]. }
    assert (Ha : forall n, match assoc n ps with
                 | Some t => exists o, assoc n s = Some (VDict o) /\ t = match assoc "Type" o with Some t => t | None => VStr "String" end
                 | None => assoc n s = None end).
    { clear -Hs Hm. revert ps Hm. induction s as [|[k x] s IH]; intros ps Hm n; [now injection Hm as <-|]. cbn [map_res] in Hm.
      destruct (Hs k x (or_introl eq_refl)) as [o [-> _]]. cbn [snd fst vget_def] in Hm.
      assert (Hm' : (do ys <- map_res (fun kx => do t <- vget_def "Type" (VStr "String") (snd kx); Ok (fst kx, t)) s;
                     Ok ((k, match assoc "Type" o with Some t => t | None => VStr "String" end) :: ys)) = Ok ps) by (destruct (assoc "Type" o); exact Hm).
      clear Hm. destruct (map_res _ s) as [ps'|] eqn:E'; [|discriminate]. cbn [bind] in Hm'. injection Hm' as <-. cbn [assoc].
      destruct (String.eqb n k); [exists o; auto|]. apply IH; [|reflexivity]. intros m y Hi. apply Hs. now right. }
    split.
    + intros n. specialize (Ha n). destruct (assoc n ps) as [t|]; split.
      * intros _. destruct Ha as [o [Ho _]]. exists o. now apply Hd.
      * intros _. eauto.
      * intros [t Ht]. discriminate.
      * intros [o Ho]. apply Hd in Ho. congruence.
    + intros n. specialize (Ha n). split.
      * intros [t [Et Ht]]. rewrite Et in Ha. destruct Ha as [o [Ho ->]]. apply is_list_type_spec in Ht as [u [Eu Hu]]. destruct (assoc "Type" o) as [t|] eqn:Ety.
        -- subst t. exists o, u. split; [now apply Hd | auto].
        -- injection Eu as <-. exfalso. clear -Hu. assert (Hf : smem "String" VALID_PARAMETER_TYPES_LIST = false) by reflexivity. apply smem_iff in Hu. congruence.
      * intros [o [t [Ho [Et Ht]]]]. apply Hd in Ho. destruct (assoc n ps) as [t'|]; [|congruence]. exists t'. split; [reflexivity|].
        destruct Ha as [o' [Ho' ->]]. rewrite Ho in Ho'. injection Ho' as <-. rewrite Et. apply is_list_type_spec. eauto.
  - intros [= <-]. split; intros n; split.
    + intros [t Ht]. discriminate.
    + intros [o [d' [s' [[= <-] [E1 E2]]]]]. congruence.
    + intros [t [Ht _]]. discriminate.
    + intros [o [t [[d' [s' [[= <-] [E1 E2]]]] _]]]. congruence.
Qed.
Lemma parameter_types_ok : exists ps, parameter_types template = Ok ps.
Proof using Hw Hpl.
  destruct Hpl as [d [-> H]]. unfold parameter_types. cbn [vget_def]. destruct (assoc "Parameters" d) as [x|] eqn:E; cbn [bind]; [|eexists; reflexivity].
  destruct (H "Parameters" x) as [s [-> Hs]]; [now left | exact E|]. clear -Hs. induction s as [|[k x] s IH]; [eexists; reflexivity|]. cbn [map_res].
  destruct (Hs k x (or_introl eq_refl)) as [o [-> _]]. destruct IH as [ps Ep]; [intros n y Hi; apply Hs; now right|]. cbn [snd fst vget_def].
  destruct (assoc "Type" o); cbn [bind]; rewrite Ep; eexists; reflexivity.
Qed.
Lemma ref_list_spec params x b : parameter_types template = Ok params -> is_ref_a_list x params = Ok b -> (b = true <-> list_ref template x).
Proof using Hw Hpl.
  intros Ep H. destruct (parameters_spec params Ep) as [_ Hl]. unfold list_ref.
  destruct x as [|c|z|q|s|l|d]; try discriminate; cbn [is_ref_a_list] in H; injection H as <-; try (split; [discriminate | intros [n [Hn _]]; discriminate]).
  rewrite orb_true_iff, String.eqb_eq. split.
  - intros [H|H]; exists s; (split; [reflexivity|]); [|now right]. left. apply Hl. destruct (assoc s params) as [t|]; [eauto | discriminate].
  - intros [n [[= <-] [H|H]]]; [|now right]. left. apply Hl in H as [t [-> Ht]]. exact Ht.
Qed.

Variable valid : getatts.
Hypothesis Hnd : NoDup (map fst valid).
Hypothesis Hv : forall r atts, assoc r valid = Some atts <-> exists t, resource_type template r t /\ getatts_of types t = Some atts.
Lemma getatt_list_spec x b : is_getatt_a_list x valid = Ok b ->
  (b = VTrue /\ list_attribute types template x /\ ~ unknown_attribute template x) \/
  (b = VUnknown /\ ~ list_attribute types template x /\ unknown_attribute template x) \/
  (b = VFalse /\ ~ list_attribute types template x /\ ~ unknown_attribute template x).
Proof using Hpt Hnd Hv.
  intros H. unfold is_getatt_a_list in H. destruct (getatt_item x 0) as [y|e] eqn:E0.
  2: { right; right. split; [|split].
       - apply (list_none _ _ _ (fun r atts o _ Ho => atts_error _ r atts o e E0 Ho) H).
       - intros [r [a [t [s [Hf _]]]]]. apply item_first in Hf. congruence.
       - intros [r [t [Hf _]]]. apply item_first in Hf. congruence. }
  assert (Hy : (exists r, y = VStr r) \/ forall r, y <> VStr r) by (destruct y; try (right; discriminate); left; eauto).
  destruct Hy as [[r ->]|Hy].
  2: { right; right. split; [|split].
       - apply (list_none _ _ _ (fun r atts o _ Ho => atts_other _ r atts o y E0 (Hy r) Ho) H).
       - intros [r [a [t [s [Hf _]]]]]. apply item_first in Hf. rewrite E0 in Hf. injection Hf as ->. now apply (Hy r).
       - intros [r [t [Hf _]]]. apply item_first in Hf. rewrite E0 in Hf. injection Hf as ->. now apply (Hy r). }
  pose proof (list_at _ _ _ r E0 Hnd H) as Hl.
  assert (Hf : forall r', getatt_first x r' -> r' = r) by (intros r' Hf; apply item_first in Hf; rewrite E0 in Hf; now injection Hf as ->).
  assert (Hf' : getatt_first x r) by now apply item_first.
  destruct (assoc r valid) as [atts|] eqn:Ea.
  - apply Hv in Ea as [t [Ht Ea]]. destruct Hl as [o [Eo Hb]]. destruct (kind_of types t) as [H1|H1 H2|atts' H1 H2 H3|H1 H2 H3]; try discriminate; injection Ea as <-.
    + right; right. cbn [getatt_list_atts] in Eo. rewrite E0 in Eo. cbn [bind] in Eo. assert (Er : eq_str r (VStr r) = true) by now apply eq_str_true. rewrite Er in Eo.
      injection Eo as <-. split; [exact Hb|]. split.
      * intros [r' [a [t' [s [Hr [_ [Ht' [Hn _]]]]]]]]. apply Hf in Hr. subst r'. rewrite (resource_type_det _ _ _ _ Ht' Ht) in Hn. contradiction.
      * intros [r' [t' [Hr [Ht' [Hn _]]]]]. apply Hf in Hr. subst r'. rewrite (resource_type_det _ _ _ _ Ht' Ht) in Hn. contradiction.
    + right; left. cbn [getatt_list_atts] in Eo. rewrite E0 in Eo. cbn [bind] in Eo. assert (Er : eq_str r (VStr r) = true) by now apply eq_str_true. rewrite Er in Eo.
      injection Eo as <-. split; [exact Hb|]. split.
      * intros [r' [a [t' [s [Hr [_ [Ht' [_ [Hn _]]]]]]]]]. apply Hf in Hr. subst r'. rewrite (resource_type_det _ _ _ _ Ht' Ht) in Hn. contradiction.
      * exists r, t. auto.
    + destruct (Hpt t atts' H3) as [Hna [Hstar _]].
      assert (Hun : ~ unknown_attribute template x).
      { intros [r' [t' [Hr [Ht' [_ Hc]]]]]. apply Hf in Hr. subst r'. rewrite (resource_type_det _ _ _ _ Ht' Ht) in Hc. contradiction. }
      apply (atts_listed _ _ _ _ E0 Hstar) in Eo as [[-> [a [s [E1 [Hi Hs]]]]]|[-> Hno]].
      * left. split; [exact Hb|]. split; [|exact Hun]. exists r, a, t, s. split; [exact Hf'|]. split; [now apply item_second|]. split; [exact Ht|]. split; [exact H1|]. split; [exact H2|].
        split; [|exact Hs]. exists atts'. split; [exact H3 | now apply In_assoc].
      * right; right. split; [exact Hb|]. split; [|exact Hun]. intros [r' [a [t' [s [Hr [Ha [Ht' [_ [_ [[atts [Hat Hs]] Hty]]]]]]]]]]. apply Hf in Hr. subst r'.
        rewrite (resource_type_det _ _ _ _ Ht' Ht) in Hat. rewrite H3 in Hat. injection Hat as <-. apply item_second in Ha. apply (Hno a s Ha); [now apply assoc_In | exact Hty].
  - right; right. split; [exact Hl|]. split.
    + intros [r' [a [t [s [Hr [Ha [Ht [H1 [H2 [[atts [Hat _]] _]]]]]]]]]]. apply Hf in Hr. subst r'.
      assert (assoc r valid = Some atts) by (apply Hv; exists t; split; [exact Ht|]; destruct (kind_of types t) as [?|? ?|? ? ? H3|? ? H3]; try contradiction; [congruence | exfalso; exact (H3 atts Hat)]). congruence.
    + intros [r' [t [Hr [Ht [H1 H2]]]]]. apply Hf in Hr. subst r'.
      assert (exists atts, getatts_of types t = Some atts) as [atts Hat] by (apply has_attributes_spec; right; now left).
      assert (assoc r valid = Some atts) by (apply Hv; eauto). congruence.
Qed.
Lemma join_item_spec params p v ms : parameter_types template = Ok params -> join_item params valid p v = Ok ms ->
  Forall (fun m => rm_path m = p) ms /\ (ms = [] <-> join_part types template v).
Proof using Hw Hpl Hpt Hnd Hv.
  intros Ep H. unfold join_part. destruct v as [|b|z|q|s|l|d]; cbn [join_item] in H.
  1-4,6: injection H as <-; split; [repeat constructor|]; split; [discriminate|]; intros [[s E]|[[k [x [E _]]]|[[x [E _]]|[x [E _]]]]]; discriminate.
  1: injection H as <-; split; [constructor|]; split; [left; eexists; reflexivity | reflexivity].
  assert (Hmany : (forall k x, d <> [(k, x)]) -> forall m : rulematch, [m] = [] <-> text (VDict d) \/
    calls ["Fn::Base64"; "Fn::FindInMap"; "Fn::If"; "Fn::ImportValue"; "Fn::Join"; "Fn::Select"; "Fn::Sub"] (VDict d) \/
    (exists x, VDict d = VDict [("Ref", x)] /\ ~ list_ref template x) \/ (exists x, VDict d = VDict [("Fn::GetAtt", x)] /\ ~ list_attribute types template x)).
  { intros Hd m. split; [discriminate|]. intros [[s E]|[[k [x [[= E] _]]]|[[x [[= E] _]]|[x [[= E] _]]]]]; [discriminate | now apply Hd in E..]. }
  destruct d as [|[k x] [|? ?]]; [injection H as <-; split; [repeat constructor | apply Hmany; discriminate] | | injection H as <-; split; [repeat constructor | apply Hmany; discriminate]].
  clear Hmany. destruct (smem k single_functions) eqn:Ek.
  - destruct (String.eqb_spec k "Ref") as [->|Hr].
    + destruct (is_ref_a_list x params) as [b|] eqn:Eb; [|discriminate]. cbn [bind] in H. injection H as <-. pose proof (ref_list_spec params x b Ep Eb) as Hb. destruct b.
      * split; [repeat constructor|]. split; [discriminate|]. intros [[s E]|[[k [y [[= <- <-] Hi]]]|[[y [[= <-] Hn]]|[y [[= E] _]]]]]; [discriminate | | exfalso; apply Hn; now apply Hb].
        exfalso. clear -Hi. cbn in Hi. intuition discriminate.
      * split; [constructor|]. split; [|reflexivity]. intros _. right; right; left. exists x. split; [reflexivity|]. intros Hl. apply Hb in Hl. discriminate.
    + destruct (String.eqb_spec k "Fn::GetAtt") as [->|Hg].
      * destruct (is_getatt_a_list x valid) as [b|] eqn:Eb; [|discriminate]. cbn [bind] in H. injection H as <-.
        assert (Hno : ~ text (VDict [("Fn::GetAtt", x)]) /\ ~ calls ["Fn::Base64"; "Fn::FindInMap"; "Fn::If"; "Fn::ImportValue"; "Fn::Join"; "Fn::Select"; "Fn::Sub"] (VDict [("Fn::GetAtt", x)])).
        { split; [intros [s E]; discriminate|]. intros [k [y [[= <- <-] Hi]]]. cbn in Hi. intuition discriminate. }
        destruct Hno as [Hn1 Hn2].
        destruct (getatt_list_spec x b Eb) as [[-> [H1 _]]|[[-> [H1 _]]|[-> [H1 _]]]].
        -- split; [repeat constructor|]. split; [discriminate|]. intros [E|[E|[[y [[= E] _]]|[y [[= <-] Hn]]]]]; contradiction.
        -- split; [constructor|]. split; [|reflexivity]. intros _. right; right; right. eauto.
        -- split; [constructor|]. split; [|reflexivity]. intros _. right; right; right. eauto.
      * injection H as <-. split; [constructor|]. split; [|reflexivity]. intros _. right; left. apply is_call. apply smem_in in Ek.
        cbn in Ek |- *. intuition congruence.
  - injection H as <-. split; [repeat constructor|]. split; [discriminate|]. apply smem_notin in Ek.
    intros [[s E]|[[k' [y [[= <- <-] Hi]]]|[[y [[= -> <-] _]]|[y [[= -> <-] _]]]]]; [discriminate | | |]; exfalso; apply Ek; cbn in *; intuition congruence.
Qed.
Lemma join_values_spec p v ms : get_valid_getatts template types = Ok valid -> join_values template types p v = Ok ms ->
  Forall (fun m => rm_path m = p) ms /\ (ms = [] <-> joined types template v \/ exists ps, v = VList ps /\ Forall (join_part types template) ps).
Proof using Hw Hpl Hpt Hnd Hv.
  intros Ev H. unfold join_values in H. destruct (parameter_types template) as [params|] eqn:Ep; [|discriminate]. cbn [bind] in H. rewrite Ev in H. cbn [bind] in H. unfold joined.
  destruct v as [|b|z|q|s|l|d].
  1-5: injection H as <-; split; [repeat constructor|]; split; [discriminate|]; intros [[[k [x [E _]]]|[[x [E _]]|[x [E _]]]]|[ps [E _]]]; discriminate.
  - apply concat_res_inv in H as [g [Hg ->]]. split.
    + apply Forall_forall. intros m Hm. apply in_flat_map in Hm as [x [Hx Hm]]. destruct (join_item_spec params p x (g x) Ep (Hg x Hx)) as [Hf _]. rewrite Forall_forall in Hf. now apply Hf.
    + rewrite flat_map_nil. split.
      * intros Hf. right. exists l. split; [reflexivity|]. rewrite Forall_forall in *. intros x Hx. destruct (join_item_spec params p x (g x) Ep (Hg x Hx)) as [_ Hi]. now apply Hi, Hf.
      * intros [[[k [x [E _]]]|[[x [E _]]|[x [E _]]]]|[ps [[= <-] Hf]]]; [discriminate..|]. rewrite Forall_forall in *. intros x Hx.
        destruct (join_item_spec params p x (g x) Ep (Hg x Hx)) as [_ Hi]. now apply Hi, Hf.
  - assert (Hmany : (forall k x, d <> [(k, x)]) -> forall m : rulematch, [m] = [] <-> (calls ["Fn::Cidr"; "Fn::FindInMap"; "Fn::GetAZs"; "Fn::If"; "Fn::Select"; "Fn::Split"] (VDict d) \/
      (exists x, VDict d = VDict [("Ref", x)] /\ list_ref template x) \/ (exists x, VDict d = VDict [("Fn::GetAtt", x)] /\ (list_attribute types template x \/ unknown_attribute template x))) \/
      exists ps, VDict d = VList ps /\ Forall (join_part types template) ps).
    { intros Hd m. split; [discriminate|]. intros [[[k [x [[= E] _]]]|[[x [[= E] _]]|[x [[= E] _]]]]|[ps [E _]]]; [now apply Hd in E.. | discriminate]. }
    destruct d as [|[k x] [|? ?]]; [injection H as <-; split; [repeat constructor | apply Hmany; discriminate] | | injection H as <-; split; [repeat constructor | apply Hmany; discriminate]].
    clear Hmany. destruct (smem k list_functions) eqn:Ek.
    + destruct (String.eqb_spec k "Ref") as [->|Hr].
      * destruct (is_ref_a_list x params) as [b|] eqn:Eb; [|discriminate]. cbn [bind] in H. injection H as <-. pose proof (ref_list_spec params x b Ep Eb) as Hb. destruct b.
        -- split; [constructor|]. split; [|reflexivity]. intros _. left; right; left. exists x. split; [reflexivity | now apply Hb].
        -- split; [repeat constructor|]. split; [discriminate|]. intros [[[k [y [[= <- <-] Hi]]]|[[y [[= <-] Hn]]|[y [[= E] _]]]]|[ps [E _]]]; [| apply Hb in Hn; discriminate | discriminate].
           exfalso. clear -Hi. cbn in Hi. intuition discriminate.
      * destruct (String.eqb_spec k "Fn::GetAtt") as [->|Hg].
        -- destruct (is_getatt_a_list x valid) as [b|] eqn:Eb; [|discriminate]. cbn [bind] in H. injection H as <-.
           destruct (getatt_list_spec x b Eb) as [[-> [H1 H2]]|[[-> [H1 H2]]|[-> [H1 H2]]]].
           ++ split; [constructor|]. split; [|reflexivity]. intros _. left; right; right. eauto.
           ++ split; [constructor|]. split; [|reflexivity]. intros _. left; right; right. eauto.
           ++ split; [repeat constructor|]. split; [discriminate|]. intros [[[k [y [[= <- <-] Hi]]]|[[y [[= E] _]]|[y [[= <-] [Hn|Hn]]]]]|[ps [E _]]]; try contradiction; [|discriminate].
              exfalso. clear -Hi. cbn in Hi. intuition discriminate.
        -- injection H as <-. split; [constructor|]. split; [|reflexivity]. intros _. left; left. apply is_call. apply smem_in in Ek. cbn in Ek |- *. intuition congruence.
    + injection H as <-. split; [repeat constructor|]. split; [discriminate|]. apply smem_notin in Ek.
      intros [[[k' [y [[= <- <-] Hi]]]|[[y [[= -> <-] _]]|[y [[= -> <-] _]]]]|[ps [E _]]]; [| | | discriminate]; exfalso; apply Ek; cbn in *; intuition congruence.
Qed.
Lemma join_checks : get_valid_getatts template types = Ok valid -> checks "Fn::Join" (join_check template types) (unless (join_ok types template)).
Proof using Hw Hpl Hpt Hnd Hv.
  intros Ev. apply checks_places. intros p0 v ms. set (p := (p0 ++ [PKey "Fn::Join"])%list). clearbody p. intros H. unfold join_check in H.
  apply (places_iff _ _ (fun r => r = [] /\ ~ join_ok types template v)); [|intros r; reflexivity].
  assert (Hshape : (forall d l, v <> VList [d; l]) -> ms = [mkRM p (at_text "Join should be an array of 2 for " p)] -> places p ms (fun r => r = [] /\ ~ join_ok types template v)).
  { intros Hv' ->. apply places_empty; [repeat constructor|]. split; [discriminate|]. intros [d [l [-> _]]]. exfalso. now apply (Hv' (VStr d) l). }
  destruct v as [|b|z|q|s|[|d [|l [|? ?]]]|o]; try (injection H as <-; apply Hshape; [discriminate | reflexivity]).
  clear Hshape. destruct (join_values template types p l) as [a|] eqn:Ea; [|discriminate]. cbn [bind] in H. injection H as <-.
  destruct (join_values_spec p l a Ev Ea) as [Hf Hi]. apply places_empty.
  - apply Forall_app. split; [destruct d; repeat constructor | exact Hf].
  - split.
    + intros E. apply app_eq_nil in E as [E1 E2]. destruct d as [| | | |d| |]; try discriminate. apply Hi in E2. exists d, l. auto.
    + intros [d' [l' [[= -> ->] Hj]]]. cbn [app]. now apply Hi.
Qed.
End Join.
Lemma c32_join template globals types ms : wf template -> wf globals -> plain_sections template -> plain_types types ->
  join_match template globals types = Ok ms -> judged "Fn::Join" template globals (unless (join_ok types template)) ms.
Proof.
  intros Hw Hgw Hpl Hpt H. destruct (valid_getatts_spec template types Hw Hpl) as [valid [Ev [Hnd Hv]]].
  exact (judged_each template globals Hw Hgw _ _ _ _ (join_checks template types Hw Hpl Hpt valid Hnd Hv Ev) H).
Qed.
