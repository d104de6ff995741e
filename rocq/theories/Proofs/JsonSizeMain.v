(** E3502 over the properties of a resource. *)
From Coq Require Import List String Permutation ZArith QArith Lia.
From Verif.Model Require Import Base Helpers Locate Node Conditions Search Resolve Rules Relationship Parameters JsonDump PropertyRules JsonSize.
From Verif.Spec Require Import Paths Branches ConditionUse References Required Walk Values Truth Resolved Groups Nested JsonSize.
From Verif.Proofs Require Import BaseFacts SearchProofs BranchProofs RelationRule ResolveProofs NestedProofs DeepProofs PropertyRuleProofs SizeProofs Places PlaceholderProofs JsonSizeProofs.
Import Verif.Model.Rules.
Import ListNotations.
Local Open Scope string_scope.

(** * Properties without the members that are AWS::NoValue *)
Lemma assoc_clean d k : NoDup (keys d) -> In k (keys (clean d)) -> assoc k (clean d) = assoc k d.
Proof.
  intros Hn H. apply clean_keys in H as [x [E Hx]]; [|exact Hn]. rewrite E. apply assoc_NoDup.
  - unfold clean. clear -Hn. induction d as [|[k' y] d IH]; [constructor|]. inversion Hn as [|? ? Hni Hn']; subst. cbn [filter snd]. destruct (negb (Node.is_novalue y)); [|now apply IH]. cbn [keys map fst]. constructor; [|now apply IH].
    intros K. apply Hni. apply in_map_iff in K as [[k'' z] [<- K]]. apply filter_In in K as [K _]. apply in_map_iff. exists (k'', z). auto.
  - unfold clean. apply filter_In. split; [now apply assoc_In|]. cbn [snd]. apply Bool.negb_true_iff, is_novalue_false. exact Hx.
Qed.
Lemma rd_clean sc d : forall d1, rd_members sc d = Ok d1 -> exists d2, rd_members sc (clean d) = Ok d2 /\ (NoDup (keys d) -> forall k, In k (keys (clean d)) -> assoc k d2 = assoc k d1).
Proof.
  induction d as [|[k x] d IH]; intros d1 E.
  - injection E as <-. exists []. split; [reflexivity|]. intros _ k [].
  - cbn [rd_members] in E. destruct (resolve_deep sc x) as [y|] eqn:Ey; [|discriminate]. cbn [bind] in E. destruct (rd_members sc d) as [ys|] eqn:Es; [|discriminate]. cbn [bind] in E. injection E as <-.
    destruct (IH ys eq_refl) as [d2 [E2 H2]]. unfold clean in *. cbn [filter snd]. destruct (Node.is_novalue x) eqn:Ex; cbn [negb].
    + exists d2. split; [exact E2|]. intros Hn k' Hk. inversion Hn as [|? ? Hni Hn']; subst. rewrite H2 by assumption. cbn [assoc]. destruct (String.eqb_spec k' k) as [->|]; [|reflexivity]. elim Hni. apply in_map_iff in Hk as [[k'' z] [<- K]]. apply filter_In in K as [K _]. apply in_map_iff. exists (k'', z). auto.
    + exists ((k, y) :: d2). split; [cbn [rd_members]; rewrite Ey; cbn [bind]; now rewrite E2|]. intros Hn k' Hk. inversion Hn as [|? ? Hni Hn']; subst. cbn [assoc]. destruct (String.eqb_spec k' k) as [->|Nk]; [reflexivity|]. apply H2; [exact Hn'|]. cbn [keys map fst In] in Hk. destruct Hk as [Hk|Hk]; [congruence | exact Hk].
Qed.
Lemma item_of_eq d d' k : assoc k d = assoc k d' -> item_of (VDict d) k = item_of (VDict d') k.
Proof. intros E. cbn [item_of]. now rewrite E. Qed.
Lemma nested_clean order c template globals d p out : NoDup (keys d) -> ~ In "Fn::If" (keys d) -> VDict d <> no_value -> VDict (clean d) <> no_value ->
  get_object_without_nested_conditions order c template globals (VDict d) p = Ok out ->
  exists out', get_object_without_nested_conditions order c template globals (VDict (clean d)) p = Ok out' /\
    Forall2 (fun so so' => fst so = fst so' /\ forall k, In k (keys (clean d)) -> item_of (snd so) k = item_of (snd so') k) out out'.
Proof.
  intros Hn Hf Hnv Hcv E. unfold get_object_without_nested_conditions in *. destruct (get_condition_scenarios_below_path order c template globals p false) as [scs|]; [|discriminate]. cbn [bind is_dict orb] in *.
  assert (Hplain : forall e, VDict e <> no_value -> match e with [(k, x)] => if is_novalue k x then Ok [] else Ok [(None, VDict e)] | _ => Ok [(None, VDict e)] end = Ok [(@None scenario, VDict e)]).
  { intros [|[k x] [|y e]] He; try reflexivity. destruct (is_novalue k x) eqn:En; [|reflexivity]. unfold is_novalue in En. apply andb_true_iff in En as [E1 E2]. apply String.eqb_eq in E1 as ->. destruct x as [| | | |s| |]; try discriminate. cbn [eq_str] in E2. apply String.eqb_eq in E2 as <-. now elim He. }
  assert (Hcf : ~ In "Fn::If" (keys (clean d))).
  { intros K. apply Hf. unfold clean in K. apply in_map_iff in K as [[k x] [<- K]]. apply filter_In in K as [K _]. apply in_map_iff. exists (k, x). auto. }
  destruct scs as [|sc0 scs].
  - rewrite Hplain in E by exact Hnv. injection E as <-. rewrite Hplain by exact Hcv. eexists. split; [reflexivity|]. constructor; [|constructor]. split; [reflexivity|]. intros k Hk. cbn [snd]. apply item_of_eq. symmetry. now apply assoc_clean.
  - revert out E. generalize (sc0 :: scs). clear sc0 scs. induction l as [|sc l IH]; intros out E; [injection E as <-; exists []; split; [reflexivity | constructor]|].
    cbn [map_res] in *. destruct (rmap (fun o => (Some sc, o)) (resolve_deep sc (VDict d))) as [y|] eqn:Ey; [|discriminate]. cbn [bind] in E. destruct (map_res _ l) as [ys|] eqn:Es; [|discriminate]. cbn [bind] in E. injection E as <-.
    destruct (IH ys eq_refl) as [out' [E' F]]. rewrite rd_object in Ey by assumption. destruct (rd_members sc d) as [d1|] eqn:Ed; [|discriminate]. cbn [bind rmap] in Ey. injection Ey as <-.
    destruct (rd_clean sc d d1 Ed) as [d2 [E2 H2]]. rewrite (rd_object sc (clean d)) by assumption. rewrite E2. cbn [bind rmap]. rewrite E'. cbn [bind]. eexists. split; [reflexivity|]. constructor; [|exact F]. split; [reflexivity|]. intros k Hk. cbn [snd]. apply item_of_eq. symmetry. now apply H2.
Qed.
Lemma json_value_clean float_text order c template globals d p prop limit out : NoDup (keys d) -> ~ In "Fn::If" (keys d) -> VDict d <> no_value -> VDict (clean d) <> no_value ->
  get_object_without_nested_conditions order c template globals (VDict d) p = Ok out -> In prop (keys (clean d)) ->
  json_value float_text order c template globals (VDict (clean d)) p prop limit = concat_res (json_set float_text p prop limit) out.
Proof.
  intros Hn Hf Hnv Hcv E Hk. destruct (nested_clean order c template globals d p out Hn Hf Hnv Hcv E) as [out' [E' F]]. unfold json_value. rewrite E'. cbn [bind].
  clear E E'. induction F as [|so so' l l' [H1 H2] F IH]; [reflexivity|]. cbn [concat_res]. rewrite IH. f_equal. unfold json_set. now rewrite H1, (H2 prop Hk).
Qed.

(** * The properties of a resource *)
Lemma tidy_plain_dict d : tidy (VDict d) -> ~ is_if (VDict d) -> ~ In "Fn::If" (keys d).
Proof. intros H Hi. inversion H as [| | | | | |c t e Ht He E|d' Hf _]; subst; [elim Hi; eexists; reflexivity | exact Hf]. Qed.
Lemma tidy_member d k x : tidy (VDict d) -> ~ is_if (VDict d) -> In (k, x) d -> tidy x.
Proof. intros H Hi Hx. inversion H as [| | | | | |c t e Ht He E|d' Hf Hm]; subst; [elim Hi; eexists; reflexivity | now apply (Hm k)]. Qed.
Lemma limit_of json_max ps limit : json_limit json_max ps limit -> ps_value ps <> [] /\ opt_eqb (ps_primitive ps) "Json" = true /\ json_max (value_type "ValueType" ps) = Some limit.
Proof. intros [H1 [t [H2 H3]]]. split; [intros K; rewrite K in H2; discriminate|]. split; [now apply opt_eqb_some|]. unfold value_type. now rewrite H2. Qed.
Section Checked.
Variables (float_text : Q -> string) (template globals : val) (json_max : string -> option Z) (props : list (string * val)) (specs : pspecs) (p : path).
Hypothesis Hw : wf template.
Hypothesis Hg : wf globals.
Hypothesis Hp : at_path p template = Some (VDict props).
Hypothesis Hpl : plain_path p.
Hypothesis Hgp : at_path p globals = None.
Hypothesis Ht : tidy (VDict props).
Hypothesis Hi : ~ is_if (VDict props).
Hypothesis Hr : ~ In "Ref" (keys specs).
Hypothesis Hl : limits_known json_max specs.
(** With the results of the conditions, what is reported. *)
Lemma json_check_spec order c out : VDict props <> no_value ->
  get_object_without_nested_conditions order c template globals (VDict props) p = Ok out ->
  (forall s o prop ps limit, In (s, o) out -> assoc prop specs = Some ps -> json_limit json_max ps limit -> (exists x, assoc prop props = Some x) -> exists y, item_of o prop = Ok y /\ subs_written y) ->
  exists ms, json_check float_text order c template globals json_max (VDict props) specs p = Ok ms /\
    forall m, In m ms <-> exists prop ps limit x s o y, assoc prop specs = Some ps /\ json_limit json_max ps limit /\ assoc prop props = Some x /\ x <> no_value /\
      In (s, o) out /\ item_of o prop = Ok y /\ too_long (fun q => String.length (float_text q)) limit y /\ m = mkRM (p ++ [PKey prop])%list (json_message limit s).
Proof using Hw Hp Ht Hi Hr Hl.
  intros Hnv E Hsub. assert (Hn : NoDup (keys props)). { apply (at_path_wf p template _ Hw) in Hp. now apply wf_dict in Hp as [Hp _]. }
  pose proof (tidy_plain_dict props Ht Hi) as Hf. pose proof (plain_objects props p Hi) as Ha.
  assert (Hv : forall prop ps, In prop (keys (clean props)) -> assoc prop specs = Some ps -> forall limit, json_value float_text order c template globals (VDict (clean props)) p prop limit = concat_res (json_set float_text p prop limit) out).
  { intros prop ps Hk Hs limit. apply json_value_clean; auto. intros K. rewrite (f_equal (fun v => match v with VDict d => d | _ => [] end) K : clean props = _) in Hk. destruct Hk as [<-|[]]. apply Hr. apply assoc_Some_key. eauto. }
  assert (Hone : forall prop ps limit, In prop (keys (clean props)) -> assoc prop specs = Some ps -> json_limit json_max ps limit ->
    exists ms, json_value float_text order c template globals (VDict (clean props)) p prop (Some limit) = Ok ms /\
      forall m, In m ms <-> exists s o y, In (s, o) out /\ item_of o prop = Ok y /\ too_long (fun q => String.length (float_text q)) limit y /\ m = mkRM (p ++ [PKey prop])%list (json_message limit s)).
  { intros prop ps limit Hk Hs Hlim. rewrite (Hv prop ps Hk Hs). apply clean_keys in Hk as [x [Ex Hx]]; [|exact Hn].
    destruct (concat_res_total (json_set float_text p prop (Some limit)) out) as [ms Ems].
    { intros [s o] Ho. destruct (Hsub s o prop ps limit Ho Hs Hlim (ex_intro _ x Ex)) as [y [Ey Hy]]. destruct (json_set_spec float_text p prop limit s o y Ey Hy) as [ms [K _]]. eauto. }
    exists ms. split; [exact Ems|]. intros m. rewrite (concat_res_ok_iff _ _ _ Ems). split.
    - intros [[s o] [o' [Ho [Eo Hm]]]]. destruct (Hsub s o prop ps limit Ho Hs Hlim (ex_intro _ x Ex)) as [y [Ey Hy]]. destruct (json_set_spec float_text p prop limit s o y Ey Hy) as [ms' [K K']]. rewrite Eo in K. injection K as <-. destruct (proj1 (K' m) Hm) as [Hm' ->]. exists s, o, y. auto.
    - intros [s [o [y [Ho [Ey [Hy ->]]]]]]. destruct (Hsub s o prop ps limit Ho Hs Hlim (ex_intro _ x Ex)) as [y' [Ey' Hy']]. rewrite Ey in Ey'. injection Ey' as <-. destruct (json_set_spec float_text p prop limit s o y Ey Hy') as [ms' [K K']]. exists (s, o), ms'. split; [exact Ho|]. split; [exact K|]. apply K'. auto. }
  assert (Hcase : forall prop ps, assoc prop specs = Some ps -> (exists limit, json_limit json_max ps limit) \/ (forall limit, ~ json_limit json_max ps limit) /\ (ps_value ps = [] \/ opt_eqb (ps_primitive ps) "Json" = false)).
  { intros prop ps Hs. destruct (opt_eqb (ps_primitive ps) "Json") eqn:Ej.
    - destruct (ps_value ps) as [|kv vs] eqn:Eps.
      + right. split; [|now left]. intros limit K. apply limit_of in K as [K _]. contradiction.
      + left. apply (Hl prop ps Hs); [now apply opt_eqb_some | rewrite Eps; discriminate].
    - right. split; [|now right]. intros limit K. apply limit_of in K as [_ [K _]]. congruence. }
  assert (Heq : forall prop ps limit v q, json_limit json_max ps limit -> match ps_value ps with [] => Ok [] | _ => if opt_eqb (ps_primitive ps) "Json" then json_value float_text order c template globals v q prop (json_max (value_type "ValueType" ps)) else Ok [] end =
     json_value float_text order c template globals v q prop (Some limit)).
  { intros prop ps limit v q K. apply limit_of in K as [K1 [K2 K3]]. rewrite K2, K3. now destruct (ps_value ps). }
  unfold json_check. match goal with |- context [per_property _ _ _ ?g] => set (f := g) end.
  destruct (per_property_total props specs p f Ha) as [ms Ems].
  { intros d q prop ps Hb Hk Hs. destruct (branch_plain props p _ q Hi Hb) as [-> [= ->]]. unfold f. destruct (Hcase prop ps Hs) as [[limit Hlim]|[_ [K|K]]].
    - rewrite (Heq _ _ _ _ _ Hlim). destruct (Hone prop ps limit Hk Hs Hlim) as [ms [K _]]. eauto.
    - rewrite K. eauto.
    - rewrite K. destruct (ps_value ps); eauto. }
  exists ms. split; [exact Ems|]. intros m. rewrite (per_property_in _ _ _ _ _ Ha Ems). split.
  - intros [d [q [prop [ps [o [Hb [Hk [Hs [Ef Hm]]]]]]]]]. destruct (branch_plain props p _ q Hi Hb) as [-> [= ->]]. unfold f in Ef. destruct (Hcase prop ps Hs) as [[limit Hlim]|[_ [K|K]]].
    + rewrite (Heq _ _ _ _ _ Hlim) in Ef. destruct (Hone prop ps limit Hk Hs Hlim) as [ms' [K K']]. rewrite Ef in K. injection K as <-. apply K' in Hm as [s [o' [y H]]]. apply clean_keys in Hk as [x [Ex Hx]]; [|exact Hn]. exists prop, ps, limit, x, s, o', y. tauto.
    + rewrite K in Ef. injection Ef as <-. destruct Hm.
    + rewrite K in Ef. destruct (ps_value ps); injection Ef as <-; destruct Hm.
  - intros [prop [ps [limit [x [s [o [y [Hs [Hlim [Ex [Hx H]]]]]]]]]]]. assert (Hk : In prop (keys (clean props))) by (apply clean_keys; [exact Hn | eauto]).
    destruct (Hone prop ps limit Hk Hs Hlim) as [ms' [K K']]. exists (clean props), p, prop, ps, ms'. split; [now apply plain_branch|]. split; [exact Hk|]. split; [exact Hs|]. split; [unfold f; now rewrite (Heq _ _ _ _ _ Hlim)|]. apply K'. exists s, o, y. exact H.
Qed.
Lemma no_value_check order c : props = [("Ref", VStr "AWS::NoValue")] -> json_check float_text order c template globals json_max (VDict props) specs p = Ok [].
Proof. intros ->. reflexivity. Qed.
(** No conditions. *)
Lemma c86_plain order c : (forall n, ~ rests_on (VDict props) n) ->
  (forall prop ps limit x, assoc prop specs = Some ps -> json_limit json_max ps limit -> assoc prop props = Some x -> subs_written x) ->
  exists ms, json_check float_text order c template globals json_max (VDict props) specs p = Ok ms /\
    forall m, In m ms <-> exists prop ps limit x, assoc prop specs = Some ps /\ json_limit json_max ps limit /\ assoc prop props = Some x /\ x <> no_value /\
      too_long (fun q => String.length (float_text q)) limit x /\ m = mkRM (p ++ [PKey prop])%list (json_words limit).
Proof using Hw Hg Hp Hpl Hgp Ht Hi Hr Hl.
  intros Hno Hsub. destruct (is_no_value (VDict props)) as [E|Hnv].
  - injection E as E. exists []. split; [now apply no_value_check|]. intros m. split; [intros []|]. intros [prop [ps [limit [x [Hs [_ [Ex _]]]]]]]. rewrite E in Ex. cbn [assoc] in Ex. destruct (String.eqb_spec prop "Ref") as [->|]; [|discriminate]. elim Hr. apply assoc_Some_key. eauto.
  - destruct (json_check_spec order c [(None, VDict props)] Hnv) as [ms [E Hms]].
    + apply nested_plain; auto.
    + intros s o prop ps limit [[= <- <-]|[]] Hs Hlim [x Ex]. exists x. split; [cbn [item_of]; now rewrite Ex | eauto].
    + exists ms. split; [exact E|]. intros m. rewrite Hms. split.
      * intros [prop [ps [limit [x [s [o [y [Hs [Hlim [Ex [Hx [[[= <- <-]|[]] [Ey [Hy ->]]]]]]]]]]]]]]. cbn [item_of] in Ey. rewrite Ex in Ey. injection Ey as <-. exists prop, ps, limit, x. split; [exact Hs|]. split; [exact Hlim|]. split; [exact Ex|]. split; [exact Hx|]. split; [exact Hy|]. unfold json_message, json_words. reflexivity.
      * intros [prop [ps [limit [x [Hs [Hlim [Ex [Hx [Hy ->]]]]]]]]]. exists prop, ps, limit, x, None, (VDict props), x. split; [exact Hs|]. split; [exact Hlim|]. split; [exact Ex|]. split; [exact Hx|]. split; [now left|]. split; [cbn [item_of]; now rewrite Ex|]. split; [exact Hy | reflexivity].
Qed.
(** With conditions. *)
Lemma c86_conditional hash order defs parameters names w0 b0 :
  (forall v, digest (hash v)) -> (forall l, Permutation (order l) l) ->
  section_of "Conditions" template defs -> section_of "Parameters" template parameters ->
  NoDup (keys defs) -> (forall n v, In (n, v) defs -> well_formed defs v) ->
  NoDup (keys parameters) -> (forall n p, In (n, p) parameters -> plain_parameter p) -> told_apart hash parameters ->
  NoDup names -> names <> [] -> (forall n, In n names <-> rests_on (VDict props) n) -> (forall n, In n names -> In n (keys defs)) ->
  (List.length names <= 4 \/ some_related defs names) -> deployment hash parameters w0 -> gives defs w0 names b0 ->
  (forall prop ps limit x b r, assoc prop specs = Some ps -> json_limit json_max ps limit -> assoc prop props = Some x -> deep (known names b) x r -> subs_written (member_left r)) ->
  exists bound, forall fuel, bound <= fuel ->
  exists ms, json_check float_text order (load hash fuel template) template globals json_max (VDict props) specs p = Ok ms /\
    (forall w b prop ps limit x r, deployment hash parameters w -> gives defs w names b -> assoc prop specs = Some ps -> json_limit json_max ps limit -> assoc prop props = Some x -> x <> no_value ->
       deep (known names b) x r -> too_long (fun q => String.length (float_text q)) limit (member_left r) ->
       exists sc, Permutation sc (scenario_of names b) /\ In (mkRM (p ++ [PKey prop])%list (json_words limit ++ " when " ++ scenario_text sc)) ms) /\
    (forall m, In m ms -> exists prop ps limit x sc b r, assoc prop specs = Some ps /\ json_limit json_max ps limit /\ assoc prop props = Some x /\
       Permutation sc (scenario_of names b) /\ deep (known names b) x r /\ too_long (fun q => String.length (float_text q)) limit (member_left r) /\
       m = mkRM (p ++ [PKey prop])%list (json_words limit ++ " when " ++ scenario_text sc) /\
       ((some_related defs names \/ forall n, In n names -> exists w, deployment hash parameters w /\ gives defs w [n] b) ->
        exists w, deployment hash parameters w /\ gives defs w names b)).
Proof using Hw Hg Hp Hpl Hgp Ht Hi Hr Hl.
  intros Hh Ho Hc Hpar Hcn Hcw Hpan Hpp Hta Hnd Hne Hn Hdef Hsz Hw0 Hg0 Hsub.
  assert (Hnv : VDict props <> no_value).
  { intros E. destruct names as [|n0 ns]; [now elim Hne|]. assert (K : rests_on (VDict props) n0) by (apply Hn; now left). rewrite E in K. inversion K as [| | | |d k x n Hx Hk Hrx]; subst. destruct Hx as [[= <- <-]|[]]. inversion Hrx. }
  assert (Hnp : NoDup (keys props)). { apply (at_path_wf p template _ Hw) in Hp. now apply wf_dict in Hp as [Hp _]. }
  pose proof (tidy_plain_dict props Ht Hi) as Hf.
  assert (Hscen : forall sc b, Permutation sc (scenario_of names b) -> sc <> []).
  { intros sc b Hperm ->. apply Permutation_nil in Hperm. destruct names; [now elim Hne | discriminate]. }
  assert (Hmsg : forall limit sc b, Permutation sc (scenario_of names b) -> json_message limit (Some sc) = json_words limit ++ " when " ++ scenario_text sc).
  { intros limit sc b Hperm. destruct sc as [|x sc]; [now elim (Hscen _ _ Hperm)|]. unfold json_message, json_words. now rewrite !str_app_assoc. }
  assert (Hmem : forall b r, deep (known names b) (VDict props) r -> exists d1, r = Some (VDict d1) /\ forall prop x, assoc prop props = Some x -> exists y, deep (known names b) x y /\ assoc prop d1 = Some (member_left y)).
  { intros b r Hd. inversion Hd as [c t e r0 Hdc Hdd E|c t e r0 Hdc Hdd E|c t e l0 Hdc Hdd E|E| | | | | |d d' H1 H2 H3|]; subst; try (elim Hi; eexists; reflexivity); [now elim Hnv|].
    exists d'. split; [reflexivity|]. clear -H3. induction H3 as [|k x y d d' Hx H3 IH|k x d d' Hx H3 IH]; intros prop z Ez; [discriminate| |]; cbn [assoc] in *; (destruct (String.eqb_spec prop k) as [->|]; [injection Ez as <-|now apply IH]).
    - exists (Some y). auto.
    - exists None. auto. }
  destruct (nested_both template globals p (VDict props) Hw Hg Hp Hpl Hgp Ht eq_refl Hnv hash order defs parameters names w0 b0) as [bound Hb]; auto.
  exists bound. intros fuel Hfu. destruct (Hb fuel Hfu) as [out [Eout [Hsound Hcomp]]].
  destruct (json_check_spec order (load hash fuel template) out Hnv Eout) as [ms [E Hms]].
  { intros s o prop ps limit Hso Hs Hlim [x Ex]. destruct (Hsound s o Hso) as [sc [b [r [-> [Hsc [Hd [-> Hpos]]]]]]]. destruct (Hmem b r Hd) as [d1 [-> Hd1]]. destruct (Hd1 prop x Ex) as [y [Hy Ey]].
    exists (member_left y). split; [cbn [left_over item_of]; now rewrite Ey|]. eapply Hsub; eassumption. }
  exists ms. split; [exact E|]. split.
  - intros w b prop ps limit x r Hdw Hgw Hs Hlim Ex Hx Hd Hlong. destruct (deep_total (known names b) (VDict props) Ht) as [r0 Hr0]. destruct (Hcomp w b r0 Hdw Hgw Hr0) as [sc [Hso Hsc]]. exists sc. split; [exact Hsc|].
    rewrite <- (Hmsg limit sc b Hsc). apply Hms. destruct (Hmem b r0 Hr0) as [d1 [-> Hd1]]. destruct (Hd1 prop x Ex) as [y [Hy Ey]]. assert (y = r) as -> by exact (deep_unique names b x y r Hnd Hy Hd).
    exists prop, ps, limit, x, (Some sc), (VDict d1), (member_left r). split; [exact Hs|]. split; [exact Hlim|]. split; [exact Ex|]. split; [exact Hx|]. split; [exact Hso|]. split; [cbn [item_of]; now rewrite Ey|]. split; [exact Hlong | reflexivity].
  - intros m Hm. apply Hms in Hm as [prop [ps [limit [x [s [o [y [Hs [Hlim [Ex [Hx [Hso [Ey [Hlong ->]]]]]]]]]]]]]]. destruct (Hsound s o Hso) as [sc [b [r [-> [Hsc [Hd [-> Hpos]]]]]]]. destruct (Hmem b r Hd) as [d1 [-> Hd1]]. destruct (Hd1 prop x Ex) as [z [Hz Ez]].
    cbn [left_over item_of] in Ey. rewrite Ez in Ey. injection Ey as <-. exists prop, ps, limit, x, sc, b, z. rewrite <- (Hmsg limit sc b Hsc). auto 10.
Qed.
End Checked.
Lemma c86_run float_text hash order fuel globals rs json_max sp k c raw m0 d0 name rt attrs pd prop ps limit x : wf (template c) -> wf globals ->
  snd (coll_run sp k c) = Ok raw -> In (json_rule float_text hash order fuel globals rs json_max) (k_all k) -> enabled (k_set k) (json_rule float_text hash order fuel globals rs json_max) = true -> c_tmpl c = MDict m0 d0 ->
  resource_of (template c) name rt attrs -> assoc "Properties" attrs = Some (VDict pd) -> ~ In name FUNCTIONS -> at_path (props_path name) globals = None ->
  tidy (VDict pd) -> (forall n, ~ rests_on (VDict pd) n) -> In rt (keys (rs_resource_types rs)) -> ~ In "Ref" (keys (specs_of rt (rs_resource_types rs))) -> limits_known json_max (specs_of rt (rs_resource_types rs)) ->
  (forall prop ps limit x, assoc prop (specs_of rt (rs_resource_types rs)) = Some ps -> json_limit json_max ps limit -> assoc prop pd = Some x -> subs_written x) ->
  assoc prop (specs_of rt (rs_resource_types rs)) = Some ps -> json_limit json_max ps limit -> assoc prop pd = Some x -> x <> no_value -> too_long (fun q => String.length (float_text q)) limit x ->
  exists f, locate_match c "E3502" (mkRM (props_path name ++ [PKey prop])%list (json_words limit)) = Ok f /\ In f raw.
Proof.
  intros Hw Hg Hrun Hr He Hc Hres Hp Hname Hgp Ht Hno Hrt Href Hl Hsub Hs Hlim Ex Hx Hlong.
  assert (Hat : at_path (props_path name) (template c) = Some (VDict pd)) by (eapply resource_at; eassumption).
  assert (Hpl : plain_path (props_path name)).
  { intros k' Hk. unfold props_path in Hk. cbn [In] in Hk. destruct Hk as [[= <-]|[[= <-]|[[= <-]|[]]]]; try exact Hname; intros K; apply smem_iff in K; discriminate K. }
  assert (Hi : ~ is_if (VDict pd)).
  { intros [y E]. rewrite E in Ht, Hno. inversion Ht as [| | | | | |c' t e H1 H2 E'|d Hf _]; subst; [apply (Hno c'); constructor | apply Hf; now left]. }
  destruct (c86_plain float_text (template c) globals json_max pd (specs_of rt (rs_resource_types rs)) (props_path name) Hw Hg Hat Hpl Hgp Ht Hi Href Hl order (load hash fuel (template c)) Hno Hsub) as [ms [E Hms]].
  refine (reported_props sp k c raw _ _ name rt attrs pd ms _ m0 d0 Hrun Hr He eq_refl _ Hc Hres Hp E _ _).
  - exact Hrt.
  - intros m Hm. apply Hms in Hm as [prop' [ps' [limit' [x' [_ [_ [Ex' [_ [_ ->]]]]]]]]]. cbn [rm_path]. split; [now intros K; apply app_eq_nil in K as [_ [=]]|]. exists x'. rewrite at_path_app, Hat. cbn [at_path]. now rewrite Ex'.
  - apply Hms. exists prop, ps, limit, x. auto 8.
Qed.
