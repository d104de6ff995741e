(** Proofs for C31: the operands of Fn::Equals. *)
From Coq Require Import Lia.
From Verif.Model Require Import Base Helpers Search Rules Refs ConditionRules.
From Verif.Spec Require Import Paths References ConditionUse.
From Verif.Proofs Require Import BaseFacts SearchProofs RelationRule RefProofs ConditionUseProofs.

(** * The longest match *)
Lemma best_kept {A} (d : list (string * A)) item n v :
  (forall k x, In (k, x) d -> regex_matches k item = true -> String.length k < n) -> regex_best d item (Some (n, v)) = Some (n, v).
Proof.
  induction d as [|[k x] d IH]; intros H; [reflexivity|]. cbn [regex_best]. destruct (regex_matches k item) eqn:E.
  - assert (Hl : String.length k < n) by (eapply H; [left; reflexivity | exact E]). destruct (Nat.leb_spec n (String.length k)); [lia|].
    apply IH. intros k' x' Hi. apply (H k' x'). now right.
  - apply IH. intros k' x' Hi. apply (H k' x'). now right.
Qed.
Lemma best_found {A} (d : list (string * A)) item v : NoDup (keys d) -> In (item, v) d ->
  regex_matches item item = true ->
  (forall k x, In (k, x) d -> k <> item -> regex_matches k item = true -> String.length k < String.length item) ->
  forall best, match best with Some (n, _) => n < String.length item | None => True end ->
  regex_best d item best = Some (String.length item, v).
Proof.
  intros Hnd Hi Hm Hs. induction d as [|[k x] d IH]; intros best Hb; [destruct Hi|].
  cbn [keys map fst] in Hnd. inversion Hnd as [|? ? N1 N2]; subst. cbn [regex_best]. destruct (string_dec k item) as [->|Hne].
  - assert (x = v). { destruct Hi as [[= ->]|Hi]; [reflexivity|]. exfalso. apply N1. apply in_map_iff. now exists (item, v). } subst x.
    rewrite Hm. assert (E : match best with Some (n, _) => if n <=? String.length item then Some (String.length item, v) else best | None => Some (String.length item, v) end = Some (String.length item, v)).
    { destruct best as [[n y]|]; [|reflexivity]. destruct (Nat.leb_spec n (String.length item)); [reflexivity | lia]. }
    rewrite E. apply best_kept. intros k x Hk. apply (Hs k x); [now right|]. intros ->. apply N1. apply in_map_iff. now exists (item, x).
  - destruct Hi as [[= -> _]|Hi]; [congruence|].
    apply (IH N2 Hi); [intros k' x' Hk; apply Hs with (x := x'); now right|].
    destruct (regex_matches k item) eqn:E; [|exact Hb]. assert (Hl := Hs k x (or_introl eq_refl) Hne E).
    destruct best as [[n y]|]; [destruct (n <=? String.length k); assumption | exact Hl].
Qed.
Lemma in_set_assoc {A} k (v : A) d k' v' : In (k', v') (set_assoc k v d) -> (k' = k /\ v' = v) \/ In (k', v') d.
Proof.
  induction d as [|[k0 v0] d IH]; cbn [set_assoc]; [intros [[= <- <-]|[]]; now left|].
  destruct (String.eqb_spec k k0) as [->|]; intros [[= <- <-]|H]; [left; auto | right; now right | right; now left |]. apply IH in H as [H|H]; [auto | right; now right].
Qed.

(** * The entries of get_valid_refs *)
Lemma parameter_refs_entries ps : NoDup (keys ps) -> (forall n x, In (n, x) ps -> exists o, x = VDict o) -> forall r out, NoDup (keys r) ->
  parameter_refs ps r = Ok out -> NoDup (keys out) /\
  (forall k i, In (k, i) out -> In (k, i) r \/ exists o, In (k, VDict o) ps /\ assoc "Type" o = Some (ref_type i) /\ ref_from i = "Parameters") /\
  (forall k o t, In (k, VDict o) ps -> assoc "Type" o = Some t -> assoc k out = Some (mkRef t "Parameters")) /\
  (forall k, ~ In k (keys ps) -> assoc k out = assoc k r).
Proof.
  induction ps as [|[n x] ps IH]; intros Hnd Ho r out Hr H; cbn [parameter_refs] in H.
  - injection H as <-. repeat split; auto. intros k o t [].
  - cbn [keys map fst] in Hnd. inversion Hnd as [|? ? N1 N2]; subst. destruct (Ho n x (or_introl eq_refl)) as [o ->]. cbn [member_type bind] in H.
    assert (Hr' : NoDup (keys (match assoc "Type" o with Some t => set_assoc n (mkRef t "Parameters") r | None => r end))).
    { destruct (assoc "Type" o); [now apply keys_set_NoDup | exact Hr]. }
    destruct (IH N2 (fun n' x' Hi => Ho n' x' (or_intror Hi)) _ out Hr' H) as [H1 [H2 [H3 H4]]]. split; [exact H1|]. split; [|split].
    + intros k i Hi. apply H2 in Hi as [Hi|[o' [Hi Ht]]]; [|right; exists o'; split; [now right | exact Ht]].
      destruct (assoc "Type" o) as [t|] eqn:Et; [|now left]. apply in_set_assoc in Hi as [[-> ->]|Hi]; [|now left]. right. exists o. split; [now left|]. split; [exact Et | reflexivity].
    + intros k o' t [[= -> ->]|Hi] Ht; [|now apply (H3 k o' t)]. rewrite H4 by exact N1. rewrite Ht. apply assoc_set_same.
    + intros k Hk. rewrite H4 by (intros Hi; apply Hk; now right). destruct (assoc "Type" o); [|reflexivity]. apply assoc_set_other. intros ->. apply Hk. now left.
Qed.
Lemma resource_refs_entries rs : (forall n x, In (n, x) rs -> exists o, x = VDict o /\ forall t, assoc "Type" o = Some t -> exists u, t = VStr u) ->
  forall r out, NoDup (keys r) -> resource_refs rs r = Ok out -> NoDup (keys out) /\
  (forall k i, In (k, i) out -> In (k, i) r \/ ref_from i = "Resources") /\
  (forall k, ~ In k (keys rs) -> ends_with ".*" k = false -> assoc k out = assoc k r).
Proof.
  induction rs as [|[n x] rs IH]; intros Ho r out Hr H; cbn [resource_refs] in H.
  - injection H as <-. repeat split; auto.
  - destruct (Ho n x (or_introl eq_refl)) as [o [-> Ht]]. cbn [vget_def bind] in H.
    assert (Hcase : exists t, match assoc "Type" o with Some x => x | None => VStr "" end = VStr t).
    { destruct (assoc "Type" o) as [t|]; [|eauto]. destruct (Ht t eq_refl) as [u ->]. eauto. }
    destruct Hcase as [t Et]. rewrite Et in H.
    match type of H with resource_refs rs ?r' = _ => set (r1 := r') in * end.
    assert (Hr1 : NoDup (keys r1)) by (unfold r1; destruct (ends_with "::MODULE" t); [now apply keys_set_NoDup|]; destruct (String.eqb t ""); [exact Hr | now apply keys_set_NoDup]).
    destruct (IH (fun n' x' Hi => Ho n' x' (or_intror Hi)) r1 out Hr1 H) as [H1 [H2 H3]]. split; [exact H1|]. split.
    + intros k i Hi. apply H2 in Hi as [Hi|Hi]; [|now right]. unfold r1 in Hi. destruct (ends_with "::MODULE" t).
      * apply in_set_assoc in Hi as [[_ ->]|Hi]; [now right | now left].
      * destruct (String.eqb t ""); [now left|]. apply in_set_assoc in Hi as [[_ ->]|Hi]; [now right | now left].
    + intros k Hk He. rewrite H3; [|intros Hi; apply Hk; now right | exact He]. unfold r1. destruct (ends_with "::MODULE" t).
      * apply assoc_set_other. intros ->. assert (ends_with ".*" (n ++ ".*") = true) by (apply ends_with_iff; now exists n). congruence.
      * destruct (String.eqb t ""); [reflexivity|]. apply assoc_set_other. intros ->. apply Hk. now left.
Qed.
Lemma pseudo_refs_entries r : NoDup (keys r) -> NoDup (keys (pseudo_refs r)) /\
  (forall k i, In (k, i) (pseudo_refs r) -> In (k, i) r \/ ref_from i = "Pseduo") /\
  (forall k, ~ In k PSEUDOPARAMS -> assoc k (pseudo_refs r) = assoc k r).
Proof.
  unfold pseudo_refs. revert r. induction PSEUDOPARAMS as [|p l IH]; intros r Hr; cbn [fold_left]; [auto|].
  destruct (IH (set_assoc p (mkRef (VStr "Pseudo") "Pseduo") r) (keys_set_NoDup _ _ _ Hr)) as [H1 [H2 H3]]. split; [exact H1|]. split.
  - intros k i Hi. apply H2 in Hi as [Hi|Hi]; [|now right]. apply in_set_assoc in Hi as [[_ ->]|Hi]; [now right | now left].
  - intros k Hk. rewrite H3 by (intros Hi; apply Hk; now right). apply assoc_set_other. intros ->. apply Hk. now left.
Qed.

Section Equals.
Variable template globals : val.
Hypothesis Hwf : wf template.
Hypothesis Hgw : wf globals.
Hypothesis Hpl : plain_sections template.

Lemma section_NoDup section m x : vget_def section (VDict []) template = Ok x -> items_if x = Ok m -> NoDup (keys m).
Proof using Hwf Hpl.
  intros E1 E2. destruct template as [| | | | | |d]; try discriminate. cbn [vget_def] in E1. injection E1 as <-.
  destruct (assoc section d) as [s|] eqn:E; [|injection E2 as <-; constructor]. unfold items_if in E2. destruct (truthy s); [|injection E2 as <-; constructor].
  destruct s; try discriminate. injection E2 as <-. apply wf_dict in Hwf as [_ Hw]. apply assoc_In in E. apply Hw in E. now apply wf_dict in E as [E _].
Qed.

Lemma valid_lookup valid n : get_valid_refs template = Ok valid -> unambiguous template n ->
  exists i, regex_get valid n = Some i /\
    (String.eqb (ref_from i) "Parameters" && py_in (ref_type i) (map VStr VALID_PARAMETER_TYPES_LIST) = true <-> list_parameter template n).
Proof using Hwf Hpl.
  intros Hv [Hn [Hpr [Hps Hmod]]].
  assert (Hc : regex_contains valid n = true).
  { destruct (valid_refs_spec template Hwf Hpl) as [valid' [E [_ Hs]]]. rewrite E in Hv. injection Hv as ->. apply Hs. exists n, "". rewrite append_nil_r. auto. }
  unfold get_valid_refs in Hv. destruct (section_items template Hwf Hpl "Parameters") as [x [ps [Ex [Ep [Hp Hpd]]]]]; [now left|].
  destruct (section_items template Hwf Hpl "Resources") as [y [rs [Ey [Er [Hr Hrd]]]]]; [now right; left|].
  assert (Np := section_NoDup _ _ _ Ex Ep). assert (Nr := section_NoDup _ _ _ Ey Er).
  rewrite Ex in Hv. cbn [bind] in Hv. rewrite Ep in Hv. cbn [bind] in Hv.
  assert (Hpo : forall n x, In (n, x) ps -> exists o, x = VDict o) by (intros n' v' H; destruct (Hp n' v' H) as [o [-> _]]; eauto).
  assert (Hro : forall n x, In (n, x) rs -> exists o, x = VDict o /\ forall t, assoc "Type" o = Some t -> exists u, t = VStr u).
  { intros n' v' H. destruct (Hr n' v' H) as [o [-> [H1 _]]]. exists o. split; [reflexivity|]. now apply H1. }
  destruct (parameter_refs_keys ps Hpo []) as [a [Ea Ka]]. rewrite Ea in Hv. cbn [bind] in Hv. rewrite Ey in Hv. cbn [bind] in Hv. rewrite Er in Hv. cbn [bind] in Hv.
  destruct (resource_refs_keys rs Hro a) as [b [Eb Kb]]. rewrite Eb in Hv. cbn [bind] in Hv. injection Hv as <-.
  destruct (parameter_refs_entries ps Np Hpo [] a (NoDup_nil _) Ea) as [Na [Ia [Aa Oa]]].
  destruct (resource_refs_entries rs Hro a b Na Eb) as [Nb [Ib Ob]]. destruct (pseudo_refs_entries b Nb) as [Nc [Ic Oc]].
  (* the name is itself a key *)
  assert (He : ends_with ".*" n = false).
  { destruct Hn as [n o t Hd _|n o t Hd _|n Hi].
    - apply Hpd in Hd. destruct (Hp _ _ Hd) as [_ [_ [_ He]]]. exact He.
    - apply Hrd in Hd. destruct (Hr _ _ Hd) as [_ [_ [_ He]]]. exact He.
    - cbn in Hi. repeat (destruct Hi as [<-|Hi]; [reflexivity|]). destruct Hi. }
  assert (Hk : In n (keys (pseudo_refs b))).
  { apply pseudo_refs_keys. destruct Hn as [n o t Hd Ht|n o t Hd Ht Hne Hm|n Hi]; [left|left|now right].
    - apply Kb. left. apply Ka. right. exists o, t. split; [now apply Hpd | exact Ht].
    - apply Kb. right. exists n, o, t. split; [now apply Hrd|]. auto. }
  apply assoc_Some_key in Hk as [i Hi]. exists i. split.
  - unfold regex_get. rewrite (best_found (pseudo_refs b) n i); [reflexivity|exact Nc|now apply assoc_In| | |exact I].
    + unfold regex_matches. rewrite key_name_plain by exact He. apply prefix_iff. exists "". now rewrite append_nil_r.
    + intros k z Hkz Hne Hm. unfold regex_matches, starts_with in Hm. apply prefix_iff in Hm as [rest Hm].
      assert (Hkey : In k (keys (pseudo_refs b))) by (unfold keys; apply in_map_iff; now exists (k, z)).
      assert (Hplain : ends_with ".*" k = false -> String.length k < String.length n).
      { intros Hek. rewrite key_name_plain in Hm by exact Hek. destruct rest as [|c rest]; [rewrite append_nil_r in Hm; congruence|].
        rewrite Hm, length_append. cbn. lia. }
      apply pseudo_refs_keys in Hkey as [Hkey|Hkey].
      * apply Kb in Hkey as [Hkey|[n' [o [t [Hd [Ht Hc']]]]]].
        -- apply Ka in Hkey as [[]|[o [t [Hd Ht]]]]. apply Hplain. destruct (Hp _ _ Hd) as [_ [_ [_ H]]]. exact H.
        -- destruct Hc' as [[Hmo ->]|[_ [_ ->]]].
           ++ exfalso. rewrite key_name_module in Hm. apply (Hmod n' rest); [|exact Hm]. exists o, t. split; [now apply Hrd|]. auto.
           ++ apply Hplain. destruct (Hr _ _ Hd) as [_ [_ [_ H]]]. exact H.
      * apply Hplain. cbn in Hkey. repeat (destruct Hkey as [<-|Hkey]; [reflexivity|]). destruct Hkey.
  - rewrite andb_true_iff, String.eqb_eq. split.
    + intros [Hf Ht]. apply assoc_In in Hi. apply Ic in Hi as [Hi|Hi]; [|congruence]. apply Ib in Hi as [Hi|Hi]; [|congruence].
      apply Ia in Hi as [[]|[o [Hd [Hty _]]]]. unfold py_in in Ht. apply existsb_exists in Ht as [z [Hz Hz']]. apply in_map_iff in Hz as [t [<- Hz]].
      exists o, t. split; [now apply Hpd|]. split; [|exact Hz]. rewrite Hty. f_equal. destruct (ref_type i) as [|bb|zz|qq|ss|ll|dd]; try (exfalso; cbn in Hz'; try (destruct bb); discriminate). cbn in Hz'. apply String.eqb_eq in Hz'. congruence.
    + intros [o [t [Hd [Ht Hl]]]]. assert (Hin := proj2 (Hpd n o) Hd). assert (Ei : assoc n (pseudo_refs b) = Some (mkRef (VStr t) "Parameters")).
      { rewrite Oc by (intros H; exact (Hps o H Hd)). rewrite Ob; [exact (Aa n o (VStr t) Hin Ht)| |exact He].
        intros H. unfold keys in H. apply in_map_iff in H as [[n' v] [E Hv']]. cbn in E. subst n'. destruct (Hr n v Hv') as [o' [-> _]].
        apply Hrd in Hv'. exact (Hpr o o' (conj Hd Hv')). }
      rewrite Hi in Ei. injection Ei as ->. split; [reflexivity|]. cbn [ref_type]. unfold py_in. apply existsb_exists. exists (VStr t). split; [now apply in_map | apply String.eqb_refl].
Qed.

Lemma operand_spec valid p i x : get_valid_refs template = Ok valid -> plain_operand template x ->
  exists ms, equals_operand valid p (i, x) = Ok ms /\ (ms = [] <-> valid_operand template x) /\
  forall m, In m ms -> rm_path m = p ++ [PIdx i] \/ exists k, rm_path m = p ++ [PIdx i; PKey k].
Proof using Hwf Hpl.
  intros Hv Hx. unfold equals_operand. cbn [snd fst].
  assert (Hbad : forall msg, ~ valid_operand template x -> exists ms, Ok [mkRM (p ++ [PIdx i]) msg] = Ok ms /\ (ms = [] <-> valid_operand template x) /\
     forall m, In m ms -> rm_path m = p ++ [PIdx i] \/ exists k, rm_path m = p ++ [PIdx i; PKey k]).
  { intros msg H. eexists. split; [reflexivity|]. split; [split; [discriminate | contradiction]|]. intros m [<-|[]]. now left. }
  assert (Hgood : valid_operand template x -> exists ms, Ok (@nil rulematch) = Ok ms /\ (ms = [] <-> valid_operand template x) /\
     forall m, In m ms -> rm_path m = p ++ [PIdx i] \/ exists k, rm_path m = p ++ [PIdx i; PKey k]).
  { intros H. exists []. split; [reflexivity|]. split; [split; auto|]. intros m []. }
  destruct x as [| | | | | |o]; try (apply Hgood; constructor); try (apply Hbad; inversion 1).
  unfold equals_object. destruct o as [|[k y] [|z o]]; try (apply Hbad; inversion 1).
  destruct (smem k allowed_functions) eqn:Ek.
  - destruct (String.eqb_spec k "Ref") as [->|Hk].
    + destruct (Hx y eq_refl) as [n [-> Hn]]. destruct (valid_lookup valid n Hv Hn) as [inf [-> Hl]].
      destruct (String.eqb (ref_from inf) "Parameters" && py_in (ref_type inf) (map VStr VALID_PARAMETER_TYPES_LIST))%bool eqn:E.
      * apply Hbad. intros H. inversion H as [| | | |n' Hn'|k' y' Hi]; subst; [|cbn in Hi; intuition discriminate]. apply Hn'. now apply Hl.
      * apply Hgood. apply vo_ref. intros H. apply Hl in H. congruence.
    + apply Hgood. apply vo_call. apply smem_iff in Ek. cbn in Ek |- *. intuition congruence.
  - exists [mkRM ((p ++ [PIdx i]) ++ [PKey k]) ("Fn::Equals element must be a supported function (" ++ allowed_text ++ ")")%string].
    split; [reflexivity|]. split.
    + split; [discriminate|]. intros H. exfalso. apply smem_false in Ek. apply Ek. inversion H; subst; cbn; [now left|]. right. assumption.
    + intros m [<-|[]]. right. exists k. cbn [rm_path]. now rewrite <- app_assoc.
Qed.

Lemma equals_spec valid r v : get_valid_refs template = Ok valid ->
  (forall a b, v = VList [a; b] -> plain_operand template a /\ plain_operand template b) ->
  exists ms, equals_check valid (PKey "Conditions" :: r, v) = Ok ms /\ (ms = [] <-> valid_equals template v) /\
  forall m, In m ms -> at_or_below (PKey "Conditions" :: r) (rm_path m).
Proof using Hwf Hpl.
  intros Hv Hx. unfold equals_check. cbn [from_conditions]. rewrite String.eqb_refl. set (p := PKey "Conditions" :: r).
  assert (Hbad : ~ valid_equals template v -> exists ms, Ok [mkRM p "Fn::Equals must be a list of two elements"] = Ok ms /\ (ms = [] <-> valid_equals template v) /\
     forall m, In m ms -> at_or_below p (rm_path m)).
  { intros H. eexists. split; [reflexivity|]. split; [split; [discriminate | contradiction]|]. intros m [<-|[]]. exists []. rewrite app_nil_r. auto. }
  destruct v as [| | | | |ll|]; try (apply Hbad; intros [aa [bb [HH _]]]; discriminate).
  destruct ll as [|a [|b [|c ll]]]; try (apply Hbad; intros [aa [bb [HH _]]]; discriminate).
  destruct (Hx a b eq_refl) as [Ha Hb]. change (enum [a; b]) with [(0, a); (1, b)]. cbn [concat_res].
  destruct (operand_spec valid p 0 a Hv Ha) as [ma [Ea [Ia Pa]]]. destruct (operand_spec valid p 1 b Hv Hb) as [mb [Eb [Ib Pb]]].
  rewrite Ea. cbn [bind]. rewrite Eb. cbn [bind]. eexists. split; [reflexivity|]. split.
  - unfold valid_equals. rewrite app_nil_r. split.
    + intros H. apply app_eq_nil in H as [H1 H2]. exists a, b. split; [reflexivity|]. split; [now apply Ia | now apply Ib].
    + intros [a' [b' [[= <- <-] [H1 H2]]]]. apply Ia in H1 as ->. apply Ib in H2 as ->. reflexivity.
  - intros m Hm. rewrite !in_app_iff in Hm. destruct Hm as [Hm|[Hm|[]]].
    + destruct (Pa m Hm) as [->|[k ->]]; eexists; (split; [reflexivity|]); eauto 6.
    + destruct (Pb m Hm) as [->|[k ->]]; eexists; (split; [reflexivity|]); eauto 6.
Qed.

Lemma c31_equals :
  (forall r a b, occurs "Fn::Equals" template globals (PKey "Conditions" :: r) (VList [a; b]) -> plain_operand template a /\ plain_operand template b) ->
  exists ms, equals_match template globals = Ok ms /\
  (forall m, In m ms -> exists r v, occurs "Fn::Equals" template globals (PKey "Conditions" :: r) v /\ ~ valid_equals template v /\
     at_or_below (PKey "Conditions" :: r ++ [PKey "Fn::Equals"]) (rm_path m)) /\
  (forall r v, occurs "Fn::Equals" template globals (PKey "Conditions" :: r) v -> ~ valid_equals template v ->
     exists m, In m ms /\ at_or_below (PKey "Conditions" :: r ++ [PKey "Fn::Equals"]) (rm_path m)).
Proof using Hwf Hgw Hpl.
  intros Hop. unfold equals_match. destruct (valid_refs_spec template Hwf Hpl) as [valid [Ev _]]. rewrite Ev. cbn [bind].
  assert (Hone : forall q v, In (q, v) (search_deep_keys "Fn::Equals" template globals) -> exists ms, equals_check valid (q, v) = Ok ms /\
    ((exists r, q = PKey "Conditions" :: r ++ [PKey "Fn::Equals"] /\ occurs "Fn::Equals" template globals (PKey "Conditions" :: r) v /\
        (ms = [] <-> valid_equals template v) /\ forall m, In m ms -> at_or_below q (rm_path m)) \/
     ms = [] /\ forall r, q <> PKey "Conditions" :: r)).
  { intros q v H. apply in_search_deep in H as [p [-> H]]; try assumption. destruct (from_conditions (p ++ [PKey "Fn::Equals"])) eqn:E.
    - destruct p as [|[k|i] p]; [discriminate| |discriminate]. cbn in E. apply String.eqb_eq in E as ->.
      destruct (equals_spec valid (p ++ [PKey "Fn::Equals"]) v Ev) as [ms [E1 [E2 E3]]]; [intros a b ->; now apply (Hop p)|].
      exists ms. split; [exact E1|]. left. exists p. auto.
    - exists []. split; [unfold equals_check; now rewrite E|]. right. split; [reflexivity|]. intros r Hr. rewrite Hr in E. cbn in E. discriminate. }
  assert (Ht : forall pv, In pv (search_deep_keys "Fn::Equals" template globals) -> exists ms, equals_check valid pv = Ok ms).
  { intros [q v] H. destruct (Hone q v H) as [ms [E _]]; eauto. }
  destruct (concat_res_total _ _ Ht) as [ms E]. exists ms. split; [exact E|]. split.
  - intros m Hm. apply (concat_res_in _ _ _ m E) in Hm as [[q v] [y [Hi [Ey Hy]]]].
    destruct (Hone q v Hi) as [ms' [E' Hc]]. rewrite E' in Ey. injection Ey as ->. destruct Hc as [[r [-> [Ho [He Hp]]]]|[-> _]]; [|destruct Hy].
    exists r, v. split; [exact Ho|]. split; [intros H; apply He in H as ->; destruct Hy | now apply Hp].
  - intros r v Ho Hn. assert (Hi : In ((PKey "Conditions" :: r) ++ [PKey "Fn::Equals"], v) (search_deep_keys "Fn::Equals" template globals)) by (apply in_search_deep; eauto).
    destruct (Hone _ _ Hi) as [ms' [E' Hc]]. destruct Hc as [[r' [Hr [_ [He Hp]]]]|[_ Hc]]; [|exfalso; exact (Hc _ eq_refl)].
    destruct ms' as [|m ms']; [exfalso; apply Hn; now apply He|]. exists m. split; [|apply Hp; now left].
    apply (concat_res_in _ _ _ m E). exists ((PKey "Conditions" :: r) ++ [PKey "Fn::Equals"], v), (m :: ms'). split; [exact Hi|]. split; [exact E' | now left].
Qed.
End Equals.

(** * Witnesses *)
Definition stages : val :=
  VDict [("Parameters", VDict [("Env", VDict [("Type", VStr "String")]); ("Zones", VDict [("Type", VStr "List<String>")])]);
         ("Conditions", VDict
           [("IsProd", VDict [("Fn::Equals", VList [VDict [("Ref", VStr "Env")]; VStr "prod"])]);
            ("Both", VDict [("Fn::And", VList [VDict [("Condition", VStr "IsProd")]; VDict [("Condition", VStr "Missing")]])]);
            ("Bad", VDict [("Fn::Not", VList [VDict [("Fn::Equals", VList [VDict [("Ref", VStr "Zones")]; VStr "x"])]])]);
            ("Lone", VDict [("Fn::Or", VList [VDict [("Condition", VStr "Bad")]])])]);
         ("Resources", VDict
           [("A", VDict [("Type", VStr "T"); ("Condition", VStr "IsProd");
                         ("Properties", VDict [("X", VDict [("Fn::If", VList [VStr "Absent"; VInt 1; VInt 2])]);
                                               ("Y", VDict [("Fn::If", VList [VStr "IsProd"; VInt 1])])])])]);
         ("Outputs", VDict [("O", VDict [("Condition", VStr "Both"); ("Value", VStr "v")])])].
Lemma stages_wf : wf stages.
Proof. cbn; intuition (repeat constructor; cbn; intuition discriminate). Qed.
Lemma found f t p v : wf t -> occurs f t (VDict []) p v -> In (p ++ [PKey f], v) (search f t []).
Proof.
  intros Hw [H|H]; [apply search_spec; [exact Hw|]; exists p; auto|]. exfalso. destruct p as [|[k|i] p]; discriminate.
Qed.
Lemma stages_uses : plain_uses stages (VDict []).
Proof.
  split; [|split; [reflexivity|]].
  - eexists. split; [reflexivity|]. split; intros s H; vm_compute in H; injection H as <-; [eauto|]. eexists. split; [reflexivity|].
    intros n x [[= <- <-]|[]]. eexists. split; [reflexivity|]. intros c H. vm_compute in H. injection H as <-. eauto.
  - intros p H. apply found in H; [|exact stages_wf]. cbn in H. intuition congruence.
Qed.
Lemma stages_sections : plain_sections stages.
Proof.
  eexists. split; [reflexivity|]. intros section s [<-|[<-|[]]] H; vm_compute in H; injection H as <-; eexists; (split; [reflexivity|]).
  - intros n x [[= <- <-]|[[= <- <-]|[]]]; eexists; (split; [reflexivity|]); (split; [discriminate | reflexivity]).
  - intros n x [[= <- <-]|[]]. eexists. split; [reflexivity|]. split; [|reflexivity]. intros _ t H; vm_compute in H; injection H as <-; eauto.
Qed.
Lemma stages_defined section n o : defined_in section stages n o ->
  (section = "Parameters" /\ (n = "Env" \/ n = "Zones")) \/ (section = "Resources" /\ n = "A" /\ assoc "Type" o = Some (VStr "T")) \/ section = "Conditions" \/ section = "Outputs".
Proof.
  intros [d [s [[= <-] [E1 E2]]]]. cbn [assoc] in E1.
  destruct (String.eqb_spec section "Parameters") as [->|]; [injection E1 as <-; cbn [assoc] in E2|].
  { destruct (String.eqb_spec n "Env"); [auto|]. destruct (String.eqb_spec n "Zones"); [auto | discriminate]. }
  destruct (String.eqb_spec section "Conditions"); [auto|].
  destruct (String.eqb_spec section "Resources") as [->|]; [injection E1 as <-; cbn [assoc] in E2|].
  { destruct (String.eqb_spec n "A") as [->|]; [|discriminate]. injection E2 as <-. right. left. auto. }
  destruct (String.eqb_spec section "Outputs"); [auto | discriminate].
Qed.
Lemma stages_unambiguous n : n = "Env" \/ n = "Zones" -> unambiguous stages n.
Proof.
  intros Hn. split; [|split; [|split]].
  - destruct Hn as [->| ->]; (eapply nm_parameter; [do 2 eexists; split; [reflexivity|]; split; reflexivity | reflexivity]).
  - intros o o' [_ H]. apply stages_defined in H as [[H _]|[[_ [H _]]|[H|H]]]; try discriminate. destruct Hn; congruence.
  - intros o H _. destruct Hn as [->| ->]; cbn in H; intuition discriminate.
  - intros m rest [o [t [H [Ht Hm]]]] _. apply stages_defined in H as [[H _]|[[_ [_ H]]|[H|H]]]; try discriminate. rewrite Ht in H. injection H as ->. discriminate.
Qed.
Lemma stages_operands r a b : occurs "Fn::Equals" stages (VDict []) (PKey "Conditions" :: r) (VList [a; b]) -> plain_operand stages a /\ plain_operand stages b.
Proof.
  intros H. apply found in H; [|exact stages_wf]. cbn in H. destruct H as [[= _ <- <-]|[[= _ <- <-]|[]]];
    (split; intros y [= <-]; eexists; (split; [reflexivity|]); apply stages_unambiguous; auto).
Qed.
Lemma stages_exists : exists_match stages (VDict []) (fun _ => "") =
  Ok [mkRM [PKey "Resources"; PKey "A"; PKey "Properties"; PKey "X"; PKey "Fn::If"] "Condition Absent is not defined.";
      mkRM [PKey "Conditions"; PKey "Missing"] "Condition Missing is not defined."].
Proof. vm_compute. reflexivity. Qed.
Lemma stages_used : used_match stages (VDict []) = Ok [mkRM [PKey "Conditions"; PKey "Lone"] "Condition Lone not used"].
Proof. vm_compute. reflexivity. Qed.
Lemma stages_lists : check_condition_list stages (VDict []) "Fn::And" = [] /\ check_condition_list stages (VDict []) "Fn::Not" = [] /\
  check_condition_list stages (VDict []) "Fn::Or" = [mkRM [PKey "Conditions"; PKey "Lone"; PKey "Fn::Or"] "Fn::Or must be a list of between 2 to 10 conditions"].
Proof. vm_compute. auto. Qed.
Lemma stages_equals : equals_match stages (VDict []) =
  Ok [mkRM [PKey "Conditions"; PKey "Bad"; PKey "Fn::Not"; PIdx 0; PKey "Fn::Equals"; PIdx 0] "Every Fn::Equals object requires a list of 2 string parameters"].
Proof. vm_compute. reflexivity. Qed.
Lemma stages_if : if_match stages (VDict []) =
  Ok [mkRM [PKey "Resources"; PKey "A"; PKey "Properties"; PKey "Y"; PKey "Fn::If"] "Fn::If must be a list of 3 elements."].
Proof. vm_compute. reflexivity. Qed.

(** * Refutations *)
Definition empty_if : val := VDict [("Resources", VDict [("A", VDict [("Type", VStr "T"); ("Properties", VDict [("X", VDict [("Fn::If", VList [])])])])])].
Lemma empty_if_fails : wf empty_if /\ exists_match empty_if (VDict []) (fun _ => "") = Err EIndex /\ if_match empty_if (VDict []) = Err EIndex.
Proof. split; [cbn; intuition (repeat constructor; cbn; intuition discriminate)|]. vm_compute. auto. Qed.
Definition untyped : val := VDict [("Resources", VDict [("A", VDict [("Condition", VStr "Missing")])])].
Lemma c22_untyped : exists template n r o, wf template /\ plain_uses template (VDict []) /\ defined_in "Resources" template r o /\
  assoc "Condition" o = Some (VStr n) /\ ~ condition_defined template n /\ exists_match template (VDict []) (fun _ => "") = Ok [].
Proof.
  exists untyped, "Missing", "A". eexists. split; [cbn; intuition (repeat constructor; cbn; intuition discriminate)|]. split.
  { split; [|split; [reflexivity|]].
    - eexists. split; [reflexivity|]. split; intros s H; discriminate.
    - intros p H. apply found in H; [|cbn; intuition (repeat constructor; cbn; intuition discriminate)]. cbn in H. exact H. }
  split; [do 2 eexists; split; [reflexivity|]; split; reflexivity|]. split; [reflexivity|]. split; [|vm_compute; reflexivity].
  intros [d [cs [[= <-] [H _]]]]. discriminate.
Qed.
(** A condition may compare a Ref to a name that is undefined but begins with a list parameter's. *)
Definition zones : val :=
  VDict [("Parameters", VDict [("Zones", VDict [("Type", VStr "List<String>")])]);
         ("Conditions", VDict [("C", VDict [("Fn::Equals", VList [VDict [("Ref", VStr "ZonesX")]; VStr "x"])])])].
Lemma c31_prefix : exists template r v, wf template /\ plain_sections template /\
  occurs "Fn::Equals" template (VDict []) (PKey "Conditions" :: r) v /\ valid_equals template v /\
  exists m ms, equals_match template (VDict []) = Ok (m :: ms) /\ at_or_below (PKey "Conditions" :: r ++ [PKey "Fn::Equals"]) (rm_path m).
Proof.
  exists zones, [PKey "C"]. eexists. split; [cbn; intuition (repeat constructor; cbn; intuition discriminate)|]. split.
  { eexists. split; [reflexivity|]. intros section s [<-|[<-|[]]] H; vm_compute in H; [|discriminate]. injection H as <-. eexists. split; [reflexivity|].
    intros n x [[= <- <-]|[]]. eexists. split; [reflexivity|]. split; [discriminate | reflexivity]. }
  split; [left; reflexivity|]. split.
  - do 2 eexists. split; [reflexivity|]. split; [|constructor]. constructor. intros [o [t [[d [s [[= <-] [E1 E2]]]] _]]]. vm_compute in E1. injection E1 as <-. discriminate.
  - do 2 eexists. split; [vm_compute; reflexivity|]. exists [PIdx 0]. split; [reflexivity|]. eauto.
Qed.
(** A Ref whose target is not a text stops the check of Fn::Equals. *)
Definition odd_ref : val := VDict [("Conditions", VDict [("C", VDict [("Fn::Equals", VList [VDict [("Ref", VInt 1)]; VStr "x"])])])].
Lemma odd_ref_fails : wf odd_ref /\ plain_sections odd_ref /\ equals_match odd_ref (VDict []) = Err ETypeErr.
Proof.
  split; [cbn; intuition (repeat constructor; cbn; intuition discriminate)|]. split; [|vm_compute; reflexivity].
  eexists. split; [reflexivity|]. intros section s [<-|[<-|[]]] H; discriminate.
Qed.
Lemma c43_empty_if : exists template, wf template /\ used_match template (VDict []) = Err EIndex.
Proof.
  exists (VDict [("Conditions", VDict [("C", VDict [("Condition", VStr "C")])]);
                 ("Resources", VDict [("A", VDict [("Type", VStr "T"); ("Properties", VDict [("X", VDict [("Fn::If", VList [])])])])])]).
  split; [cbn; intuition (repeat constructor; cbn; intuition discriminate)|]. vm_compute. reflexivity.
Qed.
Lemma c31_condition_lists template globals : wf template -> wf globals -> forall f, In f ["Fn::And"; "Fn::Or"; "Fn::Not"] ->
  (forall m, In m (check_condition_list template globals f) ->
     exists r v, occurs f template globals (PKey "Conditions" :: r) v /\ ~ valid_condition_list f v /\
       at_or_below (PKey "Conditions" :: r ++ [PKey f]) (rm_path m)) /\
  (forall r v, occurs f template globals (PKey "Conditions" :: r) v -> ~ valid_condition_list f v ->
     exists m, In m (check_condition_list template globals f) /\ at_or_below (PKey "Conditions" :: r ++ [PKey f]) (rm_path m)).
Proof. intros Hw Hg f Hf. apply c31_lists; try assumption. intros ->. cbn in Hf. intuition discriminate. Qed.
