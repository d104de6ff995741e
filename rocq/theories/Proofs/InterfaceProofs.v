(** C68: the interface in the metadata. *)
From Coq Require Import List Lia.
Import ListNotations.
From Verif.Model Require Import Base Helpers Locate Node Conditions Search Resolve Rules Refs Relationship Parameters PropertyRules ValueRules Interface.
Import Verif.Model.Rules.
From Verif.Spec Require Import Paths Interface.
From Verif.Proofs Require Import BaseFacts WfDecide SearchProofs RelationRule PropertyRuleProofs MatchRun Samples PropertyWitness.
Local Open Scope string_scope.

Lemma interface_found t i : at_path interface_place t = Some (VDict i) ->
  interface_object t = Ok (Some i) /\ exists d md, t = VDict d /\ assoc "Metadata" d = Some (VDict md) /\ assoc interface_key md = Some (VDict i).
Proof.
  unfold interface_object, interface_place. destruct t as [|b0|z0|f0|s|l|d]; try discriminate. cbn [at_path vget_def].
  destruct (assoc "Metadata" d) as [md|] eqn:E; [|discriminate]. destruct md as [|b0|z0|f0|s|l|md]; try discriminate.
  destruct (assoc "AWS::CloudFormation::Interface" md) as [x|] eqn:Ei; [|discriminate]. intros [= ->]. cbn [bind].
  assert (T : truthy (VDict md) = true) by (destruct md; [discriminate Ei | reflexivity]). rewrite T. cbn [vget_def].
  change interface_key with "AWS::CloudFormation::Interface". rewrite Ei. cbn [bind]. split; [reflexivity|]. exists d, md. auto.
Qed.
Lemma interface_step t i k x r : at_path interface_place t = Some (VDict i) -> assoc k i = Some x ->
  at_path (interface_place ++ PKey k :: r)%list t = at_path r x.
Proof. intros H Hk. rewrite at_path_app, H. cbn [at_path]. now rewrite Hk. Qed.
Lemma interface_no_step t i k r : at_path interface_place t = Some (VDict i) -> assoc k i = None ->
  at_path (interface_place ++ PKey k :: r)%list t = None.
Proof. intros H Hk. rewrite at_path_app, H. cbn [at_path]. now rewrite Hk. Qed.

Section Exact.
Variable str_other : val -> string.
Lemma wrong_keys_iff valid p (d : list (string * val)) m : In m (wrong_keys str_other valid p (map VStr (keys d))) <->
  exists k x, assoc k d = Some x /\ ~ In k valid /\ m = stray_match (p ++ [PKey k])%list k.
Proof.
  unfold wrong_keys. rewrite in_flat_map. split.
  - intros [v [Hv Hm]]. apply in_map_iff in Hv as [k [<- Hk]]. apply assoc_Some_key in Hk as [x Hx].
    destruct (existsb _ valid) eqn:E; [destruct Hm|]. destruct Hm as [<-|[]]. exists k, x. split; [exact Hx|]. split; [|reflexivity].
    intros Hi. assert (Ht : existsb (fun s => eq_str s (VStr k)) valid = true); [|congruence].
    apply existsb_exists. exists k. split; [exact Hi | now apply eq_str_true].
  - intros [k [x [Hx [Hn ->]]]]. exists (VStr k). split; [apply in_map, assoc_Some_key; eauto|].
    destruct (existsb _ valid) eqn:E; [|now left]. apply existsb_exists in E as [s [Hs E]]. apply eq_str_true in E. injection E as ->. now elim Hn.
Qed.
Lemma c68_keys t i : interface_shaped t i -> exists ms, interface_configuration_match str_other t = Ok ms /\
  forall m, In m ms <-> exists p k, stray_key t p k /\ m = stray_match p k.
Proof.
  intros [Hi Hg]. destruct (interface_found t i Hi) as [Eo _]. unfold interface_configuration_match. rewrite Eo. cbn [bind].
  assert (G : exists gs, iter_val (match assoc "ParameterGroups" i with Some g => g | None => VList [] end) = Ok gs /\
    (forall x, In x gs -> exists o, x = VDict o) /\ forall j r, at_path (groups_place ++ PIdx j :: r)%list t = match nth_error gs j with Some x => at_path r x | None => None end).
  { unfold groups_place. destruct (assoc "ParameterGroups" i) as [g|] eqn:E.
    - destruct (Hg g eq_refl) as [l [-> Hl]]. exists l. split; [reflexivity|]. split; [intros x Hx; destruct (Hl x Hx) as [o [-> _]]; eauto|].
      intros j r. rewrite <- app_assoc. cbn [app]. rewrite (interface_step t i _ _ _ Hi E). reflexivity.
    - exists []. split; [reflexivity|]. split; [intros x []|]. intros j r. rewrite <- app_assoc. cbn [app]. rewrite (interface_no_step t i _ _ Hi E). now destruct j. }
  destruct G as [gs [-> [Ho Hp]]]. cbn [bind].
  destruct (concat_res_total (group_keys str_other) (enum gs)) as [ms Hms].
  { intros [j x] Hx. apply enum_nth, nth_error_In in Hx. destruct (Ho x Hx) as [o ->]. unfold group_keys. cbn [snd iter_val bind]. eauto. }
  rewrite Hms. cbn [bind]. eexists. split; [reflexivity|]. intros m. rewrite in_app_iff, wrong_keys_iff, (concat_res_in _ _ _ m Hms). split.
  - intros [[k [x [Hk [Hn ->]]]]|[[j x] [part [Hx [Hf Hm]]]]].
    + exists (interface_place ++ [PKey k])%list, k. split; [|reflexivity]. apply sk_interface with i x; [exact Hi | exact Hk | |]; intros ->; apply Hn; cbn; auto.
    + apply enum_nth in Hx. pose proof (nth_error_In _ _ Hx) as Hin. destruct (Ho x Hin) as [o ->]. unfold group_keys in Hf. cbn [snd fst iter_val bind] in Hf.
      injection Hf as <-. apply wrong_keys_iff in Hm as [k [y [Hk [Hn ->]]]]. exists (groups_place ++ [PIdx j; PKey k])%list, k. split; [|reflexivity].
      apply sk_group with o y; [rewrite Hp, Hx; reflexivity | exact Hk | |]; intros ->; apply Hn; cbn; auto.
  - intros [p [k [Hs ->]]]. destruct Hs as [i' x k Hi' Hk H1 H2|j g x k Hg' Hk H1 H2].
    + left. rewrite Hi in Hi'. injection Hi' as <-. exists k, x. split; [exact Hk|]. split; [|reflexivity]. intros [H|[H|[]]]; congruence.
    + right. rewrite Hp in Hg'. destruct (nth_error gs j) as [y|] eqn:E; [|discriminate Hg']. injection Hg' as ->.
      exists (j, VDict g). eexists. split; [now apply enum_nth|]. unfold group_keys. cbn [snd fst iter_val bind]. split; [reflexivity|].
      apply wrong_keys_iff. exists k, x. split; [exact Hk|]. split; [|reflexivity]. intros [H|[H|[]]]; congruence.
Qed.
Lemma names_iff d : exists names, get_parameter_names (VDict d) = Ok names /\ forall n, In n names <-> parameter_of (VDict d) n.
Proof.
  unfold get_parameter_names, parameter_of. cbn [vget_def at_path]. destruct (assoc "Parameters" d) as [ps|] eqn:E; cbn [bind].
  - destruct ps as [|b0|z0|f0|s|l|ps]; (eexists; split; [reflexivity|]); intros n.
    1-6: split; [intros [] | intros [ps [x [H _]]]; discriminate H].
    rewrite assoc_Some_key. split; [intros [x Hx]; now exists ps, x | intros [ps' [x [[= ->] Hx]]]; eauto].
  - exists []. split; [reflexivity|]. intros n. split; [intros [] | intros [ps [x [H _]]]; discriminate H].
Qed.
Lemma is_name_false t names v : (forall n, In n names <-> parameter_of t n) -> is_name names v = false <-> forall n, v = VStr n -> ~ parameter_of t n.
Proof.
  intros H. destruct v as [|b0|z0|f0|s|l|d]; cbn [is_name]; try (split; [intros _ n [=] | reflexivity]).
  rewrite smem_false, H. split; [intros Hs n [= <-]; exact Hs | intros Hs; now apply Hs].
Qed.
Lemma c68_names t i : interface_shaped t i -> exists ms, interface_parameters_match str_other t = Ok ms /\
  forall m, In m ms <-> exists p v, stray_name t p v /\ m = absent_match str_other p v.
Proof.
  intros [Hi Hg]. destruct (interface_found t i Hi) as [Eo [d [_ [-> _]]]]. unfold interface_parameters_match.
  destruct (names_iff d) as [names [-> Hn]]. cbn [bind]. rewrite Eo. cbn [bind].
  assert (G : exists gs, (match assoc "ParameterGroups" i with Some (VList gs) => concat_res (group_parameters str_other names) (enum gs) | _ => Ok [] end) =
      concat_res (group_parameters str_other names) (enum gs) /\
    (forall x, In x gs -> exists o, x = VDict o /\ forall ps, assoc "Parameters" o = Some ps -> exists pl, ps = VList pl) /\
    forall j r, at_path (groups_place ++ PIdx j :: r)%list (VDict d) = match nth_error gs j with Some x => at_path r x | None => None end).
  { unfold groups_place. destruct (assoc "ParameterGroups" i) as [g|] eqn:E.
    - destruct (Hg g eq_refl) as [l [-> Hl]]. exists l. split; [reflexivity|]. split; [exact Hl|].
      intros j r. rewrite <- app_assoc. cbn [app]. rewrite (interface_step _ i _ _ _ Hi E). reflexivity.
    - exists []. split; [reflexivity|]. split; [intros x []|]. intros j r. rewrite <- app_assoc. cbn [app]. rewrite (interface_no_step _ i _ _ Hi E). now destruct j. }
  destruct G as [gs [-> [Ho Hp]]].
  assert (F : forall j o, In (VDict o) gs -> exists part, group_parameters str_other names (j, VDict o) = Ok part /\
    forall m, In m part <-> exists pl k v, assoc "Parameters" o = Some (VList pl) /\ nth_error pl k = Some v /\ is_name names v = false /\
      m = absent_match str_other (groups_place ++ [PIdx j; PKey "Parameters"; PIdx k])%list v).
  { intros j o Hin. destruct (Ho _ Hin) as [o' [[= <-] Hps]]. unfold group_parameters. cbn [snd fst py_member bind].
    destruct (assoc "Parameters" o) as [ps|] eqn:E.
    - assert (Em : mem_assoc "Parameters" o = true) by (apply mem_assoc_iff, assoc_Some_key; eauto). rewrite Em.
      destruct (Hps ps eq_refl) as [pl ->]. cbn [iter_val bind]. eexists. split; [reflexivity|]. intros m. rewrite in_flat_map. split.
      + intros [[k v] [Hk Hm]]. apply enum_nth in Hk. cbn [fst snd] in Hm. destruct (is_name names v) eqn:En; [destruct Hm|]. destruct Hm as [<-|[]]. exists pl, k, v. auto.
      + intros [pl' [k [v [[= <-] [Hk [En ->]]]]]]. exists (k, v). split; [now apply enum_nth|]. cbn [fst snd]. rewrite En. now left.
    - assert (Em : mem_assoc "Parameters" o = false). { destruct (mem_assoc "Parameters" o) eqn:Em; [|reflexivity]. apply mem_assoc_iff, assoc_Some_key in Em as [x Hx]. congruence. }
      rewrite Em. eexists. split; [reflexivity|]. intros m. split; [intros [] | intros [pl [k [v [[=] _]]]]]. }
  destruct (concat_res_total (group_parameters str_other names) (enum gs)) as [ms Hms].
  { intros [j x] Hx. apply enum_nth, nth_error_In in Hx. destruct (Ho x Hx) as [o [-> _]]. destruct (F j o Hx) as [part [-> _]]. eauto. }
  rewrite Hms. cbn [bind]. eexists. split; [reflexivity|]. intros m. rewrite in_app_iff, (concat_res_in _ _ _ m Hms).
  assert (L : In m (label_parameters str_other names i) <-> exists k x, at_path (labels_place ++ [PKey k])%list (VDict d) = Some x /\ ~ parameter_of (VDict d) k /\
    m = absent_match str_other (labels_place ++ [PKey k])%list (VStr k)).
  { unfold label_parameters, labels_place. destruct (assoc "ParameterLabels" i) as [l|] eqn:E.
    - assert (Es : forall k, at_path ((interface_place ++ [PKey "ParameterLabels"]) ++ [PKey k])%list (VDict d) = at_path [PKey k] l).
      { intros k. rewrite <- app_assoc. cbn [app]. now rewrite (interface_step _ i _ _ _ Hi E). }
      destruct l as [|b0|z0|f0|s|l|l]; try (split; [intros [] | intros [k [x [H _]]]; rewrite Es in H; discriminate H]).
      rewrite in_flat_map. split.
      + intros [k [Hk Hm]]. destruct (smem k names) eqn:En; [destruct Hm|]. destruct Hm as [<-|[]]. apply assoc_Some_key in Hk as [x Hx].
        exists k, x. rewrite Es. cbn [at_path]. rewrite Hx. apply smem_false in En. rewrite Hn in En. auto.
      + intros [k [x [Hx [Hk ->]]]]. rewrite Es in Hx. cbn [at_path] in Hx. destruct (assoc k l) as [y|] eqn:Ek; [|discriminate Hx]. exists k. split; [apply assoc_Some_key; eauto|].
        rewrite <- Hn in Hk. apply smem_false in Hk. rewrite Hk. now left.
    - split; [intros []|]. intros [k [x [H _]]]. rewrite <- app_assoc in H. cbn [app] in H. rewrite (interface_no_step _ i _ _ Hi E) in H. discriminate H. }
  rewrite L. clear L. split.
  - intros [[[j x] [part [Hx [Hf Hm]]]]|[k [x [Hx [Hk ->]]]]].
    + apply enum_nth in Hx. pose proof (nth_error_In _ _ Hx) as Hin. destruct (Ho x Hin) as [o [-> _]]. destruct (F j o Hin) as [part' [Ep HF]].
      rewrite Ep in Hf. injection Hf as <-. destruct (proj1 (HF m) Hm) as [pl [k [v [Hpl [Hk [En ->]]]]]].
      exists (groups_place ++ [PIdx j; PKey "Parameters"; PIdx k])%list, v. split; [|reflexivity]. apply sn_group.
      * rewrite Hp, Hx. cbn [at_path]. rewrite Hpl, Hk. reflexivity.
      * now apply (is_name_false _ names v Hn).
    + exists (labels_place ++ [PKey k])%list, (VStr k). split; [|reflexivity]. now apply sn_label with x.
  - intros [p [v [Hs ->]]]. destruct Hs as [j k v Hat Hv|k x Hat Hk]; [|right; now exists k, x].
    left. rewrite Hp in Hat. destruct (nth_error gs j) as [y|] eqn:E; [|discriminate Hat]. pose proof (nth_error_In _ _ E) as Hin.
    destruct (Ho y Hin) as [o [-> Hps]]. destruct (F j o Hin) as [part [Ep HF]]. exists (j, VDict o), part. split; [now apply enum_nth|]. split; [exact Ep|].
    apply HF. cbn [at_path] in Hat. destruct (assoc "Parameters" o) as [ps|] eqn:Eps; [|discriminate Hat]. destruct (Hps ps eq_refl) as [pl ->].
    exists pl, k, v. split; [reflexivity|]. destruct (nth_error pl k) as [w|]; [|discriminate Hat]. injection Hat as ->. split; [reflexivity|].
    split; [now apply (is_name_false _ names v Hn) | reflexivity].
Qed.
Lemma stray_key_there t p k : stray_key t p k -> p <> [] /\ exists x, at_path p t = Some x.
Proof.
  intros [i x k0 Hi Hk _ _|j g x k0 Hg Hk _ _].
  - split; [discriminate|]. exists x. rewrite (interface_step t i _ _ _ Hi Hk). reflexivity.
  - split; [discriminate|]. exists x. change [PIdx j; PKey k0] with ([PIdx j] ++ [PKey k0])%list. rewrite app_assoc, at_path_app, Hg. cbn [at_path]. now rewrite Hk.
Qed.
Lemma stray_name_there t p v : stray_name t p v -> p <> [] /\ exists x, at_path p t = Some x.
Proof. intros [j i w Hw _|k x Hx _]; (split; [discriminate | eauto]). Qed.
Lemma c68_keys_run sp k c raw m0 d0 i p key :
  snd (coll_run sp k c) = Ok raw -> In (interface_configuration_rule str_other) (k_all k) -> enabled (k_set k) (interface_configuration_rule str_other) = true ->
  c_tmpl c = MDict m0 d0 -> interface_shaped (template c) i -> stray_key (template c) p key ->
  exists fi, locate_match c "E4001" (stray_match p key) = Ok fi /\ In fi raw.
Proof.
  intros Hrun Hr He Hc Hi Hs. destruct (c68_keys _ i Hi) as [ms [Hms Hin]].
  apply (reported_match_at sp k c raw (interface_configuration_rule str_other) (fun _ c => interface_configuration_match str_other (template c)) ms _ m0 d0 Hrun Hr He eq_refl Hc Hms).
  - intros m Hm. destruct (proj1 (Hin m) Hm) as [p' [k' [Hk ->]]]. exact (stray_key_there _ _ _ Hk).
  - apply Hin. now exists p, key.
Qed.
Lemma c68_names_run sp k c raw m0 d0 i p v :
  snd (coll_run sp k c) = Ok raw -> In (interface_parameters_rule str_other) (k_all k) -> enabled (k_set k) (interface_parameters_rule str_other) = true ->
  c_tmpl c = MDict m0 d0 -> interface_shaped (template c) i -> stray_name (template c) p v ->
  exists fi, locate_match c "W4001" (absent_match str_other p v) = Ok fi /\ In fi raw.
Proof.
  intros Hrun Hr He Hc Hi Hs. destruct (c68_names _ i Hi) as [ms [Hms Hin]].
  apply (reported_match_at sp k c raw (interface_parameters_rule str_other) (fun _ c => interface_parameters_match str_other (template c)) ms _ m0 d0 Hrun Hr He eq_refl Hc Hms).
  - intros m Hm. destruct (proj1 (Hin m) Hm) as [p' [v' [Hk ->]]]. exact (stray_name_there _ _ _ Hk).
  - apply Hin. now exists p, v.
Qed.
(** Without an interface nothing is reported. *)
Lemma c68_nothing d md : (assoc "Metadata" d = None \/ assoc "Metadata" d = Some (VDict md) /\ assoc interface_key md = None) ->
  interface_configuration_match str_other (VDict d) = Ok [] /\ interface_parameters_match str_other (VDict d) = Ok [].
Proof.
  intros H. destruct (names_iff d) as [names [En _]].
  unfold interface_configuration_match, interface_parameters_match. rewrite En. cbn [bind].
  assert (E : interface_object (VDict d) = Ok None \/ interface_object (VDict d) = Ok (Some [])).
  { unfold interface_object. cbn [vget_def]. destruct H as [->|[-> Hm]]; cbn [bind]; [now left|]. destruct (truthy (VDict md)); [|now left]. cbn [vget_def]. rewrite Hm. now right. }
  destruct E as [-> | ->]; cbn [bind assoc iter_val enum concat_res]; split; reflexivity.
Qed.
End Exact.

(** * Samples and deviations *)
Definition no_str (v : val) : string := "?".
Definition with_interface (i : val) : val :=
  VDict [("Parameters", VDict [("Env", VDict [("Type", VStr "String")])]); ("Metadata", VDict [("AWS::CloudFormation::Interface", i)])].
Definition sample_interface : list (string * val) :=
  [("ParameterGroups", VList [VDict [("Label", VStr "x"); ("Parameters", VList [VStr "Env"; VStr "Gone"])]; VDict [("Labels", VStr "y")]]);
   ("ParameterLabels", VDict [("Env", VNull); ("Lost", VNull)]); ("Groups", VNull)].
Definition interface_cfn : cfn := mkCfn "t.yaml" "us-east-1" (marked (with_interface (VDict sample_interface))).
Lemma interface_example : interface_shaped (template interface_cfn) sample_interface /\
  stray_key (template interface_cfn) (interface_place ++ [PKey "Groups"])%list "Groups" /\
  stray_key (template interface_cfn) (groups_place ++ [PIdx 1; PKey "Labels"])%list "Labels" /\
  stray_name (template interface_cfn) (groups_place ++ [PIdx 0; PKey "Parameters"; PIdx 1])%list (VStr "Gone") /\
  stray_name (template interface_cfn) (labels_place ++ [PKey "Lost"])%list (VStr "Lost") /\
  let k := mkColl [interface_configuration_rule no_str; interface_parameters_rule no_str] default_settings in
  exists raw, snd (coll_run sample_sp k interface_cfn) = Ok raw /\
    map f_msg raw = ["Metadata Interface has invalid property Groups"; "Metadata Interface has invalid property Labels";
                     "Metadata Interface parameter doesn't exist Gone"; "Metadata Interface parameter doesn't exist Lost"].
Proof.
  assert (Hp : forall n, n <> "Env" -> ~ parameter_of (template interface_cfn) n).
  { intros n Hn [ps [x [H Hx]]]. vm_compute in H. injection H as <-. cbn in Hx. destruct (String.eqb n "Env") eqn:E; [apply String.eqb_eq in E; now elim Hn | discriminate Hx]. }
  split; [|split; [|split; [|split; [|split]]]].
  - split; [reflexivity|]. intros g [= <-]. eexists. split; [reflexivity|]. intros x [<-|[<-|[]]]; (eexists; split; [reflexivity|]); intros ps; cbn; [intros [= <-]; eauto | discriminate].
  - eapply sk_interface with (i := sample_interface); [reflexivity | reflexivity | discriminate | discriminate].
  - eapply sk_group with (g := [("Labels", VStr "y")]); [reflexivity | reflexivity | discriminate | discriminate].
  - apply sn_group; [reflexivity|]. intros n [= <-]. apply Hp. discriminate.
  - eapply sn_label; [reflexivity|]. apply Hp. discriminate.
  - eexists. split; [vm_compute; reflexivity | reflexivity].
Qed.
(** An interface whose groups are null ends the check of the keys with an exception, and a group that is a text has its letters reported. *)
Lemma c68_null_witness : exists i, wf (with_interface i) /\ interface_configuration_match no_str (with_interface i) = Err ETypeErr.
Proof. exists (VDict [("ParameterGroups", VNull)]). split; [apply wfb_sound; reflexivity | reflexivity]. Qed.
Lemma c68_text_witness : exists i, wf (with_interface i) /\ interface_configuration_match no_str (with_interface i) =
  Ok [stray_match (groups_place ++ [PIdx 0; PKey "o"])%list "o"; stray_match (groups_place ++ [PIdx 0; PKey "k"])%list "k"] /\
  at_path (groups_place ++ [PIdx 0; PKey "o"])%list (with_interface i) = None.
Proof. exists (VDict [("ParameterGroups", VList [VStr "ok"])]). split; [apply wfb_sound; reflexivity|]. split; reflexivity. Qed.
Lemma c68_list_witness : exists i, wf (with_interface i) /\ interface_parameters_match no_str (with_interface i) = Err ETypeErr.
Proof. exists (VDict [("ParameterGroups", VList [VStr "Parameters"])]). split; [apply wfb_sound; reflexivity | reflexivity]. Qed.
