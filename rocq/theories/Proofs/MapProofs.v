(** Proofs about Fn::FindInMap (C32, C55). *)
From Coq Require Import Lia.
From Verif.Model Require Import Base Helpers Rules Search Refs ConditionRules Relationship Limits Parameters Policies Functions.
From Verif.Spec Require Import Paths ConditionUse FunctionArguments.
From Verif.Proofs Require Import BaseFacts SearchProofs ConditionUseProofs FunctionProofs.
Import Verif.Model.Rules.
Local Open Scope string_scope.

Lemma places_shift q i ms f : places (q ++ [PIdx i])%list ms f -> places q ms (fun r => exists r', r = PIdx i :: r' /\ f r').
Proof.
  intros [rs [E H]]. exists (map (cons (PIdx i)) rs). split.
  - rewrite E, map_map. apply map_ext. intros r. now rewrite <- app_assoc.
  - intros r. rewrite in_map_iff. split; [intros [r' [<- Hr]]; exists r'; split; [reflexivity|now apply H] | intros [r' [-> Hr]]; exists r'; split; [reflexivity|now apply H]].
Qed.
Lemma map_dict_places q d (ok : val -> Prop) : (forall d, ~ ok (VDict d)) -> places q (map_dict d q) (argument_fault ok (VDict d)).
Proof.
  intros Hok. destruct d as [|[k x] [|m d]]; cbn [map_dict].
  - apply places_here. intros r. split; [intros H; inversion H; reflexivity | intros ->; apply af_other; [apply Hok | intros; discriminate]].
  - destruct (smem k map_functions) eqn:E.
    + p_none H. inversion H as [k0 x0 Hn E1 E2|v0 Hn Hs E1 E2]; subst; [apply Hn; now apply smem_in | exact (Hs k x eq_refl)].
    + apply places_one. intros r. split.
      * intros H. inversion H as [k0 x0 Hn E1 E2|v0 Hn Hs E1 E2]; subst; [reflexivity | exfalso; exact (Hs k x eq_refl)].
      * intros ->. apply af_function. now apply smem_notin.
  - apply places_here. intros r. split; [intros H; inversion H; reflexivity | intros ->; apply af_other; [apply Hok | intros; discriminate]].
Qed.
Lemma map_key_places q w i v : places q (map_key w i v q) (fun r => exists r', r = PIdx i :: r' /\ argument_fault map_key_ok v r').
Proof.
  assert (Hok : forall d, ~ map_key_ok (VDict d)) by (intros d [[s H]|[[z H]|[b H]]]; discriminate).
  destruct v as [|b|z|f|s|l|d]; cbn [map_key]; try (p_none H; destruct H as [r' [_ H]]; inversion H as [|v0 Hn Hs E1 E2]; subst; apply Hn; unfold map_key_ok, text, whole_number; eauto 6).
  1-3: apply places_one; intros r; split; [intros [r' [-> H]]; inversion H; reflexivity | intros ->; exists []; split; [reflexivity|]; apply af_other; [intros [[s0 H]|[[z0 H]|[b0 H]]]; discriminate | intros; discriminate]].
  apply places_shift. now apply map_dict_places.
Qed.
Lemma get_mappings_plain d : (forall x, assoc "Mappings" d = Some x -> object x) ->
  exists ms, get_mappings (VDict d) = Ok (VDict ms) /\ forall s, (exists x, assoc s ms = Some x) <-> map_named (VDict d) s.
Proof.
  intros H. unfold get_mappings, map_named. cbn [vget_def bind]. destruct (assoc "Mappings" d) as [x|] eqn:E.
  - destruct (H x eq_refl) as [ms ->]. exists ms. split; [destruct ms; reflexivity|]. intros s. split.
    + intros [x Hx]. exists d, ms, x. auto.
    + intros [d' [ms' [x [[= <-] [H1 H2]]]]]. exists x. congruence.
  - exists []. split; [reflexivity|]. intros s. split; [intros [x Hx]; discriminate | intros [d' [ms' [x [[= <-] [H1 H2]]]]]; congruence].
Qed.
Ltac flag := apply places_one; intros r; split; [intros [r' [-> H]]; inversion H; reflexivity | intros ->; exists []; split; [reflexivity|]; apply af_other; [intros [s0 [H _]]; discriminate | intros; discriminate]].
Lemma map_name_places template ms q v a : (forall s, (exists x, assoc s ms = Some x) <-> map_named template s) -> map_name (VDict ms) v q = Ok a ->
  places q a (fun r => exists r', r = PIdx 0 :: r' /\ argument_fault (map_name_ok template) v r').
Proof.
  intros Hms. assert (Hok : forall d, ~ map_name_ok template (VDict d)) by (intros d [s [H _]]; discriminate).
  destruct v as [|b|z|f|s|l|d]; cbn [map_name]; intros H.
  all: [> injection H as <- | injection H as <- | injection H as <- | injection H as <- | | injection H as <- | injection H as <-].
  all: [> flag | flag | flag | flag | | flag | ].
  - cbn [py_member bind] in H. destruct (mem_assoc s ms) eqn:E; injection H as <-.
    + apply mem_assoc_iff in E. p_none H. destruct H as [r' [_ H]]. inversion H as [|v0 Hn Hs E1 E2]; subst. apply Hn. exists s. split; [reflexivity|]. apply Hms. now apply assoc_Some_key.
    + apply places_one. intros r. split; [intros [r' [-> H]]; inversion H; reflexivity | intros ->; exists []; split; [reflexivity|]]. apply af_other; [|intros; discriminate].
      intros [s0 [[= <-] H]]. apply Hms in H as [x H]. assert (E' : mem_assoc s ms = true); [|congruence]. apply mem_assoc_iff, assoc_Some_key. now exists x.
  - apply places_shift. now apply map_dict_places.
Qed.
Lemma map_checks template ms : (forall s, (exists x, assoc s ms = Some x) <-> map_named template s) -> checks "Fn::FindInMap" (find_in_map_check (VDict ms)) (map_fault template).
Proof.
  intros Hms. apply checks_places. intros p v a. set (q := (p ++ [PKey "Fn::FindInMap"])%list). unfold find_in_map_check.
  destruct v as [| | | |s|[|n [|k1 [|k2 [|x l]]]]|d];
    try (destruct (no_index q); [|discriminate]; intros [= <-]; apply places_here; intros r; split; [intros H; inversion H; reflexivity | intros ->; apply mf_shape; intros; discriminate]);
    try (intros [= <-]; apply places_one; intros r; split; [intros H; inversion H as [v0 Hn E1 E2|l0 Hn E1 E2| | |]; subst; [exfalso; eapply Hn; reflexivity | reflexivity] | intros ->; apply mf_length; discriminate]).
  intros H. destruct (map_name (VDict ms) n q) as [a1|] eqn:E; [|discriminate]. cbn [bind] in H. injection H as <-.
  apply places_iff with (fun r => (exists r', r = PIdx 0 :: r' /\ argument_fault (map_name_ok template) n r') \/
    (exists r', r = PIdx 1 :: r' /\ argument_fault map_key_ok k1 r') \/ (exists r', r = PIdx 2 :: r' /\ argument_fault map_key_ok k2 r')).
  - apply places_app; [exact (map_name_places _ _ _ _ _ Hms E)|]. apply places_app; apply map_key_places.
  - intros r. split.
    + intros [[r' [-> H]]|[[r' [-> H]]|[r' [-> H]]]]; [now apply mf_name | now apply mf_first | now apply mf_second].
    + intros H. inversion H as [v0 Hn E1 E2|l0 Hn E1 E2|n0 a b r' Hf E1 E2|n0 a b r' Hf E1 E2|n0 a b r' Hf E1 E2]; subst; eauto 6.
      * exfalso. eapply Hn; reflexivity.
      * exfalso. apply Hn. reflexivity.
Qed.
Lemma c32_map template globals ms : wf template -> wf globals -> plain_mappings template -> find_in_map_match template globals = Ok ms ->
  judged "Fn::FindInMap" template globals (map_fault template) ms.
Proof.
  intros Hw Hg [d [-> Hp]] H. destruct (get_mappings_plain d Hp) as [m [E Hm]]. unfold find_in_map_match in H. rewrite E in H. cbn [bind] in H.
  eapply judged_each; try eassumption. now apply map_checks.
Qed.
(** The rule fails when an argument that is no list is found inside a list. *)
Lemma no_index_spec p : no_index p = false <-> exists i, In (PIdx i) p.
Proof.
  unfold no_index. induction p as [|[k|i] p IH]; cbn [forallb]; [split; [discriminate|intros [i []]]| |].
  - cbn [andb]. rewrite IH. split; [intros [i H]; exists i; now right | intros [i [H|H]]; [discriminate|eauto]].
  - split; [intros _; exists i; now left | reflexivity].
Qed.
Lemma c32_map_fails template globals : wf template -> wf globals -> plain_mappings template ->
  ((exists ms, find_in_map_match template globals = Ok ms) <->
   forall p v, occurs "Fn::FindInMap" template globals p v -> list_ok v \/ forall i, ~ In (PIdx i) p).
Proof.
  intros Hw Hg [d [-> Hp]]. destruct (get_mappings_plain d Hp) as [m [E Hm]]. unfold find_in_map_match. rewrite E. cbn [bind].
  assert (Hi : forall p, no_index (p ++ [PKey "Fn::FindInMap"])%list = true <-> forall i, ~ In (PIdx i) p).
  { intros p. pose proof (no_index_spec (p ++ [PKey "Fn::FindInMap"])%list) as N. destruct (no_index (p ++ [PKey "Fn::FindInMap"])%list); split; try discriminate; try reflexivity.
    - intros _ i H. assert (F : true = false) by (apply N; exists i; apply in_or_app; now left). discriminate.
    - intros H. destruct (proj1 N eq_refl) as [i Hx]. apply in_app_or in Hx as [Hx|[Hx|[]]]; [destruct (H i Hx) | discriminate]. }
  split.
  - intros [ms H] p v Ho. unfold each in H. apply concat_res_inv in H as [g [Hg' _]].
    specialize (Hg' (p ++ [PKey "Fn::FindInMap"], v)%list (proj2 (in_search_deep _ _ _ _ _ Hw Hg) (ex_intro _ p (conj eq_refl Ho)))). cbn [fst snd] in Hg'.
    destruct v as [| | | |s|l|o]; try (left; now exists l); right; apply Hi; unfold find_in_map_check in Hg'; destruct (no_index (p ++ [PKey "Fn::FindInMap"])%list); (reflexivity || discriminate).
  - intros H. apply each_total; try assumption. intros p v Ho. destruct (H p v Ho) as [[l ->]|Hx].
    + unfold find_in_map_check. destruct l as [|n [|k1 [|k2 [|y l]]]]; try (eexists; reflexivity). destruct n as [|b|z|f|s|l|o]; cbn [map_name py_member bind]; eexists; reflexivity.
    + apply Hi in Hx. unfold find_in_map_check. rewrite Hx. destruct v as [| | | |s|l|o]; try (eexists; reflexivity). destruct l as [|n [|k1 [|k2 [|y l]]]]; try (eexists; reflexivity).
      destruct n as [|b|z|f|s|l|o]; cbn [map_name py_member bind]; eexists; reflexivity.
Qed.

(** * The keys (C55) *)
Lemma vget_any_spec k o : map_key_ok k -> exists x, vget_any k (VDict o) = Ok x /\ ((x = VNull /\ forall y, ~ under o k y) \/ (x <> VNull /\ under o k x)).
Proof.
  intros [[s ->]|H].
  - cbn [vget_any vget]. eexists. split; [reflexivity|]. destruct (assoc s o) as [x|] eqn:E.
    + destruct x as [|b|z|f|t|l|d]; try (right; split; [discriminate|]; exists s; split; [reflexivity|]; split; [exact E|discriminate]).
      left. split; [reflexivity|]. intros y [s' [[= <-] [H1 H2]]]. congruence.
    + left. split; [reflexivity|]. intros y [s' [[= <-] [H1 H2]]]. congruence.
  - exists VNull. split; [destruct H as [[z ->]|[b ->]]; reflexivity|]. left. split; [reflexivity|]. intros y [s' [-> _]]. destruct H as [[z H]|[b H]]; discriminate.
Qed.
Lemma is_key_spec v : is_key v = true <-> map_key_ok v.
Proof.
  unfold map_key_ok, text, whole_number. destruct v as [|b|z|f|s|l|d]; cbn [is_key]; split; intros H; try discriminate; try reflexivity; eauto 6;
    destruct H as [[s0 H]|[[z0 H]|[b0 H]]]; discriminate.
Qed.
Lemma under_det o k x y : under o k x -> under o k y -> x = y.
Proof. intros [s [-> [H1 _]]] [s' [[= <-] [H2 _]]]. congruence. Qed.
Section Keys.
Variable str_of : val -> string.
Variables (d ms : list (string * val)).
Hypothesis Hms : assoc "Mappings" d = Some (VDict ms) \/ (assoc "Mappings" d = None /\ ms = []).
Hypothesis Hpl : forall n y, In (n, y) ms -> exists m, y = VDict m /\ forall k z, In (k, z) m -> object z.

Lemma called_spec n m : map_called (VDict d) n m <-> exists s, n = VStr s /\ assoc s ms = Some (VDict m) /\ m <> [].
Proof using Hms Hpl.
  unfold map_called. split.
  - intros [s [d' [ms' [-> [[= <-] [H1 [H2 H3]]]]]]]. exists s. destruct Hms as [H|[H ->]]; [|congruence]. assert (ms' = ms) by congruence. subst. auto.
  - intros [s [-> [H1 H2]]]. exists s, d, ms. destruct Hms as [H|[H ->]]; [auto | discriminate].
Qed.
(** The faults of given arguments. *)
Definition key_fault (n k1 k2 : val) (r : path) : Prop :=
  exists m, map_called (VDict d) n m /\ map_key_ok k2 /\
    ((r = [PIdx 1] /\ map_key_ok k1 /\ forall x, ~ under m k1 x) \/
     (r = [PIdx 2] /\ exists o, under m k1 (VDict o) /\ o <> [] /\ forall y, ~ under o k2 y) \/
     (r = [PIdx 2] /\ ~ map_key_ok k1 /\ exists k o, In (k, VDict o) m /\ forall y, ~ under o k2 y)).
Lemma check_map_keys_places q n k1 k2 a : check_map_keys str_of (VDict ms) q n k1 k2 = Ok a -> places q a (key_fault n k1 k2).
Proof using Hms Hpl.
  intros H. unfold check_map_keys in H. destruct (is_key k2) eqn:E2.
  2: { injection H as <-. p_none H. destruct H as [m [_ [H _]]]. apply is_key_spec in H. congruence. }
  apply is_key_spec in E2.
  destruct n as [| | | |s|l|o]; try (injection H as <-; apply places_nil; intros r H; destruct H as [m [H _]]; apply called_spec in H; destruct H as [s0 [H _]]; discriminate).
  cbn [vget bind] in H. destruct (assoc s ms) as [y|] eqn:Es.
  2: { injection H as <-. p_none H. destruct H as [m [H _]]. apply called_spec in H as [s' [[= <-] [H _]]]. congruence. }
  destruct (Hpl s y (assoc_In _ _ _ Es)) as [m [-> Hm]]. destruct (truthy (VDict m)) eqn:Et.
  2: { injection H as <-. p_none H. destruct H as [m' [H _]]. apply called_spec in H as [s' [[= <-] [H Hn]]]. assert (m' = m) by congruence. subst. destruct m; [contradiction|discriminate]. }
  assert (Hc : map_called (VDict d) (VStr s) m) by (apply called_spec; exists s; split; [reflexivity|]; split; [exact Es|]; intros ->; discriminate).
  assert (Hu : forall m', map_called (VDict d) (VStr s) m' -> m' = m).
  { intros m' H'. apply called_spec in H' as [s' [[= <-] [H' _]]]. congruence. }
  destruct (is_key k1) eqn:E1.
  - apply is_key_spec in E1. destruct (vget_any_spec k1 m E1) as [x [Ex Hx]]. rewrite Ex in H. cbn [bind] in H. destruct Hx as [[-> Hx]|[Hx1 Hx2]].
    + cbn [truthy] in H. injection H as <-. apply places_one. intros r. split.
      * intros [m' [H' [_ H]]]. rewrite (Hu _ H') in H. destruct H as [[-> _]|[[_ [o [H _]]]|[_ [H _]]]]; [reflexivity | destruct (Hx _ H) | contradiction].
      * intros ->. exists m. split; [exact Hc|]. split; [exact E2|]. left. auto.
    + assert (Hz : exists o, x = VDict o).
      { destruct Hx2 as [s1 [_ [Hx2 _]]]. destruct (Hm _ _ (assoc_In _ _ _ Hx2)) as [o ->]. now exists o. }
      destruct Hz as [o ->]. destruct (truthy (VDict o)) eqn:Eo.
      * destruct (vget_any_spec k2 o E2) as [y [Ey Hy]]. rewrite Ey in H. cbn [bind] in H. destruct Hy as [[-> Hy]|[Hy1 Hy2]].
        -- injection H as <-. apply places_one. intros r. split.
           ++ intros [m' [H' [_ H]]]. rewrite (Hu _ H') in H. destruct H as [[-> [_ H]]|[[-> _]|[-> _]]]; [destruct (H _ Hx2) | reflexivity | reflexivity].
           ++ intros ->. exists m. split; [exact Hc|]. split; [exact E2|]. right; left. split; [reflexivity|]. exists o. split; [exact Hx2|]. split; [intros ->; discriminate | exact Hy].
        -- assert (Ha : a = []) by (destruct y; [contradiction|..]; now injection H as <-). subst a. p_none H'. destruct H' as [m' [H' [_ H1]]]. rewrite (Hu _ H') in H1.
           destruct H1 as [[_ [_ H1]]|[[_ [o' [H1 [_ H3]]]]|[_ [H1 _]]]]; [exact (H1 _ Hx2) | | contradiction].
           assert (Eq : VDict o' = VDict o) by (eapply under_det; eassumption). injection Eq as ->. exact (H3 _ Hy2).
      * destruct o; [|discriminate]. injection H as <-. p_none H'. destruct H' as [m' [H' [_ H1]]]. rewrite (Hu _ H') in H1.
        destruct H1 as [[_ [_ H1]]|[[_ [o' [H1 [H2 _]]]]|[_ [H1 _]]]]; [exact (H1 _ Hx2) | | contradiction].
        assert (Eq : VDict o' = VDict []) by (eapply under_det; eassumption). injection Eq as ->. contradiction.
  - assert (N1 : ~ map_key_ok k1) by (intros H'; apply is_key_spec in H'; congruence).
    cbn [items_of bind] in H. apply concat_res_inv in H as [g [Hg ->]].
    assert (Hs : forall kx, In kx m -> exists o, snd kx = VDict o /\ ((g kx = [] /\ exists y, under o k2 y) \/ ((exists t, g kx = [mkRM (q ++ [PIdx 2])%list t]) /\ forall y, ~ under o k2 y))).
    { intros [k x] Hk. specialize (Hg _ Hk). cbn [snd] in *. destruct (Hm _ _ Hk) as [o ->]. exists o. split; [reflexivity|].
      destruct (vget_any_spec k2 o E2) as [y [Ey Hy]]. rewrite Ey in Hg. cbn [bind] in Hg. destruct Hy as [[-> Hy]|[Hy1 Hy2]].
      - right. split; [|exact Hy]. injection Hg as <-. eexists. reflexivity.
      - left. split; [|now exists y]. destruct y; [contradiction|..]; now injection Hg as <-. }
    apply places_iff with (fun r => r = [PIdx 2] /\ exists k o, In (k, VDict o) m /\ forall y, ~ under o k2 y).
    + clear - Hs. induction m as [|[k x] m IH]; [apply places_nil; intros r [_ [k [o [[] _]]]]|]. cbn [flat_map].
      destruct IH as [rs [Er Hr]]; [intros kx Hk; apply Hs; now right|].
      destruct (Hs (k, x) (or_introl eq_refl)) as [o [Eo Ho]]. cbn [snd] in Eo. subst x. destruct Ho as [[-> [y Hy]]|[[t ->] Hy]].
      * exists rs. split; [exact Er|]. intros r. rewrite (Hr r). split; intros [-> [k' [o' [H1 H2]]]]; (split; [reflexivity|]); exists k', o'; (split; [|exact H2]); [now right|].
        destruct H1 as [[= <- <-]|H1]; [destruct (H2 _ Hy) | exact H1].
      * exists ([PIdx 2] :: rs). split; [cbn [map app rm_path]; now rewrite Er|]. intros r. split.
        -- intros [<-|H]; [split; [reflexivity|]; exists k, o; split; [now left|exact Hy]|]. apply Hr in H as [-> [k' [o' [H1 H2]]]]. split; [reflexivity|]. exists k', o'. split; [now right|exact H2].
        -- intros [-> _]. now left.
    + intros r. split.
      * intros [-> H]. exists m. split; [exact Hc|]. split; [exact E2|]. right; right. auto.
      * intros [m' [H' [_ H]]]. rewrite (Hu _ H') in H. destruct H as [[_ [H _]]|[[_ [o [[s1 [-> _]] _]]]|[-> [_ H]]]]; [contradiction | discriminate | auto].
Qed.
Lemma key_checks : checks "Fn::FindInMap" (find_keys_check str_of (VDict ms)) (map_keys_fault (VDict d)).
Proof using Hms Hpl.
  assert (Hk : forall p v n k1 k2 r, map_arguments v n k1 k2 -> (forall n' k1' k2', map_arguments v n' k1' k2' -> n' = n /\ k1' = k1 /\ k2' = k2) ->
     key_fault n k1 k2 r <-> map_keys_fault (VDict d) p v r).
  { intros p v n k1 k2 r Ha Hd. split.
    - intros [m [Hc [H2 [[-> [H1 H]]|[[-> [o [H [Hn Hy]]]]|[-> [H1 [k [o [H Hy]]]]]]]]]].
      + eapply mk_first; eauto.
      + eapply mk_second; eauto.
      + eapply mk_any; eauto.
    - intros H. inversion H as [v0 n0 a b m Ha0 Hc H1 H2 Hx E1 E2|v0 n0 a b m o Ha0 Hc H2 Hx Hn Hy E1 E2|v0 n0 a b m k o Ha0 Hc H1 H2 Hx Hy E1 E2]; subst;
        destruct (Hd _ _ _ Ha0) as [-> [-> ->]]; exists m; (split; [exact Hc|]); (split; [exact H2|]); eauto 8. }
  apply checks_places. intros p v a H. set (q := (p ++ [PKey "Fn::FindInMap"])%list) in *. unfold find_keys_check in H.
  assert (Hnone : (forall n k1 k2, ~ map_arguments v n k1 k2) -> a = [] -> places q a (map_keys_fault (VDict d) p v)).
  { intros Hn ->. p_none H'. inversion H' as [v0 n0 a b m Ha0|v0 n0 a b m o Ha0|v0 n0 a b m k o Ha0]; subst; exact (Hn _ _ _ Ha0). }
  destruct v as [|b|z|f|s|l|o]; try discriminate.
  - destruct s as [|c1 [|c2 [|c3 [|c4 s]]]]; try (apply Hnone; [intros n k1 k2 H'; inversion H' | now injection H as <-]).
    apply check_map_keys_places in H. eapply places_iff; [exact H|]. intros r. apply Hk; [apply ma_text|]. intros n k1 k2 H'. inversion H'; subst. auto.
  - destruct l as [|n [|k1 [|k2 [|x l]]]]; try (apply Hnone; [intros n0 k10 k20 H'; inversion H' | now injection H as <-]).
    apply check_map_keys_places in H. eapply places_iff; [exact H|]. intros r. apply Hk; [apply ma_list|]. intros n0 k10 k20 H'. inversion H'; subst. auto.
  - destruct o as [|? [|? [|? [|? ?]]]]; try discriminate; apply Hnone; try (intros n k1 k2 H'; inversion H'); now injection H as <-.
Qed.
End Keys.
Lemma c55_keys template globals str_of ms : wf template -> wf globals -> plain_maps template -> find_keys_match template globals str_of = Ok ms ->
  judged "Fn::FindInMap" template globals (map_keys_fault template) ms.
Proof.
  intros Hw Hg [d [-> Hp]] H. unfold find_keys_match, get_mappings in H. cbn [vget_def bind] in H. destruct (assoc "Mappings" d) as [x|] eqn:E.
  - destruct (Hp x eq_refl) as [m [-> Hm]]. assert (Hr : (if truthy (VDict m) then VDict m else VDict []) = VDict m) by (destruct m; reflexivity). rewrite Hr in H. clear Hr.
    eapply judged_each; try eassumption. apply key_checks; [now left | exact Hm].
  - cbn [truthy negb] in H. eapply judged_each; try eassumption. apply key_checks; [now right | intros n y []].
Qed.
Lemma c55_total template globals str_of : wf template -> wf globals -> plain_maps template ->
  (forall p v, occurs "Fn::FindInMap" template globals p v -> list_ok v) -> exists ms, find_keys_match template globals str_of = Ok ms.
Proof.
  intros Hw Hg [d [-> Hp]] Hl. unfold find_keys_match, get_mappings. cbn [vget_def bind].
  assert (Ht : forall m, (forall n y, In (n, y) m -> exists m, y = VDict m /\ forall k z, In (k, z) m -> object z) -> exists ms, each (VDict d) globals "Fn::FindInMap" (find_keys_check str_of (VDict m)) = Ok ms).
  { intros m Hm. apply each_total; try assumption. intros p v Ho. destruct (Hl p v Ho) as [l ->]. unfold find_keys_check. destruct l as [|n [|k1 [|k2 [|x l]]]]; try (eexists; reflexivity).
    unfold check_map_keys. destruct (is_key k2) eqn:E2; [|eexists; reflexivity]. apply is_key_spec in E2. destruct n as [| | | |s|l|o]; try (eexists; reflexivity). cbn [vget bind].
    destruct (assoc s m) as [y|] eqn:Es; [|eexists; reflexivity]. destruct (Hm _ _ (assoc_In _ _ _ Es)) as [mm [-> Hmm]]. destruct (truthy (VDict mm)); [|eexists; reflexivity].
    destruct (is_key k1) eqn:E1.
    - apply is_key_spec in E1. destruct (vget_any_spec k1 mm E1) as [x [Ex Hx]]. rewrite Ex. cbn [bind]. destruct Hx as [[-> _]|[_ [s1 [_ [Hx _]]]]]; [eexists; reflexivity|].
      destruct (Hmm _ _ (assoc_In _ _ _ Hx)) as [o ->]. destruct (truthy (VDict o)); [|eexists; reflexivity]. destruct (vget_any_spec k2 o E2) as [y [Ey _]]. rewrite Ey. eexists; reflexivity.
    - cbn [items_of bind]. apply concat_res_total. intros [k x] Hk. destruct (Hmm _ _ Hk) as [o ->]. cbn [snd]. destruct (vget_any_spec k2 o E2) as [y [Ey _]]. rewrite Ey. eexists; reflexivity. }
  destruct (assoc "Mappings" d) as [x|] eqn:E.
  - destruct (Hp x eq_refl) as [m [-> Hm]]. assert (Hr : (if truthy (VDict m) then VDict m else VDict []) = VDict m) by (destruct m; reflexivity). rewrite Hr. now apply Ht.
  - cbn [truthy negb]. apply Ht. intros n y [].
Qed.
