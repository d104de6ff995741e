(** The loops of the rules on properties, and C27. *)
From Coq Require Import Permutation Lia.
From Verif.Model Require Import Base Helpers Locate Node Conditions Search Resolve Rules Refs Relationship Parameters JsonDump PropertyRules.
From Verif.Spec Require Import Paths Branches Walk Required.
From Verif.Proofs Require Import BaseFacts BranchProofs SearchProofs ConditionUseProofs RunProofs WalkProofs ReportProofs SearchWitness.
Import ListNotations.
Local Open Scope string_scope.


Lemma per_property_in props specs p f ms : all_objects (VDict props) p -> per_property (VDict props) specs p f = Ok ms ->
  forall m, In m ms <-> exists d q prop ps o, branch (VDict props) p (VDict d) q /\ In prop (keys d) /\ assoc prop specs = Some ps /\
    f (VDict d) q prop ps = Ok o /\ In m o.
Proof.
  intros Ha H m. unfold per_property in H. cbn [obj_items_safe bind] in H. rewrite (concat_res_ok_iff _ _ _ H). split.
  - intros [[w q] [o [Hi [Hf Hm]]]]. apply items_safe_spec in Hi. destruct (Ha _ _ Hi) as [d ->]. cbn [fst snd iter_val bind] in Hf.
    apply (concat_res_ok_iff _ _ _ Hf) in Hm as [k [o' [Hk [Hf' Hm]]]]. apply in_map_iff in Hk as [prop [<- Hk]].
    destruct (assoc prop specs) as [ps|] eqn:E; [|injection Hf' as <-; destruct Hm]. exists d, q, prop, ps, o'. auto.
  - intros [d [q [prop [ps [o [Hb [Hk [Hs [Hf Hm]]]]]]]]]. apply items_safe_spec in Hb. exists (VDict d, q).
    destruct (concat_res_inv _ _ _ H) as [g [Hg _]]. pose proof (Hg _ Hb) as E. exists (g (VDict d, q)). split; [exact Hb|]. split; [exact E|].
    cbn [fst snd iter_val bind] in E. apply (concat_res_ok_iff _ _ _ E). exists (VStr prop), o. split; [now apply in_map|]. rewrite Hs. auto.
Qed.
Lemma per_property_each props specs p f ms : all_objects (VDict props) p -> per_property (VDict props) specs p f = Ok ms ->
  forall d q prop ps, branch (VDict props) p (VDict d) q -> In prop (keys d) -> assoc prop specs = Some ps -> exists o, f (VDict d) q prop ps = Ok o.
Proof.
  intros Ha H d q prop ps Hb Hk Hs. unfold per_property in H. cbn [obj_items_safe bind] in H. apply items_safe_spec in Hb.
  destruct (concat_res_inv _ _ _ H) as [g [Hg _]]. specialize (Hg _ Hb). cbn [fst snd iter_val bind] in Hg.
  destruct (concat_res_inv _ _ _ Hg) as [g' [Hg' _]]. specialize (Hg' (VStr prop) (in_map VStr _ _ Hk)). cbn beta iota in Hg'. rewrite Hs in Hg'. eauto.
Qed.
Lemma per_property_total props specs p f : all_objects (VDict props) p ->
  (forall d q prop ps, branch (VDict props) p (VDict d) q -> In prop (keys d) -> assoc prop specs = Some ps -> exists o, f (VDict d) q prop ps = Ok o) ->
  exists ms, per_property (VDict props) specs p f = Ok ms.
Proof.
  intros Ha Hf. unfold per_property. cbn [obj_items_safe bind]. apply concat_res_total. intros [w q] Hi. apply items_safe_spec in Hi. destruct (Ha _ _ Hi) as [d ->].
  cbn [fst snd iter_val bind]. apply concat_res_total. intros k Hk. apply in_map_iff in Hk as [prop [<- Hk]].
  destruct (assoc prop specs) as [ps|] eqn:E; eauto.
Qed.
Lemma wf_dict_intro d : NoDup (map fst d) -> (forall k x, In (k, x) d -> wf x) -> wf (VDict d).
Proof.
  intros Hk Hw. cbn. split; [exact Hk|]. clear Hk. induction d as [|[k x] d IH]; [exact I|]. split; [apply (Hw k); now left | apply IH; intros k' x' H; apply (Hw k'); now right].
Qed.
Lemma branch_wf v p w q : branch v p w q -> wf v -> wf w.
Proof.
  induction 1 as [c a b p w q H IH|c a b p w q H IH|v w p Hi Hn Hs]; intros Hw.
  - apply IH. cbn in Hw. tauto.
  - apply IH. cbn in Hw. tauto.
  - destruct Hs as [d d' Hd|v Hv]; [|exact Hw]. apply clean_pruned in Hd. subst d'. clear Hn Hi.
    apply wf_dict in Hw as [Hk Hw]. apply wf_dict_intro.
    + clear Hw. unfold clean. induction d as [|[k x] d IH]; [constructor|]. cbn in Hk. inversion Hk; subst. cbn [filter snd]. destruct (negb (Node.is_novalue x)); [|auto].
      cbn. constructor; [|auto]. intros K. apply in_map_iff in K as [[k' y] [E K]]. cbn in E. subst k'. apply filter_In in K as [K _]. apply H1. apply in_map_iff. exists (k, y). auto.
    + intros k x Hin. apply (Hw k). unfold clean in Hin. apply filter_In in Hin. tauto.
Qed.

(** * C27 *)
Lemma contains_text_iff t s : contains_text t s = true <-> exists a b, s = (a ++ t ++ b)%string.
Proof.
  induction s as [|x s IH]; cbn [contains_text].
  - rewrite orb_false_r. split.
    + intros H. apply prefix_iff in H as [b E]. exists "", b. exact E.
    + intros [a [b E]]. apply prefix_iff. destruct a; [|discriminate]. exists b. exact E.
  - rewrite orb_true_iff, IH. split.
    + intros [H|[a [b ->]]]; [apply prefix_iff in H as [b E]; exists "", b; exact E | exists (String x a), b; reflexivity].
    + intros [[|y a] [b E]]; [left; apply prefix_iff; exists b; exact E | right; injection E as <- ->; exists a, b; reflexivity].
Qed.
Lemma member_lacks n v : has_members v -> exists b, py_member (VStr n) v = Ok b /\ (b = false <-> lacks v n).
Proof.
  intros [[d ->]|[[l ->]|[s ->]]]; cbn [py_member]; eexists; (split; [reflexivity|]).
  - split.
    + intros H. constructor. intros K. apply mem_assoc_iff in K. congruence.
    + intros H. inversion H; subst. destruct (mem_assoc n d) eqn:E; [apply mem_assoc_iff in E; contradiction | reflexivity].
  - assert (K : py_in (VStr n) l = true <-> In (VStr n) l).
    { unfold py_in. rewrite existsb_exists. split; [intros [x [Hx E]]; apply py_eq_text in E; now subst | intros H; exists (VStr n); split; [exact H | now apply py_eq_text]]. }
    split; [intros H; constructor; intros Hi; apply K in Hi; congruence|]. intros H. inversion H; subst. destruct (py_in (VStr n) l); [exfalso; intuition | reflexivity].
  - split.
    + intros H. constructor. intros a b E. assert (contains_text n s = true) by (apply contains_text_iff; eauto). congruence.
    + intros H. inversion H as [| |? ? Hs]; subst. destruct (contains_text n s) eqn:E; [|reflexivity]. apply contains_text_iff in E as [a [b E]]. now destruct (Hs a b).
Qed.
Lemma member_scalar n v : ~ has_members v -> py_member (VStr n) v = Err ETypeErr.
Proof. intros H. unfold has_members in H. destruct v; try reflexivity; exfalso; apply H; eauto. Qed.
Definition lacksb (v : val) (n : string) : bool := match py_member (VStr n) v with Ok b => negb b | Err _ => false end.
Lemma lacksb_iff v n : has_members v -> lacksb v n = true <-> lacks v n.
Proof. intros H. unfold lacksb. destruct (member_lacks n v H) as [b [-> K]]. rewrite <- K. now destruct b. Qed.
Lemma required_obj_object required w q : has_members w -> required_obj required (w, q) = Ok (map (missing_match q) (filter (lacksb w) required)).
Proof.
  intros Hw. unfold required_obj. rewrite (concat_res_Ok _ (fun n => if lacksb w n then [missing_match q n] else [])).
  - f_equal. induction required as [|n l IH]; [reflexivity|]. cbn [flat_map filter]. destruct (lacksb w n); cbn [app map]; now rewrite IH.
  - intros n _. cbn [fst snd]. unfold lacksb. destruct (member_lacks n w Hw) as [b [-> _]]. now destruct b.
Qed.
Lemma required_objects required props p : all_members (VDict props) p ->
  exists ms, required_check (VDict props) required p = Ok ms /\
    forall m, In m ms <-> exists w q name, branch (VDict props) p w q /\ In name required /\ lacks w name /\
      m = mkRM q ("Property " ++ name ++ " missing at " ++ path_text q).
Proof.
  intros Ha. unfold required_check. cbn [obj_items_safe bind].
  assert (Hok : forall x, In x (items_safe (VDict props) p) -> has_members (fst x)).
  { intros [w q] Hi. apply items_safe_spec in Hi. now apply Ha in Hi. }
  destruct (concat_res_total (required_obj required) (items_safe (VDict props) p)) as [ms Hms].
  { intros [w q] Hi. rewrite required_obj_object by exact (Hok _ Hi). eauto. }
  exists ms. split; [exact Hms|]. intros m. rewrite (concat_res_ok_iff _ _ _ Hms). split.
  - intros [[w q] [o [Hi [Hf Hm]]]]. rewrite required_obj_object in Hf by exact (Hok _ Hi). injection Hf as <-.
    apply in_map_iff in Hm as [n [<- Hn]]. apply filter_In in Hn as [Hn Hd]. exists w, q, n. apply lacksb_iff in Hd; [|exact (Hok _ Hi)]. apply items_safe_spec in Hi. auto.
  - intros [w [q [n [Hb [Hn [Hd ->]]]]]]. pose proof (Ha _ _ Hb) as Hw. apply items_safe_spec in Hb. exists (w, q). eexists. split; [exact Hb|]. split; [now apply required_obj_object|].
    apply in_map_iff. exists n. split; [reflexivity|]. apply filter_In. split; [exact Hn|]. now apply lacksb_iff.
Qed.
Lemma required_NoDup required props p : NoDup required -> forall ms, required_check (VDict props) required p = Ok ms -> NoDup ms.
Proof.
  intros Hn ms. unfold required_check. cbn [obj_items_safe bind]. intros Hms.
  assert (Hq : NoDup (map snd (items_safe (VDict props) p))) by apply (branches_NoDup (VDict props)).
  assert (Hdec : required = [] \/ forall x, In x (items_safe (VDict props) p) -> has_members (fst x)).
  { destruct required as [|n required]; [now left|]. right. intros [w q] Hi. destruct (concat_res_inv _ _ _ Hms) as [g [Hg _]]. specialize (Hg _ Hi).
    unfold required_obj in Hg. cbn [concat_res fst] in Hg. unfold has_members. cbn [fst]. destruct w; cbn [py_member bind] in Hg; try discriminate; eauto. }
  destruct Hdec as [->|Hok].
  { assert (ms = []) as ->; [|constructor]. clear Hq. revert ms Hms. induction (items_safe (VDict props) p) as [|x l IH]; intros ms; cbn [concat_res]; [congruence|].
    cbn [required_obj concat_res bind]. destruct (concat_res (required_obj []) l) as [r|]; cbn [bind]; [|discriminate]. rewrite (IH r eq_refl). cbn. congruence. }
  revert ms Hms. induction (items_safe (VDict props) p) as [|[w q] l IH]; intros ms; cbn [concat_res]; [intros [= <-]; constructor|].
  rewrite required_obj_object by exact (Hok _ (or_introl eq_refl)). cbn [bind].
  destruct (concat_res (required_obj required) l) as [r|] eqn:Er; cbn [bind]; [|discriminate]. intros [= <-]. cbn in Hq. inversion Hq as [|? ? Hni Hq']; subst.
  assert (Hfrom : forall m, In m r -> exists q', In q' (map snd l) /\ rm_path m = q').
  { intros m Hm. apply (concat_res_ok_iff _ _ _ Er) in Hm as [[w' q'] [o [Hi [Hf Hm]]]]. rewrite required_obj_object in Hf by exact (Hok _ (or_intror Hi)). injection Hf as <-.
    apply in_map_iff in Hm as [n [<- _]]. exists q'. split; [|reflexivity]. apply in_map_iff. exists (w', q'). auto. }
  apply NoDup_app_disj.
  - clear -Hn. induction required as [|n l IH]; [constructor|]. inversion Hn; subst. cbn [filter]. destruct (lacksb w n); [|auto]. cbn [map]. constructor; [|auto].
    intros K. apply in_map_iff in K as [n' [E K]]. apply filter_In in K as [K _]. assert (n = n'); [|now subst].
    unfold missing_match in E. injection E as E. apply append_cancel_r in E. exact (eq_sym E).
  - apply IH; auto. intros x Hx. apply Hok. now right.
  - intros m H1 H2. apply in_map_iff in H1 as [n [<- _]]. apply Hfrom in H2 as [q' [H2 E]]. cbn in E. now subst.
Qed.
(** A branch that is a number, Boolean or null makes the check fail. *)
Lemma required_fails required props p w q : required <> [] -> branch (VDict props) p w q -> ~ has_members w -> required_check (VDict props) required p = Err ETypeErr.
Proof.
  intros Hr Hb Hw. unfold required_check. cbn [obj_items_safe bind]. apply items_safe_spec in Hb.
  induction (items_safe (VDict props) p) as [|[w' q'] l IH]; [destruct Hb|]. cbn [concat_res].
  assert (Hd : has_members w' \/ ~ has_members w').
  { unfold has_members. destruct w'; eauto; right; intros [[? ?]|[[? ?]|[? ?]]]; discriminate. }
  destruct Hd as [Hd|Hd].
  - rewrite required_obj_object by exact Hd. cbn [bind]. destruct Hb as [[= -> ->]|Hb]; [contradiction|]. now rewrite (IH Hb).
  - unfold required_obj at 1. destruct required as [|n required]; [congruence|]. cbn [concat_res fst snd]. now rewrite (member_scalar n w' Hd).
Qed.

(** * Paths of branches exist in the template *)
Lemma at_path_app p : forall q v, at_path (p ++ q)%list v = match at_path p v with Some x => at_path q x | None => None end.
Proof.
  induction p as [|[k|i] p IH]; intros q v; [reflexivity| |]; cbn [app at_path]; destruct v as [| | | | |l|d]; try reflexivity.
  - destruct (assoc k d); [apply IH | reflexivity].
  - destruct (nth_error l i); [apply IH | reflexivity].
Qed.
Lemma branch_at v p w q : branch v p w q -> forall t, at_path p t = Some v -> exists x, at_path q t = Some x.
Proof.
  induction 1 as [c a b p w q H IH|c a b p w q H IH|v w p Hi Hn Hs]; intros t Ht; [| |eauto].
  - apply IH. rewrite at_path_app, Ht. reflexivity.
  - apply IH. rewrite at_path_app, Ht. reflexivity.
Qed.
Lemma massoc_erase k d : assoc k (map (fun kv => (fst (fst kv), erase (snd kv))) d) = option_map erase (massoc k d).
Proof. induction d as [|[[k' m] x] d IH]; [reflexivity|]. cbn [map assoc massoc fst snd]. destruct (String.eqb k k'); [reflexivity | exact IH]. Qed.
Lemma at_path_indices p : forall t x, at_path p (erase t) = Some x -> indices_ok t p.
Proof.
  induction p as [|e p IH]; intros t x H before i after c E L; [destruct before; discriminate|].
  destruct before as [|e' before].
  - injection E as -> ->. inversion L; subst. destruct c as [v|? ?|? l|? ?]; cbn [erase at_path] in H.
    + destruct v; try exact I; discriminate.
    + discriminate.
    + rewrite nth_error_map in H. destruct (nth_error l i) eqn:En; [|discriminate]. apply nth_error_Some. congruence.
    + exact I.
  - injection E as <- E. inversion L; subst; cbn [erase at_path] in H.
    + rewrite massoc_erase in H. match goal with K : massoc _ _ = Some _ |- _ => rewrite K in H end. cbn [option_map] in H. exact (IH _ _ H _ _ _ _ eq_refl ltac:(eassumption)).
    + rewrite nth_error_map in H. match goal with K : nth_error _ _ = Some _ |- _ => rewrite K in H end. cbn [option_map] in H. exact (IH _ _ H _ _ _ _ eq_refl ltac:(eassumption)).
Qed.

Lemma located c id m d m0 : c_tmpl c = MDict m0 d -> rm_path m <> [] -> (exists x, at_path (rm_path m) (template c) = Some x) ->
  exists f, locate_match c id m = Ok f.
Proof.
  intros Hc Hp [x Hx]. destruct c as [file region t]. cbn in Hc. subst t. cbn in Hx. destruct (c14_finding m0 d file region id m Hp) as [f [Hf _]]; [now apply (at_path_indices _ (MDict m0 d) x) | eauto].
Qed.
Lemma resource_root c name rt attrs : resource_of (template c) name rt attrs -> (exists v, c_tmpl c = MScalar v) \/ exists m0 d, c_tmpl c = MDict m0 d.
Proof. intros [top [rs [E _]]]. unfold template in E. destruct (c_tmpl c); try discriminate; eauto. Qed.
Definition props_path (name : string) : path := [PKey "Resources"; PKey name; PKey "Properties"].
Lemma resource_at c name rt attrs pd : wf (template c) -> resource_of (template c) name rt attrs -> assoc "Properties" attrs = Some (VDict pd) ->
  at_path (props_path name) (template c) = Some (VDict pd).
Proof.
  intros Hw [top [rs [E [Hr [Hn _]]]]] Hp. rewrite E in *. cbn [props_path at_path]. rewrite Hr.
  apply wf_dict in Hw as [_ Hw]. apply assoc_In in Hr. apply Hw in Hr. apply wf_dict in Hr as [Hk _]. apply (assoc_NoDup name (VDict attrs) rs Hk) in Hn. now rewrite Hn, Hp.
Qed.

Lemma reported_props sp k c raw r f name rt attrs pd ms m m0 d0 :
  snd (coll_run sp k c) = Ok raw -> In r (k_all k) -> enabled (k_set k) r = true -> r_match_props r = Some f -> In rt (r_types r ++ fst (r_init r c))%list ->
  c_tmpl c = MDict m0 d0 -> resource_of (template c) name rt attrs -> assoc "Properties" attrs = Some (VDict pd) ->
  f (r_config r) c (VDict pd) rt (props_path name) = Ok ms ->
  (forall m, In m ms -> rm_path m <> [] /\ exists x, at_path (rm_path m) (template c) = Some x) -> In m ms ->
  exists fi, locate_match c (r_id r) m = Ok fi /\ In fi raw.
Proof.
  intros Hrun Hr He Hf Hrt Hc Hres Hp Hok Hat Hm.
  set (r' := add_types r (fst (r_init r c)) (snd (r_init r c))).
  assert (Hr' : In r' (rules (fst (coll_run sp k c)))).
  { unfold coll_run. cbn [fst]. unfold rules, initialize_all. cbn [k_all k_set]. apply filter_In. split; [|exact He]. apply in_map_iff. exists r. rewrite He. auto. }
  destruct (c06_props sp k c raw r' name rt attrs pd Hrun Hr' Hres Hp) as [H _].
  assert (Hl : forall x, In x ms -> exists y, locate_match c (r_id r) x = Ok y) by (intros x Hx; destruct (Hat x Hx); eapply located; eauto).
  destruct (Hl m Hm) as [fi Hfi]. exists fi. split; [exact Hfi|].
  set (g := fun x => match locate_match c (r_id r) x with Ok y => y | Err _ => fi end).
  assert (Hmap : map_res (locate_match c (r_id r)) ms = Ok (map g ms)) by (apply map_res_Ok; intros x Hx; unfold g; destruct (Hl x Hx) as [y ->]; reflexivity).
  apply (H (map g ms)).
  - unfold matchall_props, r'. cbn [add_types r_match_props r_types r_config r_id]. rewrite Hf.
    assert (E : smem rt (r_types r ++ fst (r_init r c)) = true) by (now apply smem_iff). rewrite E. cbn [negb]. unfold props_path in Hok. rewrite Hok. exact Hmap.
  - apply in_map_iff. exists m. split; [|exact Hm]. unfold g. now rewrite Hfi.
Qed.

(** * Nested objects *)
Lemma branch_settled v p w q : branch v p w q -> forall t, at_path p t = Some v -> exists x, at_path q t = Some x /\ settled x w.
Proof.
  induction 1 as [c a b p w q H IH|c a b p w q H IH|v w p Hi Hn Hs]; intros t Ht; [| |eauto].
  - apply IH. rewrite at_path_app, Ht. reflexivity.
  - apply IH. rewrite at_path_app, Ht. reflexivity.
Qed.
Lemma at_path_wf p : forall t x, wf t -> at_path p t = Some x -> wf x.
Proof.
  induction p as [|[k|i] p IH]; intros t x Hw; cbn [at_path]; [intros [= <-]; exact Hw| |]; destruct t as [| | | | |l|d]; try discriminate.
  - destruct (assoc k d) as [y|] eqn:E; [|discriminate]. apply IH. apply wf_dict in Hw as [_ Hw]. apply (Hw k). now apply assoc_In.
  - destruct (nth_error l i) as [y|] eqn:E; [|discriminate]. apply IH. eapply wf_list; [exact Hw|]. eapply nth_error_In; eauto.
Qed.
Lemma at_member t p d k x : wf t -> at_path p t = Some (VDict d) -> In (k, x) d -> at_path (p ++ [PKey k])%list t = Some x.
Proof.
  intros Hw Hp Hi. rewrite at_path_app, Hp. cbn [at_path]. pose proof (at_path_wf _ _ _ Hw Hp) as Hd. apply wf_dict in Hd as [Hk _]. now rewrite (assoc_NoDup k x d Hk Hi).
Qed.
Lemma at_item t p l i x : at_path p t = Some (VList l) -> nth_error l i = Some x -> at_path (p ++ [PIdx i])%list t = Some x.
Proof. intros Hp Hi. rewrite at_path_app, Hp. cbn [at_path]. now rewrite Hi. Qed.
Lemma at_key2 t p k i x : at_path ((p ++ [PKey k]) ++ [PIdx i])%list t = Some x -> at_path (p ++ [PKey k; PIdx i])%list t = Some x.
Proof. now rewrite <- app_assoc. Qed.
Lemma nested_at sp rt t : wf t -> forall pt v p n w q, nested sp rt pt v p n w q -> at_path p t = Some v -> at_path q t = Some w.
Proof.
  intros Hw pt v p n w q H. induction H as
    [pt name ts v p Hn Hl | pt name ts l i x p n w q _ _ _ _ Hx _ IH | pt name ts props d key pd l i x p n w q _ _ _ Hk _ _ Hx _ IH |
     pt name ts props d key pd t0 d' p n w q _ _ _ Hk _ _ _ _ _ IH | pt name ts props d c b1 b2 b i p n w q _ _ _ _ Hk _ Hb _ _ IH |
     pt name ts props d c b1 b2 l i j x p n w q _ _ _ _ Hk _ Hb Hx _ IH]; intros Hp; auto.
  - apply IH. eapply at_item; eauto.
  - apply IH, at_key2. eapply at_item; [|exact Hx]. eapply at_member; eauto.
  - apply IH. eapply at_member; eauto.
  - apply IH, at_key2. eapply at_item; [eapply at_member; eauto|]. destruct Hb as [[-> ->]|[-> ->]]; reflexivity.
  - apply IH. replace (p ++ [PKey "Fn::If"; PIdx i; PIdx j])%list with (((p ++ [PKey "Fn::If"]) ++ [PIdx i]) ++ [PIdx j])%list by (now rewrite <- !app_assoc).
    eapply at_item; [|exact Hx]. eapply at_item; [eapply at_member; eauto|]. destruct Hb as [[-> ->]|[-> ->]]; reflexivity.
Qed.
Lemma pruned_in d d' kx : pruned d d' -> In kx d' -> In kx d.
Proof. intros H. apply clean_pruned in H. subst d'. unfold clean. intros K. apply filter_In in K. tauto. Qed.
Lemma resource_nested_at sp rt t props p n w q : wf t -> at_path p t = Some props -> resource_nested sp rt props p n w q -> at_path q t = Some w.
Proof.
  intros Hw Hp H. destruct H as [d vp ts sps key pd l i x n w q Hb _ _ Hk _ _ Hx Hn|d vp ts sps key pd t0 d' n w q Hb _ _ Hk _ _ _ _ Hn].
  - destruct (branch_settled _ _ _ _ Hb _ Hp) as [y [Hy Hs]]. inversion Hs as [d0 d1 Hd|? Hv]; subst; [|discriminate].
    apply (nested_at sp rt t Hw _ _ _ _ _ _ Hn). apply at_key2. eapply at_item; [|exact Hx]. eapply at_member; eauto. eapply pruned_in; eauto.
  - destruct (branch_settled _ _ _ _ Hb _ Hp) as [y [Hy Hs]]. inversion Hs as [d0 d1 Hd|? Hv]; subst; [|discriminate].
    apply (nested_at sp rt t Hw _ _ _ _ _ _ Hn). eapply at_member; eauto. eapply pruned_in; eauto.
Qed.
Lemma reported_subs sp k c raw r f name rt attrs pd n w q ms m m0 d0 :
  snd (coll_run sp k c) = Ok raw -> In r (k_all k) -> enabled (k_set k) r = true -> r_match_subs r = Some f -> In n (r_subtypes r ++ snd (r_init r c))%list ->
  c_tmpl c = MDict m0 d0 -> resource_of (template c) name rt attrs -> assoc "Properties" attrs = Some (VDict pd) ->
  resource_nested sp rt (VDict pd) (props_path name) n w q -> ~ is_if w ->
  f (r_config r) c w n q = Ok ms ->
  (forall m, In m ms -> rm_path m <> [] /\ exists x, at_path (rm_path m) (template c) = Some x) -> In m ms ->
  exists fi, locate_match c (r_id r) m = Ok fi /\ In fi raw.
Proof.
  intros Hrun Hr He Hf Hrt Hc Hres Hp Hne Hif Hok Hat Hm.
  set (r' := add_types r (fst (r_init r c)) (snd (r_init r c))).
  assert (Hr' : In r' (rules (fst (coll_run sp k c)))).
  { unfold coll_run. cbn [fst]. unfold rules, initialize_all. cbn [k_all k_set]. apply filter_In. split; [|exact He]. apply in_map_iff. exists r. rewrite He. auto. }
  destruct (c06_subs sp k c raw r' name rt attrs pd n w q Hrun Hr' Hres Hp Hne Hif) as [H _].
  assert (Hl : forall x, In x ms -> exists y, locate_match c (r_id r) x = Ok y) by (intros x Hx; destruct (Hat x Hx); eapply located; eauto).
  destruct (Hl m Hm) as [fi Hfi]. exists fi. split; [exact Hfi|].
  set (g := fun x => match locate_match c (r_id r) x with Ok y => y | Err _ => fi end).
  assert (Hmap : map_res (locate_match c (r_id r)) ms = Ok (map g ms)) by (apply map_res_Ok; intros x Hx; unfold g; destruct (Hl x Hx) as [y ->]; reflexivity).
  apply (H (map g ms)).
  - unfold matchall_subs, r'. cbn [add_types r_match_subs r_subtypes r_config r_id]. rewrite Hf.
    assert (E : smem n (r_subtypes r ++ snd (r_init r c)) = true) by (now apply smem_iff). rewrite E. cbn [negb]. rewrite Hok. exact Hmap.
  - apply in_map_iff. exists m. split; [|exact Hm]. unfold g. now rewrite Hfi.
Qed.

(** * The rule E3003 in a run *)
Lemma required_attrs_in types t name : In name (required_attrs (specs_of t types)) <-> requires types t name.
Proof.
  unfold required_attrs, specs_of, requires, keys. rewrite in_map_iff. split.
  - intros [[n ps] [<- H]]. apply filter_In in H as [H E]. destruct (assoc t types) as [specs|]; [|destruct H]. exists specs, ps. auto.
  - intros [specs [ps [-> [H E]]]]. exists (name, ps). split; [reflexivity|]. apply filter_In. auto.
Qed.
Lemma requires_type types t name : requires types t name -> In t (keys types).
Proof. intros [specs [ps [H _]]]. apply assoc_In in H. apply in_map_iff. exists (t, specs). auto. Qed.

Lemma c27_objects rs props p rt : all_members (VDict props) p ->
  exists ms, required_props rs (VDict props) rt p = Ok ms /\
    forall m, In m ms <-> exists w q name, branch (VDict props) p w q /\ requires (rs_resource_types rs) rt name /\ lacks w name /\
      m = mkRM q ("Property " ++ name ++ " missing at " ++ path_text q).
Proof.
  intros Ha. unfold required_props. cbn [is_null]. destruct (required_objects (required_attrs (specs_of rt (rs_resource_types rs))) props p Ha) as [ms [H1 H2]].
  exists ms. split; [exact H1|]. intros m. rewrite H2. split; intros [d [q [n [Hb [Hn H]]]]]; exists d, q, n; (split; [exact Hb|]); (split; [now apply required_attrs_in|exact H]).
Qed.
Lemma c27_nested rs props p pt : all_members (VDict props) p ->
  exists ms, required_subs rs (VDict props) pt p = Ok ms /\
    forall m, In m ms <-> exists w q name, branch (VDict props) p w q /\ requires (rs_property_types rs) pt name /\ lacks w name /\
      m = mkRM q ("Property " ++ name ++ " missing at " ++ path_text q).
Proof.
  intros Ha. unfold required_subs. destruct (required_objects (required_attrs (specs_of pt (rs_property_types rs))) props p Ha) as [ms [H1 H2]].
  exists ms. split; [exact H1|]. intros m. rewrite H2. split; intros [d [q [n [Hb [Hn H]]]]]; exists d, q, n; (split; [exact Hb|]); (split; [now apply required_attrs_in|exact H]).
Qed.
Lemma branch_nonempty v p w q : branch v p w q -> p <> [] -> q <> [].
Proof. intros H Hp E. apply branch_ext in H as [r ->]. destruct p; [congruence | discriminate]. Qed.
Lemma required_in_run sp k c raw rs name rt attrs pd m0 d0 d q prop :
  snd (coll_run sp k c) = Ok raw -> In (required_rule rs) (k_all k) -> enabled (k_set k) (required_rule rs) = true ->
  wf (template c) -> c_tmpl c = MDict m0 d0 -> resource_of (template c) name rt attrs -> assoc "Properties" attrs = Some (VDict pd) ->
  all_members (VDict pd) [PKey "Resources"; PKey name; PKey "Properties"] ->
  branch (VDict pd) [PKey "Resources"; PKey name; PKey "Properties"] d q -> requires (rs_resource_types rs) rt prop -> lacks d prop ->
  exists f, locate_match c "E3003" (mkRM q ("Property " ++ prop ++ " missing at " ++ path_text q)) = Ok f /\ In f raw.
Proof.
  intros Hrun Hr He Hw Hc Hres Hp Ha Hb Hreq Hn.
  destruct (c27_objects rs pd (props_path name) rt Ha) as [ms [Hms Hin]].
  refine (reported_props sp k c raw (required_rule rs) _ name rt attrs pd ms _ m0 d0 Hrun Hr He eq_refl _ Hc Hres Hp Hms _ _).
  - now apply requires_type in Hreq.
  - intros m Hm. apply Hin in Hm as [d' [q' [n' [Hb' [_ [_ ->]]]]]]. cbn [rm_path]. split; [eapply branch_nonempty; [exact Hb' | discriminate]|].
    eapply branch_at; [exact Hb'|]. exact (resource_at c name rt attrs pd Hw Hres Hp).
  - apply Hin. exists d, q, prop. auto.
Qed.
Lemma nested_nonempty sp rt pt v p n w q : nested sp rt pt v p n w q -> p <> [] -> q <> [].
Proof.
  induction 1; intros Hp; auto; match goal with IH : _ -> q <> [] |- _ => apply IH end; destruct p; try congruence; discriminate.
Qed.
Lemma resource_nested_nonempty sp rt v p n w q : resource_nested sp rt v p n w q -> q <> [].
Proof.
  intros [? vp ? ? ? ? ? ? ? ? ? ? _ _ _ _ _ _ _ H|? vp ? ? ? ? ? ? ? ? ? _ _ _ _ _ _ _ _ H]; apply (nested_nonempty _ _ _ _ _ _ _ _ H); now destruct vp.
Qed.
Lemma required_nested_in_run sp k c raw rs name rt attrs pd m0 d0 n w q d q' prop :
  snd (coll_run sp k c) = Ok raw -> In (required_rule rs) (k_all k) -> enabled (k_set k) (required_rule rs) = true ->
  wf (template c) -> c_tmpl c = MDict m0 d0 -> resource_of (template c) name rt attrs -> assoc "Properties" attrs = Some (VDict pd) ->
  resource_nested sp rt (VDict pd) [PKey "Resources"; PKey name; PKey "Properties"] n (VDict w) q -> ~ is_if (VDict w) -> 
  branch (VDict w) q d q' -> requires (rs_property_types rs) n prop -> lacks d prop ->
  exists f, locate_match c "E3003" (mkRM q' ("Property " ++ prop ++ " missing at " ++ path_text q')) = Ok f /\ In f raw.
Proof.
  intros Hrun Hr He Hw Hc Hres Hp Hne Hif Hb Hreq Hn.
  assert (Ha : all_members (VDict w) q).
  { intros x y Hx. unfold has_members. inversion Hx; subst; try (exfalso; apply Hif; eexists; reflexivity). match goal with H : settled _ _ |- _ => inversion H; subst end; [eauto | discriminate]. }
  destruct (c27_nested rs w q n Ha) as [ms [Hms Hin]].
  pose proof (resource_at c name rt attrs pd Hw Hres Hp) as Hat. pose proof (resource_nested_at sp rt _ _ _ _ _ _ Hw Hat Hne) as Hq.
  refine (reported_subs sp k c raw (required_rule rs) _ name rt attrs pd n (VDict w) q ms _ m0 d0 Hrun Hr He eq_refl _ Hc Hres Hp Hne Hif Hms _ _).
  - now apply requires_type in Hreq.
  - intros m Hm. apply Hin in Hm as [d' [q1 [n' [Hb' [_ [_ ->]]]]]]. cbn [rm_path]. split; [|eapply branch_at; [exact Hb'|exact Hq]].
    eapply branch_nonempty; [exact Hb'|]. exact (resource_nested_nonempty _ _ _ _ _ _ _ Hne).
  - apply Hin. exists d, q', prop. auto.
Qed.

(** Custom resources. *)
Lemma listed_resource_of t name rt attrs : In (name, VDict attrs) (get_resources t) -> assoc "Type" attrs = Some (VStr rt) -> resource_of t name rt attrs.
Proof.
  unfold get_resources, vget_def. destruct t as [| | | | | |top]; try (intros []). destruct (assoc "Resources" top) as [[| | | | | |rs]|] eqn:E; try (intros []).
  intros H Ht. apply filter_In in H as [H _]. exists top, rs. auto.
Qed.
Lemma c27_custom rs t :
  (forall name rt attrs x, resource_of t name rt attrs -> custom_type rs rt -> assoc "Properties" attrs = Some x ->
     exists props, x = VDict props /\ all_members (VDict props) [PKey "Resources"; PKey name; PKey "Properties"]) ->
  forall ms, required_match rs t = Ok ms ->
  forall m, In m ms <-> exists name rt attrs props w q prop, resource_of t name rt attrs /\ custom_type rs rt /\
    assoc "Properties" attrs = Some (VDict props) /\ branch (VDict props) [PKey "Resources"; PKey name; PKey "Properties"] w q /\
    requires (rs_resource_types rs) "AWS::CloudFormation::CustomResource" prop /\ lacks w prop /\
    m = mkRM q ("Property " ++ prop ++ " missing at " ++ path_text q).
Proof.
  intros Hok ms Hms m. unfold required_match in Hms. rewrite (concat_res_ok_iff _ _ _ Hms).
  assert (Hcu : forall rt, starts_with "Custom::" rt && negb (mem_assoc rt (rs_resource_types rs)) = true <-> custom_type rs rt).
  { intros rt. unfold custom_type. rewrite andb_true_iff, negb_true_iff. unfold starts_with. rewrite prefix_iff. split.
    - intros [H1 H2]. split; [exact H1|]. intros K. apply mem_assoc_iff in K. congruence.
    - intros [H1 H2]. split; [exact H1|]. destruct (mem_assoc rt (rs_resource_types rs)) eqn:E; [apply mem_assoc_iff in E; contradiction | reflexivity]. }
  split.
  - intros [[name v] [o [Hi [Hf Hm]]]]. unfold required_custom in Hf. cbn [fst snd] in Hf. destruct v as [| | | | | |attrs]; try (injection Hf as <-; destruct Hm).
    destruct (assoc "Properties" attrs) as [x|] eqn:Ep; [|injection Hf as <-; destruct Hm]. destruct (assoc "Type" attrs) as [ty|] eqn:Et; [|injection Hf as <-; destruct Hm].
    destruct ty as [| | | |rt| |]; try discriminate. destruct (starts_with "Custom::" rt && negb (mem_assoc rt (rs_resource_types rs))) eqn:Ec; [|injection Hf as <-; destruct Hm].
    apply Hcu in Ec. assert (Hres : resource_of t name rt attrs).
    { now apply listed_resource_of. }
    destruct (Hok _ _ _ _ Hres Ec Ep) as [props [-> Ha]]. destruct (required_objects (required_attrs (specs_of "AWS::CloudFormation::CustomResource" (rs_resource_types rs))) props _ Ha) as [ms' [H1 H2]].
    rewrite H1 in Hf. injection Hf as ->. apply H2 in Hm as [w [q [n [Hb [Hn [Hl E]]]]]]. exists name, rt, attrs, props, w, q, n. apply required_attrs_in in Hn. auto 10.
  - intros [name [rt [attrs [props [w [q [prop [Hres [Hc [Hp [Hb [Hr [Hl E]]]]]]]]]]]]].
    pose proof (resource_of_listed _ _ _ _ Hres) as Hi. destruct (Hok _ _ _ _ Hres Hc Hp) as [props' [Ep Ha]]. injection Ep as <-.
    destruct (required_objects (required_attrs (specs_of "AWS::CloudFormation::CustomResource" (rs_resource_types rs))) props _ Ha) as [ms' [H1 H2]].
    exists (name, VDict attrs), ms'. split; [exact Hi|]. split.
    + unfold required_custom. cbn [fst snd]. rewrite Hp. assert (Ht : assoc "Type" attrs = Some (VStr rt)) by (now destruct Hres as [? [? [_ [_ [_ ?]]]]]).
      rewrite Ht. apply Hcu in Hc. now rewrite Hc.
    + apply H2. exists w, q, prop. apply required_attrs_in in Hr. auto.
Qed.
