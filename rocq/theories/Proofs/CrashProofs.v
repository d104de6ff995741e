(** Rules that never end in an exception (C100). *)
From Coq Require Import Lia ZArith Permutation.
From Verif.Model Require Import Base Node Locate Helpers Rules Runner Config Core Search Refs ConditionRules Relationship Limits Shape Parameters Policies Functions Registry ParameterValues Standard.
From Verif.Spec Require Import Limited Pipeline Paths References ConditionUse FunctionArguments Faults Walk Protect Shipped ShippedPlaces Crashes.
From Verif.Proofs Require Import BaseFacts SearchProofs PropertyRuleProofs PipelineProofs RunProofs ReportProofs ActionMain ConditionUseProofs FunctionProofs RefProofs ShapeProofs PolicyProofs GraphProofs ParameterValueProofs
  RuleSetProofs RuleSetMain RuleSetLint StandardProofs StandardRules StandardPlaces StandardFunctions FunctionWitness.
Import Verif.Model.Rules.
Local Open Scope string_scope.

(** * Crash findings come from the rules they name *)
Lemma crash_from sp k c raw : run_body sp k c = Ok raw -> (forall r, In r (rules k) -> r_id r <> "E0002") ->
  forall fi, In fi raw -> f_rule fi = "E0002" -> exists ch r e, In r (rules k) /\ answer ch r c = Err e /\ e <> ETemplateAttribute /\ fi = crash_finding (c_file c) (r_id r) e.
Proof.
  set (P := fun (l _ : list finding) => forall fi, In fi l -> f_rule fi = "E0002" -> exists ch r e, In r (rules k) /\ answer ch r c = Err e /\ e <> ETemplateAttribute /\ fi = crash_finding (c_file c) (r_id r) e).
  intros H Hid. assert (K : agree P (run_body sp k c) (run_body sp k c)).
  { apply body_agree.
    - intros a a' b b' Ha Hb m Hm. apply in_app_iff in Hm as [Hm|Hm]; [now apply Ha | now apply Hb].
    - intros m [].
    - intros ch. apply group_ends; [now right|]. intros la lb E _ m Hm Em.
      apply concat_res_inv in E as [g [Hg ->]]. apply in_flat_map in Hm as [r [Hr Hm]]. specialize (Hg r Hr).
      destruct (guarded_cases ch (k_set k) c r) as [Q|Q]; rewrite Q in Hg.
      { injection Hg as Hg. rewrite <- Hg in Hm. destruct Hm. }
      destruct (answer ch r c) as [fs|e] eqn:Ea; cbn [run_check] in Hg.
      + exfalso. injection Hg as Hg. rewrite <- Hg in Hm.
        assert (X : f_rule m = r_id r); [|exact (Hid r Hr (eq_trans (eq_sym X) Em))].
        destruct ch as [|props t p|props t p]; cbn [answer] in Ea; unfold matchall, matchall_props, matchall_subs in Ea;
          (match type of Ea with match ?y with _ => _ end = _ => destruct y as [f|]; [|injection Ea as <-; destruct Hm] end);
          try (match type of Ea with (if ?b then _ else _) = _ => destruct b; [injection Ea as <-; destruct Hm|] end);
          unfold bind in Ea; (match type of Ea with match ?y with _ => _ end = _ => destruct y as [ms|]; [|discriminate Ea] end); apply (map_res_In _ _ _ Ea) in Hm as [m' [_ L]]; exact (proj1 (locate_rule _ _ _ _ L)).
      + assert (X : e <> ETemplateAttribute /\ g r = [crash_finding (c_file c) (r_id r) e] \/ g r = []).
        { destruct e; try (destruct (is_rule_enabled _ _ _); [left; split; [discriminate|] | discriminate]); injection Hg as Hg; rewrite <- Hg; auto. }
        destruct X as [[Ne X]|X]; rewrite X in Hm; [|destruct Hm]. destruct Hm as [<-|[]]. exists ch, r, e. auto. }
  rewrite H in K. exact K.
Qed.

Lemma same_start a i i' (x y : string) : String.length i = String.length i' -> a ++ i ++ x = a ++ i' ++ y -> i = i'.
Proof.
  intros Hl H. induction a as [|b a IH]; cbn in H; [|injection H as H; exact (IH H)]. revert i' Hl H.
  induction i as [|b i IH]; intros [|b' i'] Hl H; try discriminate; [reflexivity|]. cbn in Hl, H. injection Hl as Hl. injection H as -> H. f_equal. now apply IH.
Qed.
Lemma shipped_five w r : In r (shipped w) -> String.length (r_id r) = 5%nat.
Proof.
  intros H. assert (K : forallb (fun i => Nat.eqb (String.length i) 5) shipped_ids = true) by (vm_compute; reflexivity).
  rewrite forallb_forall in K. apply Nat.eqb_eq, K, shipped_listed with (w := w). now apply in_map.
Qed.
Lemma shipped_not_built w r : In r (shipped w) -> r_id r <> "E0002".
Proof.
  intros H E. assert (K : In (r_id r) shipped_ids) by (apply shipped_listed with (w := w); now apply in_map). rewrite E in K.
  apply smem_iff in K. discriminate K.
Qed.

(** * A rule whose check answers, at places there are, is not in a crash finding *)
Definition calm (c : cfn) (f : res (list rulematch)) : Prop :=
  exists ms, f = Ok ms /\ forall m, In m ms -> rm_path m <> [] /\ indices_ok (c_tmpl c) (rm_path m).
Lemma calm_never w sp tr k rg man c l id f : plain_run w sp tr k rg man c l -> checks_by w c id f -> calm c f -> ~ crashed l id.
Proof.
  intros (Hw & Ho & Hsp & He & Hnt & _ & _ & Hdict & _ & Hrun) (Hid & r0 & g & Hr & Hex & Hm & Hp & Hs & Hg) (ms & Ef & Hpath) (why & fi & Hfi & Er & Emsg).
  apply rule_by_id_in in Hr as [Hin Eid].
  destruct (run_checks_cases sp tr k rg man c) as [[K _]|[(_ & K & _)|(_ & _ & K)]]; [congruence | congruence |].
  rewrite Hnt, Hrun in K. injection K as ->. rewrite reports_body in Hfi.
  assert (He0 : e0002_on (k_set (initialize_all k c))) by (apply is_enabled_spec; exact He).
  destruct (run_body_total sp (initialize_all k c) c Hsp He0) as [raw Eraw]. rewrite Eraw in Hfi.
  destruct (get_directives (c_tmpl c)) as [ds|]; [|destruct Hfi].
  apply (Permutation_in _ (sort_perm _)) in Hfi. apply report_sound in Hfi as [Hfi _].
  assert (Hall : forall r, In r (rules (initialize_all k c)) -> exists r0, In r0 (shipped w) /\ same_checks r0 r).
  { intros r H. apply filter_In in H as [H _]. exact (descends_only w _ _ (descends_init k c) Ho r H). }
  destruct (crash_from sp _ c raw Eraw) with (fi := fi) as (ch & r & e & Hr & Ha & Hne & ->); auto.
  { intros r H. destruct (Hall r H) as [r1 [H1 (E1 & _)]]. rewrite E1. exact (shipped_not_built w r1 H1). }
  unfold crash_finding in Emsg. cbn [f_msg] in Emsg. destruct (Hall r Hr) as [r1 [H1 S1]].
  assert (Ei : r_id r = id).
  { symmetry. refine (same_start "Unknown exception while processing rule " id (r_id r) _ _ _ (eq_sym Emsg)). rewrite (proj1 S1), (shipped_five w r1 H1), <- Eid. exact (shipped_five w r0 Hin). }
  pose proof (init_checks w k c r0 Hw Hin r Hr ltac:(congruence)) as (_ & _ & _ & _ & S5 & S6 & S7 & _).
  assert (Hloc : exists fs, map_res (locate_match c (r_id r)) ms = Ok fs).
  { assert (Z : forall m, In m ms -> exists fi, locate_match c (r_id r) m = Ok fi).
    { intros m Hm'. destruct (Hpath m Hm') as [P1 P2]. destruct (locate_finding c (r_id r) m Hdict P1 P2) as [fi [L _]]. eauto. }
    clear -Z. induction ms as [|m l IH]; [exists []; reflexivity|]. destruct (Z m (or_introl eq_refl)) as [fi E].
    destruct IH as [fs E']; [intros; apply Z; now right|]. exists (fi :: fs). cbn [map_res]. now rewrite E, E'. }
  destruct Hloc as [fs Efs]. destruct ch as [|props t p|props t p]; cbn [answer] in Ha.
  - unfold matchall in Ha. rewrite S5, Hm, Hg, Ef in Ha. cbn [bind] in Ha. rewrite Efs in Ha. discriminate Ha.
  - unfold matchall_props in Ha. rewrite S6, Hp in Ha. discriminate Ha.
  - unfold matchall_subs in Ha. rewrite S7, Hs in Ha. discriminate Ha.
Qed.

(** * The rules *)
Lemma calm_places c ms : (forall m, In m ms -> exists x, rm_path m <> [] /\ at_path (rm_path m) (template c) = Some x) -> calm c (Ok ms).
Proof. intros H. exists ms. split; [reflexivity|]. intros m Hm. destruct (H m Hm) as (x & H1 & H2). exact (place_ok c _ x H2 H1). Qed.
Lemma calm_keys c ms : (forall m, In m ms -> rm_path m <> [] /\ forall e, In e (rm_path m) -> exists k, e = PKey k) -> calm c (Ok ms).
Proof. intros H. exists ms. split; [reflexivity|]. intros m Hm. destruct (H m Hm) as [H1 H2]. split; [exact H1|]. apply keys_indices. exact H2. Qed.
Lemma calm_concat {A} c (f : A -> res (list rulematch)) l : (forall x, In x l -> calm c (f x)) -> calm c (concat_res f l).
Proof.
  induction l as [|x l IH]; intros H; [exists []; split; [reflexivity | intros m []]|]. cbn [concat_res].
  destruct (H x (or_introl eq_refl)) as (a & Ea & Ha). destruct IH as (b & Eb & Hb); [intros y Hy; apply H; now right|].
  exists (a ++ b)%list. rewrite Ea, Eb. split; [reflexivity|]. intros m Hm. apply in_app_iff in Hm as [Hm|Hm]; auto.
Qed.
Lemma calm_each c key chk : wf (template c) -> (forall p v, at_path (p ++ [PKey key])%list (template c) = Some v -> calm c (chk (p ++ [PKey key])%list v)) -> calm c (each (template c) (VDict []) key chk).
Proof.
  intros Hw H. apply calm_concat. intros [q v] Hi. apply in_search_deep in Hi as [p [-> Ho]]; [|exact Hw | exact wf_empty]. apply H. exact (occurs_here _ _ _ _ Ho).
Qed.
Lemma snoc_not_nil {A} (p : list A) x : (p ++ [x])%list <> [].
Proof. intros K. apply app_eq_nil in K as [_ K]. discriminate K. Qed.
Lemma calm_here c p v ms : at_path p (template c) = Some v -> p <> [] -> (forall m, In m ms -> rm_path m = p) -> calm c (Ok ms).
Proof. intros Hv Hp H. apply calm_places. intros m Hm. rewrite (H m Hm). eauto. Qed.

Ltac by_each Hw := apply (calm_each _ _ _ Hw); intros p_ v_ Hv_; eapply calm_here; [exact Hv_ | apply snoc_not_nil |].
Ltac one_of H := repeat (match type of H with In _ (match ?x with _ => _ end) => destruct x | In _ (if ?b then _ else _) => destruct b end); cbn [In] in H;
  repeat match type of H with _ \/ _ => destruct H as [H|H] end; try (subst; reflexivity); try contradiction.
Section Rules.
Variables (w : world) (c : cfn).
Hypothesis (Hw : wf (template c)) (Hd : exists d, template c = VDict d) (Hg : w_globals w c = VDict []).

Lemma calm_base64 : calm c (base64_match (template c) (VDict [])).
Proof using Hw. by_each Hw. intros m Hm. one_of Hm. Qed.
Lemma calm_not : calm c (not_match (template c) (VDict [])).
Proof using Hw. by_each Hw. intros m Hm. one_of Hm. Qed.
Lemma calm_ref : calm c (ref_text_match (template c) (VDict [])).
Proof using Hw. by_each Hw. intros m Hm. one_of Hm. Qed.
Lemma calm_getaz : calm c (getaz_match (template c) (VDict []) (w_regions w)).
Proof using Hw. by_each Hw. intros m Hm. one_of Hm. Qed.
Lemma calm_in_conditions : calm c (ref_condition_match (template c) (VDict [])).
Proof using Hw Hd.
  unfold ref_condition_match, get_resource_names. destruct Hd as [d E]. rewrite E at 1. cbn [vget_def bind].
  by_each Hw. intros m Hm. one_of Hm.
Qed.
Lemma calm_import : calm c (Functions.import_match (template c) (VDict [])).
Proof using Hw.
  by_each Hw. intros m Hm. apply in_app_iff in Hm as [Hm|Hm]; [unfold import_place in Hm | unfold import_shape in Hm]; one_of Hm.
Qed.
Lemma calm_split : calm c (split_match (template c) (VDict [])).
Proof using Hw.
  destruct (c32_split (template c) (VDict []) Hw wf_empty) as [ms [E J]]. exists ms. split; [exact E|]. intros m Hm.
  apply (in_map rm_path) in Hm. apply (judged_places _ _ _ _ _ J) in Hm as (p & v & r & Hp & Hr & ->). apply (fault_fine c "Fn::Split" p v r Hp).
  destruct Hr as [v H|d s H|d kk x H|d s H1 H2].
  - intros el_ [].
  - left. exists [d; s]. split; [reflexivity|]. split; [cbn; lia | intros el_ []].
  - intros el_ [<-|[]]. eauto.
  - intros el_ [].
Qed.
Lemma calm_used : calm c (sub_used_match (template c) (VDict [])).
Proof using Hw.
  apply (calm_each _ _ _ Hw). intros p v Hv. apply calm_places. intros m Hm. cbn beta in Hm.
  destruct v as [| | | | |[|[| | | | s| |] [|[| | | | | |d] [|? ?]]]|]; try (destruct Hm). apply in_flat_map in Hm as [nx [_ Hm]].
  destruct (smem (fst nx) (get_sub_parameters s)); [destruct Hm|]. destruct Hm as [<-|[]]. cbn [rm_path]. exists (VDict d). split; [apply snoc_not_nil|].
  rewrite at_path_app, Hv. reflexivity.
Qed.
Lemma calm_policy str attr : calm c (policy_match str attr (template c)).
Proof using Hw.
  apply calm_concat. intros [n x] Hx. apply resource_in in Hx as [o [-> _]]; [|exact Hw]. unfold policy_one. cbn [vget snd bind fst].
  destruct (truthy _); [|apply calm_keys; intros m []]. apply calm_keys. intros m Hm.
  assert (G : rm_path m = [PKey "Resources"; PKey n; PKey attr]).
  { destruct (match assoc attr o with Some x => x | None => VNull end); unfold policy_value in Hm; try (apply in_app_iff in Hm as [Hm|Hm]); one_of Hm. }
  rewrite G. split; [discriminate|]. intros e [<-|[<-|[<-|[]]]]; eauto.
Qed.
Lemma calm_both : calm c (both_match (template c)).
Proof using Hw.
  destruct (c45_both (template c) Hw) as [ms [E H]]. rewrite E. apply calm_keys. intros m Hm. apply H in Hm as (n & o & _ & _ & _ & ->). cbn [rm_path].
  split; [discriminate|]. intros e [<-|[<-|[]]]; eauto.
Qed.
Lemma calm_stateful : calm c (stateful_match (template c)).
Proof using Hw.
  destruct (c45_stateful (template c) Hw) as [ms [E H]]. rewrite E. apply calm_keys. intros m Hm. apply H in Hm as (n & o & _ & _ & _ & ->). cbn [rm_path].
  split; [discriminate|]. intros e [<-|[<-|[]]]; eauto.
Qed.
Lemma calm_limit kk number : In number ["3010"; "1002"] -> calm c (match limit_rule (template c) kk (w_size w (c_file c)) number with Some r => r | None => Err EKey end).
Proof using.
  intros [<-|[<-|[]]].
  - change (calm c (number_limit (template c) kk "Resources" (lim_number LIMITS_Resources))). unfold number_limit. cbn [String.eqb Ascii.eqb Bool.eqb bind]. apply calm_keys. intros m Hm.
    unfold limit_check in Hm. destruct (over _ _ _); [|destruct Hm]. destruct Hm as [<-|[]]. cbn [rm_path]. split; [discriminate|]. intros e [<-|[]]; eauto.
  - change (calm c (Ok (template_size_limit kk (w_size w (c_file c))))). apply calm_keys. intros m Hm.
    unfold template_size_limit, limit_check in Hm. destruct (w_size w (c_file c)); [|destruct Hm]. destruct (over _ _ _); [|destruct Hm]. destruct Hm as [<-|[]]. cbn [rm_path]. split; [discriminate|]. intros e [<-|[]]; eauto.
Qed.
Lemma calm_imports : calm c (Ok (ParameterValues.import_match (w_str w) (template c) (VDict []))).
Proof using Hw.
  apply calm_places. intros m Hm. apply (c69_imports _ _ _ Hw wf_empty) in Hm as (p & n & v & Ho & _ & ->). exists v. unfold import_finding. cbn [rm_path]. split; [apply snoc_not_nil | exact (occurs_here _ _ _ _ Ho)].
Qed.
Lemma calm_default : calm c (Ok (default_ref_match (w_str w) (template c) (VDict []))).
Proof using Hw.
  apply calm_places. intros m Hm. apply (default_ref_spec _ _ _ Hw wf_empty) in Hm as (p & v & Ho & ->). exists v. cbn [rm_path]. split; [discriminate|].
  exact (occurs_here _ _ (PKey "Parameters" :: p) _ Ho).
Qed.
Lemma calm_conditions f : f <> "Conditions" -> calm c (Ok (check_condition_list (template c) (VDict []) f)).
Proof using Hw.
  intros Hf. eexists. split; [reflexivity|]. intros m Hm. unfold check_condition_list in Hm. apply in_flat_map in Hm as [[q v] [Hi Hm]].
  apply in_search_deep in Hi as [p [-> Ho]]; [|exact Hw | exact wf_empty].
  destruct (from_conditions (p ++ [PKey f])%list) eqn:Ef; [|cbn [list_check] in Hm; rewrite Ef in Hm; destruct Hm].
  apply (list_check_spec f _ v m Ef) in Hm as [r [H Er]]. rewrite Er, <- app_assoc. apply (fault_fine c f p v r Ho). exact (list_fault_fine _ _ _ _ H).
Qed.
Lemma calm_base d : template c = VDict d -> calm c (Ok (base_match d)).
Proof using.
  intros _. eexists. split; [reflexivity|]. intros m Hm. apply base_spec in Hm. destruct Hm; all_keys.
Qed.
Lemma calm_description : calm c (description_match (template c)).
Proof using Hd.
  destruct Hd as [d E]. rewrite E. destruct (description_spec d) as [ms [E1 H]]. rewrite E1. apply calm_keys. intros m Hm. apply H in Hm as [_ ->]. cbn [rm_path].
  split; [discriminate|]. intros e [<-|[]]; eauto.
Qed.
Lemma calm_serverless : calm c (serverless_transform_match (template c)).
Proof using Hw Hd.
  destruct (c46_serverless (template c) Hw Hd) as (ms & E & _ & H). rewrite E. apply calm_keys. intros m Hm. destruct (H m Hm) as (_ & n & t & _ & ->). cbn [rm_path].
  split; [discriminate|]. intros e [<-|[]]; eauto.
Qed.
Lemma calm_resources : known_regions (w_specs w) (w_regions w) -> calm c (resource_configuration_match (w_specs w) (w_registry_names w) (w_regions w) (template c)).
Proof using Hd.
  intros Hr. destruct Hd as [d E]. unfold resource_configuration_match. rewrite E. cbn [vget_def bind].
  assert (Z : calm c (Ok [mkRM [PKey "Resources"] "Resource not properly configured"])).
  { apply calm_keys. intros m [<-|[]]. cbn [rm_path]. split; [discriminate|]. intros e [<-|[]]; eauto. }
  destruct (match assoc "Resources" d with Some x => x | None => VDict [] end) as [| | | | | |rs] eqn:Er; try exact Z.
  assert (Hs : section (VDict [("Resources", VDict rs)]) "Resources" rs) by (eexists; split; reflexivity).
  destruct (resources_spec (w_specs w) (w_registry_names w) (w_regions w) _ rs Hs) as (ms & E1 & H); [intros n def _; now right|].
  unfold resource_configuration_match in E1. cbn [vget_def assoc String.eqb Ascii.eqb Bool.eqb bind] in E1. rewrite E1. eexists. split; [reflexivity|]. intros m Hm.
  apply H in Hm as (n & v & _ & Hx). inversion Hx; subst; rewrite <- ?H0, <- ?H1, <- ?H2, <- ?H3; all_keys.
Qed.
Lemma calm_schema : (forall schema, In schema (w_registry w) -> exists d t, schema = VDict d /\ assoc "typeName" d = Some t) -> (forall v schema, exists r, w_validate w v schema = Ok r) ->
  calm c (schema_match (w_float_text w) (w_validate w) (w_registry w) (template c)).
Proof using Hd.
  intros H1 H2. apply calm_concat. intros schema Hs. destruct (H1 schema Hs) as (sd & t & -> & Et). cbn [Registry.type_name]. rewrite Et. cbn [bind].
  destruct Hd as [d E]. unfold resources_with. rewrite E. cbn [vget_def bind].
  assert (Z : calm c (Ok [])) by (apply calm_keys; intros m []).
  destruct (match assoc "Resources" d with Some x => x | None => VDict [] end) as [| | | | | |rs]; cbn [bind]; try exact Z.
  apply calm_concat. intros [n x] Hx. apply filter_In in Hx as [_ Hx]. cbn [snd] in Hx. destruct x as [| | | | | |a]; try discriminate Hx.
  unfold schema_resource. cbn [snd vget_def bind fst]. destruct (skipped_text _); [exact Z|].
  match goal with |- context [w_validate w ?v ?s] => destruct (H2 v s) as [r ->] end. cbn [bind]. destruct r as [msg|]; [|exact Z]. apply calm_keys. intros m [<-|[]]. cbn [rm_path]. split; [discriminate|]. intros e [<-|[<-|[<-|[]]]]; eauto.
Qed.
End Rules.

Lemma firm_never w sp tr k rg man c l id : plain_run w sp tr k rg man c l -> In id firm_ids -> sound_data w id -> ~ crashed l id.
Proof.
  intros Hr Hi [D1 D2]. pose proof Hr as (_ & _ & _ & _ & _ & _ & Hg & (m & d & Ed) & Hw & _).
  assert (Hd : exists d, template c = VDict d) by (unfold template; rewrite Ed; cbn [erase]; eauto).
  assert (K : exists f, checks_by w c id f /\ calm c f); [|destruct K as (f & K1 & K2); exact (calm_never _ _ _ _ _ _ _ _ _ f Hr K1 K2)].
  unfold firm_ids in Hi. cbn [In] in Hi. repeat (destruct Hi as [<-|Hi]); [.. | destruct Hi].
  all: eexists; (split; [by_id|]); rewrite ?Hg.
  - destruct Hd as [d' E]. rewrite E. now apply calm_base.
  - apply calm_limit. cbn; auto.
  - now apply calm_description.
  - now apply calm_getaz.
  - now apply calm_import.
  - now apply calm_split.
  - now apply calm_ref.
  - now apply calm_base64.
  - now apply calm_not.
  - now apply calm_in_conditions.
  - now apply calm_default.
  - destruct (D2 eq_refl). now apply calm_schema.
  - apply calm_resources; auto.
  - apply calm_limit. cbn; auto.
  - now apply calm_policy.
  - now apply calm_policy.
  - now apply calm_serverless.
  - apply calm_conditions; [exact Hw | discriminate].
  - apply calm_conditions; [exact Hw | discriminate].
  - apply calm_conditions; [exact Hw | discriminate].
  - apply calm_limit. cbn; auto.
  - apply calm_limit. cbn; auto.
  - now apply calm_stateful.
  - now apply calm_used.
  - now apply calm_both.
  - now apply calm_imports.
Qed.
