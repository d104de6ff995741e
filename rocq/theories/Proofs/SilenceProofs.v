(** Rules that one malformed member of a section silences (C104). *)
From Coq Require Import Lia ZArith Permutation.
From Verif.Model Require Import Base Node Locate Helpers Rules Runner Config Core Search Refs ConditionRules Relationship Limits Shape Parameters Policies Graph ValueRules Standard.
From Verif.Spec Require Import Limited Pipeline Paths References Faults Walk Protect Shipped ShippedPlaces Crashes Silence.
From Verif.Proofs Require Import BaseFacts SearchProofs PropertyRuleProofs PipelineProofs RunProofs ReportProofs ActionMain
  RuleSetProofs RuleSetMain RuleSetLint WalkSound StandardProofs StandardRules StandardPlaces CrashProofs.
Import Verif.Model.Rules.
Local Open Scope string_scope.

(** * A rule whose check raises reports nothing of its own *)
Definition fails {A} (f : res A) : Prop := exists e, f = Err e.
Lemma failing_silent w sp tr k rg man c l id f : plain_run w sp tr k rg man c l -> checks_by w c id f -> fails f -> ~ reports_of l id.
Proof.
  intros (Hw & Ho & Hsp & He & Hnt & _ & _ & Hdict & _ & Hrun) (Hid & r0 & g & Hr & Hex & Hm & Hp & Hs & Hg) [e Ef] (fi & Hfi & Er).
  apply rule_by_id_in in Hr as [Hin Eid].
  destruct (run_checks_cases sp tr k rg man c) as [[K _]|[(_ & K & _)|(_ & _ & K)]]; [congruence | congruence |].
  rewrite Hnt, Hrun in K. injection K as ->. rewrite reports_body in Hfi.
  assert (He0 : e0002_on (k_set (initialize_all k c))) by (apply is_enabled_spec; exact He).
  destruct (run_body_total sp (initialize_all k c) c Hsp He0) as [raw Eraw]. rewrite Eraw in Hfi.
  destruct (get_directives (c_tmpl c)) as [ds|]; [|destruct Hfi].
  apply (Permutation_in _ (sort_perm _)) in Hfi. apply report_sound in Hfi as [Hfi _].
  destruct (body_from _ _ _ _ _ Eraw Hfi) as (r & a & la & Hr & Ha & Hc & Hl).
  assert (Whose : forall fs, a = Ok fs -> In fi fs -> f_rule fi = r_id r).
  { intros fs E Hx.
    assert (G : forall o : res (list rulematch), bind o (map_res (locate_match c (r_id r))) = Ok fs -> f_rule fi = r_id r).
    { intros o Q. destruct o as [ms|e0]; [|discriminate]. cbn [bind] in Q. destruct (proj1 (map_res_In _ _ _ Q fi) Hx) as [m [_ L]]. exact (proj1 (locate_rule _ _ _ _ L)). }
    destruct Ha as [->|[(? & rt & ? & pd & _ & _ & ->)|(? & ? & ? & ? & n & v & q & _ & _ & _ & _ & ->)]].
    - unfold matchall in E. destruct (r_match r); [exact (G _ E) | injection E as <-; destruct Hx].
    - unfold matchall_props in E. destruct (r_match_props r); [|injection E as <-; destruct Hx]. try (match type of E with (if ?b then _ else _) = _ => destruct b; [injection E as <-; destruct Hx|] end); exact (G _ E).
    - unfold matchall_subs in E. destruct (r_match_subs r); [|injection E as <-; destruct Hx]. try (match type of E with (if ?b then _ else _) = _ => destruct b; [injection E as <-; destruct Hx|] end); exact (G _ E). }
  destruct a as [fs|e']; cbn [run_check] in Hc.
  - injection Hc as <-. pose proof (Whose fs eq_refl Hl) as Ei. rewrite Er in Ei.
    pose proof (init_checks w k c r0 Hw Hin r Hr ltac:(congruence)) as (_ & _ & _ & _ & S5 & S6 & S7 & _).
    destruct Ha as [E|[(? & rt & ? & pd & _ & _ & E)|(? & ? & ? & ? & n & v & q & _ & _ & _ & _ & E)]]; symmetry in E.
    + unfold matchall in E. rewrite S5, Hm, Hg, Ef in E. discriminate E.
    + unfold matchall_props in E. rewrite S6, Hp in E. injection E as <-. destruct Hl.
    + unfold matchall_subs in E. rewrite S7, Hs in E. injection E as <-. destruct Hl.
  - assert (X : la = [] \/ la = [crash_finding (c_file c) (r_id r) e']).
    { destruct e'; try (injection Hc as <-; now left); (destruct (is_rule_enabled _ _ _); [injection Hc as <-; now right | discriminate Hc]). }
    destruct X as [->| ->]; [destruct Hl|]. destruct Hl as [<-|[]]. cbn in Er. exact (Hid (eq_sym Er)).
Qed.

(** * The rules *)
Lemma concat_fails {A B} (f : A -> res (list B)) l x : In x l -> fails (f x) -> fails (concat_res f l).
Proof.
  intros H [e E]. induction l as [|y l IH]; [destruct H|]. cbn [concat_res]. destruct H as [->|H]; [rewrite E; exists e; reflexivity|].
  destruct (IH H) as [e' E']. unfold bind at 1. destruct (f y) as [a|e0]; [|exists e0; reflexivity]. rewrite E'. exists e'. reflexivity.
Qed.
Lemma bind_fails {A B} (r : res A) (f : A -> res B) : fails r -> fails (bind r f).
Proof. intros [e ->]. exists e. reflexivity. Qed.
Lemma bind_then {A B} (r : res A) (f : A -> res B) : (forall x, r = Ok x -> fails (f x)) -> fails (bind r f).
Proof. intros H. destruct r as [x|e]; [exact (H x eq_refl) | exists e; reflexivity]. Qed.

Lemma the_section t section n v : at_path [PKey section; PKey n] t = Some v ->
  exists o d, t = VDict o /\ assoc section o = Some (VDict d) /\ In (n, v) d /\ truthy (VDict d) = true.
Proof.
  intros H. destruct t as [| | | | | |o]; try discriminate H. cbn in H. destruct (assoc section o) as [x|] eqn:E; [|discriminate H].
  destruct x as [| | | | | |d]; try discriminate H. cbn in H. destruct (assoc n d) as [y|] eqn:E'; [|discriminate H]. injection H as ->.
  exists o, d. split; [reflexivity|]. split; [exact E|]. split; [apply assoc_In; exact E' | destruct d; [discriminate E' | reflexivity]].
Qed.
Lemma get_fails v k : no_object v -> fails (vget k v).
Proof. intros [[s ->]|[l ->]]; eexists; reflexivity. Qed.
Lemma get_def_fails v k d : no_object v -> fails (vget_def k d v).
Proof. intros [[s ->]|[l ->]]; eexists; reflexivity. Qed.
Lemma items_fails v : no_object v -> fails (ConditionRules.items_of v).
Proof. intros [[s ->]|[l ->]]; eexists; reflexivity. Qed.
Lemma section_items t section n v {B} (f : list (string * val) -> res B) : at_path [PKey section; PKey n] t = Some v -> (forall d, In (n, v) d -> fails (f d)) ->
  fails (do s <- vget_def section (VDict []) t; do d <- ConditionRules.items_of s; f d).
Proof.
  intros Hat H. destruct (the_section _ _ _ _ Hat) as (o & d & -> & E & Hi & _). unfold vget_def. rewrite E. cbn [bind ConditionRules.items_of]. now apply H.
Qed.
Lemma parameters_fail t n v {B} (f : list (string * val) -> res B) : at_path [PKey "Parameters"; PKey n] t = Some v -> (forall d, In (n, v) d -> fails (f d)) ->
  fails (do s <- get_parameters t; do d <- ConditionRules.items_of s; f d).
Proof.
  intros Hat H. destruct (the_section _ _ _ _ Hat) as (o & d & -> & E & Hi & Ht). unfold get_parameters, vget_def. rewrite E. cbn [bind]. rewrite Ht. cbn [bind ConditionRules.items_of]. now apply H.
Qed.
Lemma refs_fail t n v : no_object v -> at_path [PKey "Resources"; PKey n] t = Some v -> fails (get_valid_refs t).
Proof.
  intros Hno Hat. destruct (the_section _ _ _ _ Hat) as (o & d & -> & E & Hi & Ht). unfold get_valid_refs.
  apply bind_then. intros ps _. apply bind_then. intros ps' _. apply bind_then. intros a _. unfold vget_def at 1. rewrite E. cbn [bind].
  assert (F : items_if (VDict d) = Ok d) by (destruct d; reflexivity). rewrite F. cbn [bind]. apply bind_fails. clear E Ht F Hat. revert a.
  induction d as [|[m x] d IH]; [destruct Hi|]. intros a. cbn [resource_refs]. destruct Hi as [[= -> ->]|Hi].
  - apply bind_fails, get_def_fails, Hno.
  - apply bind_then. intros ty _. destruct ty; try (eexists; reflexivity). apply IH. exact Hi.
Qed.

Lemma needing_fails w c section id : malformed (template c) section -> (exists ids, In (section, ids) needing /\ In id ids) ->
  exists f, checks_by w c id f /\ fails f.
Proof.
  intros (n & v & Hat & Hno) (ids & H1 & H2). cbn [needing In] in H1.
  destruct H1 as [[= <- <-]|[[= <- <-]|[[= <- <-]|[[= <- <-]|[]]]]]; cbn [In] in H2.
  - destruct H2 as [<-|[<-|[<-|[<-|[<-|[<-|[]]]]]]]; (eexists; split; [by_id|]).
    + apply (parameters_fail _ n v _ Hat). intros d Hi. apply (concat_fails _ _ _ Hi). unfold parameter_one. apply bind_fails. apply items_fails. exact Hno.
    + apply (parameters_fail _ n v _ Hat). intros d Hi. apply (concat_fails _ _ _ Hi). apply bind_fails. apply get_def_fails. exact Hno.
    + apply (parameters_fail _ n v _ Hat). intros d Hi. apply (concat_fails _ _ _ Hi). unfold value_limit_one. apply bind_fails. apply get_fails. exact Hno.
    + apply (parameters_fail _ n v _ Hat). intros d Hi. apply (concat_fails _ _ _ Hi). unfold default_one. apply bind_fails. apply get_fails. exact Hno.
    + apply (parameters_fail _ n v _ Hat). intros d Hi. apply (concat_fails _ _ _ Hi). unfold value_limit_one. apply bind_fails. apply get_fails. exact Hno.
    + unfold no_echo_match. apply bind_fails. apply (parameters_fail _ n v _ Hat). intros d Hi. apply (concat_fails _ _ _ Hi). apply bind_fails. apply get_def_fails. exact Hno.
  - destruct H2 as [<-|[<-|[<-|[<-|[]]]]]; (eexists; split; [by_id|]).
    + apply bind_fails, (refs_fail _ n v Hno Hat).
    + unfold circular_match, build_graph. apply bind_fails. destruct (the_section _ _ _ _ Hat) as (o & d & E0 & E & Hi & Ht).
      unfold resources_of. rewrite E0. unfold vget_def. rewrite E. cbn [bind]. apply bind_fails. apply (concat_fails _ _ _ Hi). unfold depends_edges. apply bind_fails. apply get_fails. exact Hno.
    + apply bind_fails, (refs_fail _ n v Hno Hat).
    + apply bind_fails, (refs_fail _ n v Hno Hat).
  - destruct H2 as [<-|[<-|[<-|[<-|[]]]]]; (eexists; split; [by_id|]).
    + destruct (the_section _ _ _ _ Hat) as (o & d & E0 & E & Hi & Ht). unfold output_configuration_match. rewrite E0. unfold vget_def. rewrite E. cbn [bind].
      apply (concat_fails _ _ _ Hi). unfold output_one. cbn [snd fst]. apply bind_fails. destruct Hno as [[s ->]|[l ->]]; eexists; reflexivity.
    + destruct (the_section _ _ _ _ Hat) as (o & d & E0 & E & Hi & Ht). unfold output_description_match. rewrite E0. unfold vget_def. rewrite E. cbn [bind]. rewrite Ht. cbn [bind ConditionRules.items_of].
      apply (concat_fails _ _ _ Hi). apply bind_fails. apply get_fails. exact Hno.
    + apply (section_items _ _ n v _ Hat). intros d Hi. apply (concat_fails _ _ _ Hi). apply bind_fails. apply get_fails. exact Hno.
    + apply (section_items _ _ n v _ Hat). intros d Hi. apply (concat_fails _ _ _ Hi). apply bind_fails. apply get_fails. exact Hno.
  - destruct H2 as [<-|[<-|[]]]; (eexists; split; [by_id|]);
      (apply (section_items _ _ n v _ Hat); intros d Hi; apply (concat_fails _ _ _ Hi); apply bind_fails; apply items_fails; exact Hno).
Qed.
Lemma c104_silent w sp tr k rg man c l section ids id :
  plain_run w sp tr k rg man c l -> malformed (template c) section -> In (section, ids) needing -> In id ids -> ~ reports_of l id.
Proof.
  intros Hr Hm H1 H2. destruct (needing_fails w c section id Hm (ex_intro _ ids (conj H1 H2))) as (f & Hc & Hf). exact (failing_silent w sp tr k rg man c l id f Hr Hc Hf).
Qed.
