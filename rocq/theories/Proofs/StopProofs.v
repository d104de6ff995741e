(** What in a template or in the options can stop the program (C111). *)
From Coq Require Import List String ZArith Bool.
From Verif.Model Require Import Base Node Locate Helpers Rules Runner Config Core Standard.
From Verif.Spec Require Import Pipeline Shipped Stops.
From Verif.Proofs Require Import BaseFacts ReorderedFacts RuleSetLint  PipelineProofs StandardProofs StandardMain.
Import Verif.Model.Rules.
Import ListNotations.
Local Open Scope string_scope.

Lemma strings_of_texts ss : strings_of (map VStr ss) = Ok ss.
Proof. induction ss as [|s ss IH]; [reflexivity|]. cbn [map strings_of]. rewrite IH. reflexivity. Qed.
Lemma lookup_in a name : lookup a name = VNull \/ In (name, lookup a name) a.
Proof. unfold lookup. destruct (assoc name a) eqn:E; [right; exact (assoc_In _ _ _ E) | left; reflexivity]. Qed.

Section Stops.
Variables (str : val -> string) (sp : spec) (tr : translator) (all : list rule) (cli fl : args).
Hypothesis Hcli : sound_options all cli.
Hypothesis Hfl : sound_options all fl.
Hypothesis Ocli : only_lists cli.
Hypothesis Ofl : only_lists fl.

(** Where the value of an option comes from. *)
Lemma value_from targs name : option_value (src cli fl targs) name = VNull \/ In (name, option_value (src cli fl targs) name) (cli ++ targs ++ fl)%list.
Proof using.
  unfold option_value, src. destruct (option_sources name) as [b b']. unfold get_argument_value. cbn [Config.cli Config.tmpl Config.file]. rewrite !in_app_iff.
  destruct (truthy (lookup cli name)); [destruct (lookup_in cli name); tauto|].
  destruct (truthy (lookup targs name) && b); [destruct (lookup_in targs name); tauto|].
  destruct (truthy (lookup fl name) && b'); [destruct (lookup_in fl name); tauto|]. destruct (lookup_in cli name); tauto.
Qed.
Definition sound_targs (targs : args) : Prop := sound_options all targs /\ only_lists targs.
Lemma list_value targs name : sound_targs targs -> In name list_options -> exists ss, string_list (option_value (src cli fl targs) name) = Ok ss /\
  (option_value (src cli fl targs) name = VNull \/ (option_value (src cli fl targs) name = VList (map VStr ss) /\ In (name, VList (map VStr ss)) (cli ++ targs ++ fl)%list)).
Proof using Hcli Hfl Ocli Ofl.
  intros [S O] I. destruct (value_from targs name) as [E | H]; [rewrite E; exists []; auto|].
  assert (K : option_value (src cli fl targs) name = VNull \/ exists l, option_value (src cli fl targs) name = VList l).
  { apply in_app_or in H as [H|H]; [exact (Ocli _ _ I H)|]. apply in_app_or in H as [H|H]; [exact (O _ _ I H) | exact (Ofl _ _ I H)]. }
  destruct K as [E | [l E]]; [rewrite E; exists []; auto|]. rewrite E in *.
  assert (T : exists ss, l = map VStr ss).
  { apply in_app_or in H as [H|H]; [exact (proj1 Hcli _ _ I H)|]. apply in_app_or in H as [H|H]; [exact (proj1 S _ _ I H) | exact (proj1 Hfl _ _ I H)]. }
  destruct T as [ss ->]. exists ss. cbn [string_list]. rewrite strings_of_texts. auto.
Qed.
Lemma options_read targs : sound_targs targs -> exists ig inc man, ignore_checks (src cli fl targs) = Ok ig /\ include_checks (src cli fl targs) = Ok inc /\ mandatory_checks (src cli fl targs) = Ok man.
Proof using Hcli Hfl Ocli Ofl.
  intros S. destruct (list_value targs "ignore_checks" S) as (ig & E1 & _); [cbn; tauto|]. destruct (list_value targs "include_checks" S) as (inc & E2 & _); [cbn; tauto|].
  destruct (list_value targs "mandatory_checks" S) as (man & E3 & _); [cbn; tauto|].
  exists ig, (["W"; "E"] ++ inc)%list, man. unfold ignore_checks, include_checks, mandatory_checks. rewrite E1, E2, E3. auto.
Qed.
Lemma regions_read targs : sound_targs targs -> exists rg, regions (src cli fl targs) = Ok rg /\ forallb (fun r => smem r REGIONS) rg = true.
Proof using Hcli Hfl Ocli Ofl.
  intros S. unfold regions. destruct (negb (truthy (option_value (src cli fl targs) "regions"))) eqn:E; [exists ["us-east-1"]; split; [reflexivity | vm_compute; reflexivity]|].
  destruct (list_value targs "regions" S) as (ss & E1 & K); [cbn; tauto|]. destruct K as [K | [K H]]; [rewrite K in E; discriminate E|]. rewrite E1. cbn [bind].
  destruct (smem "ALL_REGIONS" ss) eqn:A; [exists REGIONS; split; [reflexivity | vm_compute; reflexivity]|]. exists ss. split; [reflexivity|].
  apply forallb_forall. intros r I. apply smem_iff.
  assert (T : In "ALL_REGIONS" ss \/ forall r, In r ss -> In r REGIONS).
  { apply in_app_or in H as [H|H]; [exact (proj1 (proj2 Hcli) _ H)|]. apply in_app_or in H as [H|H]; [exact (proj1 (proj2 (proj1 S)) _ H) | exact (proj1 (proj2 Hfl) _ H)]. }
  destruct T as [T|T]; [|exact (T r I)]. apply smem_iff in T. rewrite T in A. discriminate A.
Qed.
Lemma settings_apply def cs : forall c, (forall key v default, In (key, v) cs -> assoc key def = Some (CInteger, default) -> (exists z, v = VInt z) \/ exists b, v = VBool b) ->
  exists c', config_apply str def cs c = Ok c'.
Proof using.
  clear. induction cs as [|[key v] cs IH]; intros c H; [exists c; reflexivity|]. cbn [config_apply].
  assert (N : forall key v default, In (key, v) cs -> assoc key def = Some (CInteger, default) -> (exists z, v = VInt z) \/ exists b, v = VBool b) by (intros k0 v0 d0 I; exact (H k0 v0 d0 (or_intror I))).
  destruct (assoc key def) as [[[| |] dflt]|] eqn:E; try (apply IH; exact N).
  destruct (H key v dflt (or_introl eq_refl) E) as [[z ->] | [b ->]]; cbn [py_int bind]; apply IH; exact N.
Qed.
Lemma map_ok {A B} (f : A -> res B) l : (forall x, In x l -> exists y, f x = Ok y) -> exists l', map_res f l = Ok l'.
Proof using.
  clear. induction l as [|x l IH]; intros H; [exists []; reflexivity|]. cbn [map_res]. destruct (H x (or_introl eq_refl)) as [y E]. destruct IH as [l' E']; [intros z I; apply H; right; exact I|].
  rewrite E, E'. eexists; reflexivity.
Qed.
Lemma register_ok targs s r : sound_targs targs -> s_configure s = configure_rules (src cli fl targs) -> (exists r0, In r0 all /\ same_checks r0 r) -> exists r', register_effect str s r = Ok r'.
Proof using Hcli Hfl.
  intros S E (r0 & I & C). unfold register_effect. destruct (enabled s r); [|eexists; reflexivity]. rewrite E. unfold configure_rules.
  destruct (assoc (r_id r) (dict_of (option_value (src cli fl targs) "configure_rules"))) as [set|] eqn:A; [|eexists; reflexivity].
  destruct set as [| | | | | |set]; try (eexists; reflexivity). cbn [rule_configure].
  destruct (value_from targs "configure_rules") as [V | V]; [rewrite V in A; discriminate A|].
  destruct (option_value (src cli fl targs) "configure_rules") as [| | | | | |cs]; try discriminate A. cbn [dict_of] in A. apply assoc_In in A.
  assert (T : forall a, integers_given all a -> In ("configure_rules", VDict cs) a -> forall key v default, In (key, v) set -> assoc key (r_definition r) = Some (CInteger, default) -> (exists z, v = VInt z) \/ exists b, v = VBool b).
  { intros a G Ha key v default Hk Hd. destruct C as (C1 & C2 & C3 & _). apply (G cs r0 set key default v Ha I); [rewrite <- C1 | exact Hk | rewrite <- C3]; assumption. }
  destruct (settings_apply (r_definition r) set (config_defaults r)) as [c' Ec].
  { apply in_app_or in V as [V|V]; [exact (T _ (proj2 (proj2 Hcli)) V)|]. apply in_app_or in V as [V|V]; [exact (T _ (proj2 (proj2 (proj1 S))) V) | exact (T _ (proj2 (proj2 Hfl)) V)]. }
  rewrite Ec. eexists; reflexivity.
Qed.
(** What a calm template gives. *)
Lemma calm_args t : calm all t -> exists targs, set_template_args t = Ok targs /\ sound_targs targs.
Proof using.
  clear. intros [M C]. destruct t as [| | | | | |d]; try (exists []; split; [reflexivity|]; split; [split; [intros ? ? _ []|]; split; [intros ? [] | intros ? ? ? ? ? ? []] | intros ? ? _ []]).
  assert (Z : sound_targs []) by (split; [split; [intros ? ? _ []|]; split; [intros ? [] | intros ? ? ? ? ? ? []] | intros ? ? _ []]).
  cbn [set_template_args vget_def bind]. destruct (assoc "Metadata" d) as [m|] eqn:E1; [|exists []; split; [reflexivity | exact Z]].
  destruct (M d m eq_refl E1) as (ms & -> & Hs). cbn [vget_def bind]. destruct (assoc "cfn-lint" ms) as [x|] eqn:E2; [|exists []; split; [reflexivity | exact Z]].
  destruct (Hs x eq_refl) as [s ->]. cbn [vget_def bind]. destruct (assoc "config" s) as [x|] eqn:E3; [|exists []; split; [reflexivity | exact Z]].
  destruct x as [| | | | | |cs]; try (exists []; split; [reflexivity | exact Z]).
  destruct (C cs) as (K1 & K2 & K3); [exists d, ms, s; auto|]. eexists. split; [reflexivity|].
  split; [split; [|split]|].
  - intros name l I H. apply filter_In in H as [H _]. exact (K1 _ _ I H).
  - intros ss H. apply filter_In in H as [H _]. exact (K2 _ H).
  - intros a b c e f g H. apply filter_In in H as [H _]. exact (K3 _ _ _ _ _ _ H).
  - intros name v I H. apply filter_In in H as [_ H]. cbn [fst snd] in H. destruct I as [<-|[<-|[<-|[<-|[]]]]]; cbn in H; try discriminate H; destruct v; try discriminate H; right; eexists; reflexivity.
Qed.
Definition good_state (st : state) : Prop := kept_state all st /\ sound_targs (st_targs st).
Definition calm_file (d : decoded) : Prop := forall t, d = DecOk t -> calm all (erase t).
Lemma one_calm st name d : good_state st -> calm_file d -> exists st' l, lint_one str sp tr all cli fl st name d = (st', Ok (Findings l)) /\ good_state st'.
Proof using Hcli Hfl Ocli Ofl.
  intros [K S] C. destruct (lint_one str sp tr all cli fl st name d) as [st' o] eqn:L. pose proof (one_kept _ _ _ _ _ _ _ _ _ _ _ K L) as K'.
  unfold lint_one, get_template_rules, ignore_bad in L. destruct (options_read _ S) as (ig0 & inc0 & man0 & A1 & A2 & A3).
  assert (B : exists bad, (if ignore_bad_template (src cli fl (st_targs st)) then Ok true else do ig <- ignore_checks (src cli fl (st_targs st)); do inc <- include_checks (src cli fl (st_targs st));
     do man <- mandatory_checks (src cli fl (st_targs st)); Ok (negb (is_enabled "E0000" false false ig inc man))) = Ok bad).
  { destruct (ignore_bad_template _); [eexists; reflexivity|]. rewrite A1, A2, A3. eexists; reflexivity. }
  destruct B as [bad B]. cbv zeta in L. rewrite B in L. destruct d as [t|errors].
  2:{ injection L as <- <-. exists st. eexists. split; [reflexivity|]. split; [exact K | exact S]. }
  destruct (calm_args _ (C t eq_refl)) as (targs & E & S'). rewrite E in L. destruct (options_read _ S') as (ig & inc & man & A1' & A2' & A3'). rewrite A1', A2', A3' in L. cbn [bind] in L.
  assert (R : forall s l, s_configure s = configure_rules (src cli fl targs) -> descends all l -> exists l', map_res (register_effect str s) l = Ok l').
  { intros s l Es [_ D]. apply map_ok. intros r I. exact (register_ok _ _ _ S' Es (D r I)). }
  assert (N : forall ex, exists k, coll_new str all ig inc (configure_rules (src cli fl targs)) ex man = Ok k).
  { intros ex. unfold coll_new. rewrite extend_map. cbn [k_set k_all]. destruct (R (mkSettings ex ig (add_default_includes inc) man (configure_rules (src cli fl targs))) all eq_refl (descends_refl _)) as [l' El]. rewrite El. eexists; reflexivity. }
  assert (G : exists k, (match st_rules st with
      | Some (mkColl al st0) => match rules (mkColl al st0) with [] => coll_new str all ig inc (configure_rules (src cli fl targs)) (include_experimental (src cli fl targs)) man
          | _ => coll_configure str (mkColl al st0) ig inc (configure_rules (src cli fl targs)) (include_experimental (src cli fl targs)) man end
      | None => coll_new str all ig inc (configure_rules (src cli fl targs)) (include_experimental (src cli fl targs)) man end) = Ok k).
  { destruct (st_rules st) as [[al st0]|] eqn:Er; [|apply N]. destruct (rules (mkColl al st0)); [apply N|]. unfold coll_configure. cbn [k_all].
    edestruct (R (mkSettings (include_experimental (src cli fl targs)) ig (add_default_includes inc) man (configure_rules (src cli fl targs))) al eq_refl (K _ Er)) as [l' El]. rewrite El. eexists; reflexivity. }
  destruct G as [k G]. rewrite G in L. destruct (negb (truthy (erase t))).
  { injection L as <- <-. eexists. eexists. split; [reflexivity|]. split; [exact K' | exact S']. }
  cbn [st_targs] in L. destruct (regions_read _ S') as (rg & Er & Fr). rewrite Er, A3' in L. unfold run_checks in L. rewrite Fr in L. cbn [negb] in L.
  destruct (if wants_transform _ then _ else _) as [errors c'] in L.
  assert (Q : exists k' l, (match errors with _ :: _ => (k, Findings (if is_rule_enabled (k_set k) "E0001" false then errors else []))
     | [] => let '(k', r) := runner_run sp k man c' in (k', Findings match r with Ok ms => sort_findings ms | Err _ => [] end) end) = (k', Findings l)).
  { destruct errors; [|eexists; eexists; reflexivity]. destruct (runner_run sp k man c') as [k' r]. eexists; eexists; reflexivity. }
  destruct Q as (k' & l & Q). rewrite Q in L. injection L as <- <-. eexists. eexists. split; [reflexivity|]. split; [exact K' | exact S'].
Qed.
Lemma all_calm files : forall st acc, good_state st -> Forall (fun nd => calm_file (snd nd)) files -> exists st' l, lint_all str sp tr all cli fl st files acc = (st', Ok (Findings l)).
Proof using Hcli Hfl Ocli Ofl.
  induction files as [|[n d] files IH]; intros st acc G F; [eexists; eexists; reflexivity|]. inversion F as [|? ? F1 F2]; subst. cbn [lint_all].
  destruct (one_calm st n d G F1) as (st' & l & E & G'). rewrite E. exact (IH _ _ G' F2).
Qed.
Lemma never_stops files : Forall (fun nd => forall t, snd nd = DecOk t -> calm all (erase t)) files ->
  exists parts, snd (lint_all str sp tr all cli fl initial_state files []) = Ok (Findings (List.concat parts)) /\
    Forall2 (fun nd part => exists st st', lint_one str sp tr all cli fl st (fst nd) (snd nd) = (st', Ok (Findings part))) files parts.
Proof using Hcli Hfl Ocli Ofl.
  intros F. destruct (all_calm files initial_state []) as (st' & l & E).
  - split; [intros k0 E; discriminate E|]. split; [split; [intros ? ? _ []|]; split; [intros ? [] | intros ? ? ? ? ? ? []] | intros ? ? _ []].
  - exact F.
  - destruct (lint_all_concat _ _ _ _ _ _ _ _ _ _ _ E) as (parts & -> & _ & H). exists parts. rewrite E. split; [reflexivity | exact H].
Qed.

(** What stops it: everything is lost, whatever the other files are. *)
Lemma stop_loses files name d rest e : Forall (fun nd => forall t, snd nd = DecOk t -> calm all (erase t)) files ->
  (forall st, good_state st -> snd (lint_one str sp tr all cli fl st name d) = e) -> (forall l, e <> Ok (Findings l)) ->
  snd (lint_all str sp tr all cli fl initial_state (files ++ (name, d) :: rest)%list []) = e.
Proof using Hcli Hfl Ocli Ofl.
  intros F H N. assert (G0 : good_state initial_state).
  { split; [intros k0 E; discriminate E|]. split; [split; [intros ? ? _ []|]; split; [intros ? [] | intros ? ? ? ? ? ? []] | intros ? ? _ []]. }
  revert G0. generalize initial_state as st. generalize (@nil finding) as acc. induction files as [|[n d0] files IH]; intros acc st G.
  - cbn [app lint_all]. specialize (H st G). destruct (lint_one str sp tr all cli fl st name d) as [st' o]. cbn [snd] in H. subst o. destruct e as [[l|z]|e]; [destruct (N l eq_refl) | reflexivity | reflexivity].
  - inversion F as [|? ? F1 F2]; subst. cbn [app lint_all]. destruct (one_calm st n d0 G F1) as (st' & l & E & G'). rewrite E. apply IH; assumption.
Qed.
Lemma bad_ok st : good_state st -> exists bad, ignore_bad cli fl st = Ok bad.
Proof using Hcli Hfl Ocli Ofl.
  intros [_ S]. destruct (options_read _ S) as (ig & inc & man & A1 & A2 & A3). unfold ignore_bad. cbv zeta. destruct (ignore_bad_template _); [eexists; reflexivity|]. rewrite A1, A2, A3. eexists; reflexivity.
Qed.
Lemma metadata_stops files name t rest : Forall (fun nd => forall t, snd nd = DecOk t -> calm all (erase t)) files -> ~ metadata_shaped (erase t) ->
  exists e, (e = EAttribute \/ e = ETemplateAttribute) /\ snd (lint_all str sp tr all cli fl initial_state (files ++ (name, DecOk t) :: rest)%list []) = Err e.
Proof using Hcli Hfl Ocli Ofl.
  intros F M. assert (K : exists e, (e = EAttribute \/ e = ETemplateAttribute) /\ set_template_args (erase t) = Err e).
  { destruct (erase t) as [| | | | | |d] eqn:Et; try (destruct M; intros d m E; discriminate E). cbn [set_template_args vget_def bind].
    destruct (assoc "Metadata" d) as [m|] eqn:E1; [|destruct M; intros d0 m E A; injection E as <-; rewrite E1 in A; discriminate A].
    destruct m as [| | | | | |ms]; cbn [vget_def bind]; eauto.
    destruct (assoc "cfn-lint" ms) as [x|] eqn:E2; [|destruct M; intros d0 m E A; injection E as <-; rewrite E1 in A; injection A as <-; exists ms; split; [reflexivity | intros x E; rewrite E2 in E; discriminate E]].
    destruct x as [| | | | | |s]; cbn [vget_def bind]; eauto.
    destruct M. intros d0 m E A; injection E as <-; rewrite E1 in A; injection A as <-. exists ms; split; [reflexivity | intros x E; rewrite E2 in E; injection E as <-; eauto]. }
  destruct K as (e & Ke & K). exists e. split; [exact Ke|]. apply stop_loses; [exact F | | discriminate].
  intros st G. destruct (bad_ok st G) as [bad B]. unfold lint_one, get_template_rules. rewrite B, K. reflexivity.
Qed.
Lemma entry_stops files name t cs v l rest : Forall (fun nd => forall t, snd nd = DecOk t -> calm all (erase t)) files ->
  configuration (erase t) cs -> In ("ignore_checks", VList (v :: l)) cs -> NoDup (keys cs) -> (forall s, v <> VStr s) -> lookup cli "ignore_checks" = VNull \/ lookup cli "ignore_checks" = VList [] ->
  snd (lint_all str sp tr all cli fl initial_state (files ++ (name, DecOk t) :: rest)%list []) = Err ETypeErr.
Proof using Hcli Hfl Ocli Ofl.
  intros F (d & ms & s & Et & E1 & E2 & E3) I N V L. apply stop_loses; [exact F | | discriminate].
  intros st G. destruct (bad_ok st G) as [bad B]. unfold lint_one, get_template_rules. rewrite B, Et. cbn [set_template_args vget_def bind]. rewrite E1. cbn [vget_def bind]. rewrite E2. cbn [vget_def bind]. rewrite E3. cbv zeta.
  set (targs := filter _ cs). assert (A : assoc "ignore_checks" targs = Some (VList (v :: l))).
  { apply assoc_in_nodup; [|apply filter_In; split; [exact I | reflexivity]]. unfold targs. clear -N. induction cs as [|[k x] cs IH]; [exact N|]. cbn [keys map fst] in N. inversion N as [|? ? N1 N2]; subst.
    cbn [filter]. destruct (template_arg_ok _ _); [|exact (IH N2)]. cbn [keys map fst]. constructor; [|exact (IH N2)]. intros H. apply N1. apply in_map_iff in H as [[k0 x0] [<- H]]. apply filter_In in H as [H _]. apply in_map_iff. exists (k0, x0). auto. }
  assert (X : ignore_checks (src cli fl targs) = Err ETypeErr).
  { unfold ignore_checks, option_value. cbn [option_sources smem existsb String.eqb]. change (option_sources "ignore_checks") with (true, true). unfold get_argument_value, src. cbn [Config.cli Config.tmpl Config.file].
    assert (Lk : lookup targs "ignore_checks" = VList (v :: l)) by (unfold lookup; rewrite A; reflexivity).
    destruct L as [L|L]; rewrite L, Lk; cbn [truthy andb string_list strings_of]; destruct v; try reflexivity; destruct (V _ eq_refl). }
  rewrite X. reflexivity.
Qed.
Lemma region_stops files name t cs ss r rest : Forall (fun nd => forall t, snd nd = DecOk t -> calm all (erase t)) files -> metadata_shaped (erase t) -> truthy (erase t) = true ->
  configuration (erase t) cs -> lists_of_texts cs -> integers_given all cs -> In ("regions", VList (map VStr ss)) cs -> NoDup (keys cs) -> In r ss -> ~ In r REGIONS -> ~ In "ALL_REGIONS" ss ->
  lookup cli "regions" = VNull \/ lookup cli "regions" = VList [] ->
  snd (lint_all str sp tr all cli fl initial_state (files ++ (name, DecOk t) :: rest)%list []) = Ok (Exit 32).
Proof using Hcli Hfl Ocli Ofl.
  intros F M Tr (d & ms & s & Et & E1 & E2 & E3) LT IG I N Hr Hn Ha L. apply stop_loses; [exact F | | discriminate].
  intros st [K S]. destruct (bad_ok st (conj K S)) as [bad B]. unfold lint_one, get_template_rules. rewrite B. rewrite Et in *. cbn [set_template_args vget_def bind]. rewrite E1. cbn [vget_def bind]. rewrite E2. cbn [vget_def bind]. rewrite E3. cbv zeta.
  set (targs := filter _ cs).
  assert (A : assoc "regions" targs = Some (VList (map VStr ss))).
  { apply assoc_in_nodup; [|apply filter_In; split; [exact I | reflexivity]]. unfold targs. clear -N. induction cs as [|[k x] cs IH]; [exact N|]. cbn [keys map fst] in N. inversion N as [|? ? N1 N2]; subst.
    cbn [filter]. destruct (template_arg_ok _ _); [|exact (IH N2)]. cbn [keys map fst]. constructor; [|exact (IH N2)]. intros H. apply N1. apply in_map_iff in H as [[k0 x0] [<- H]]. apply filter_In in H as [H _]. apply in_map_iff. exists (k0, x0). auto. }
  
  set (rest_args := filter (fun kv => negb (String.eqb (fst kv) "regions")) targs).
  assert (S' : sound_targs rest_args).
  { split; [split; [|split]|].
    - intros nm l0 I0 H. apply filter_In in H as [H _]. apply filter_In in H as [H _]. exact (LT _ _ I0 H).
    - intros ss0 H. apply filter_In in H as [_ H]. discriminate H.
    - intros a b c0 e f g H. apply filter_In in H as [H _]. apply filter_In in H as [H _]. exact (IG _ _ _ _ _ _ H).
    - intros nm x I0 H. apply filter_In in H as [H _]. apply filter_In in H as [_ H]. cbn [fst snd] in H. destruct I0 as [<-|[<-|[<-|[<-|[]]]]]; cbn in H; try discriminate H; destruct x; try discriminate H; right; eexists; reflexivity. }
  assert (Same : forall nm, nm <> "regions" -> option_value (src cli fl targs) nm = option_value (src cli fl rest_args) nm).
  { intros nm Hnm. assert (Lk : lookup targs nm = lookup rest_args nm).
    { unfold lookup, rest_args. clear -Hnm. induction targs as [|[k x] a IH]; [reflexivity|]. cbn [filter fst]. destruct (String.eqb k "regions") eqn:Ek; cbn [negb assoc].
      - apply String.eqb_eq in Ek as ->. destruct (String.eqb nm "regions") eqn:En; [apply String.eqb_eq in En; contradiction | exact IH].
      - destruct (String.eqb nm k); [reflexivity | exact IH]. }
    unfold option_value, get_argument_value, src. cbn [Config.cli Config.tmpl Config.file]. rewrite Lk. reflexivity. }
  destruct (options_read _ S') as (ig & inc & man & A1 & A2 & A3).
  assert (A1' : ignore_checks (src cli fl targs) = Ok ig) by (unfold ignore_checks in *; rewrite Same by discriminate; exact A1).
  assert (A2' : include_checks (src cli fl targs) = Ok inc) by (unfold include_checks in *; rewrite Same by discriminate; exact A2).
  assert (A3' : mandatory_checks (src cli fl targs) = Ok man) by (unfold mandatory_checks in *; rewrite Same by discriminate; exact A3).
  rewrite A1', A2', A3'. cbn [bind].
  assert (Cf : configure_rules (src cli fl targs) = configure_rules (src cli fl rest_args)) by (unfold configure_rules; rewrite Same by discriminate; reflexivity).
  rewrite Cf.
  assert (R : forall s l, s_configure s = configure_rules (src cli fl rest_args) -> descends all l -> exists l', map_res (register_effect str s) l = Ok l').
  { intros s0 l0 Es [_ D]. apply map_ok. intros r0 I0. exact (register_ok _ _ _ S' Es (D r0 I0)). }
  assert (Nw : forall ex, exists k, coll_new str all ig inc (configure_rules (src cli fl rest_args)) ex man = Ok k).
  { intros ex. unfold coll_new. rewrite extend_map. cbn [k_set k_all]. destruct (R (mkSettings ex ig (add_default_includes inc) man (configure_rules (src cli fl rest_args))) all eq_refl (descends_refl _)) as [l' El]. rewrite El. eexists; reflexivity. }
  match goal with |- context [match st_rules st with Some _ => _ | None => _ end] => idtac end.
  assert (G : exists k, (match st_rules st with
      | Some (mkColl al st0) => match rules (mkColl al st0) with [] => coll_new str all ig inc (configure_rules (src cli fl rest_args)) (include_experimental (src cli fl targs)) man
          | _ => coll_configure str (mkColl al st0) ig inc (configure_rules (src cli fl rest_args)) (include_experimental (src cli fl targs)) man end
      | None => coll_new str all ig inc (configure_rules (src cli fl rest_args)) (include_experimental (src cli fl targs)) man end) = Ok k).
  { destruct (st_rules st) as [[al st0]|] eqn:Er; [|apply Nw]. destruct (rules (mkColl al st0)); [apply Nw|]. unfold coll_configure. cbn [k_all].
    edestruct (R (mkSettings (include_experimental (src cli fl targs)) ig (add_default_includes inc) man (configure_rules (src cli fl rest_args))) al eq_refl (K _ Er)) as [l' El]. rewrite El. eexists; reflexivity. }
  destruct G as [k G]. rewrite G. rewrite Et, Tr. cbn [negb st_targs].
  assert (X : regions (src cli fl targs) = Ok ss).
  { unfold regions. assert (V : option_value (src cli fl targs) "regions" = VList (map VStr ss)).
    { unfold option_value. change (option_sources "regions") with (true, true). unfold get_argument_value, src. cbn [Config.cli Config.tmpl Config.file].
      assert (Lk : lookup targs "regions" = VList (map VStr ss)) by (unfold lookup; rewrite A; reflexivity). rewrite Lk. destruct ss as [|s0 ss]; [destruct Hr|]. destruct L as [L|L]; rewrite L; reflexivity. }
    rewrite V. destruct ss as [|s0 ss]; [destruct Hr|]. cbn [truthy map negb string_list]. change (VStr s0 :: map VStr ss) with (map VStr (s0 :: ss)). rewrite strings_of_texts. cbn [bind].
    destruct (smem "ALL_REGIONS" (s0 :: ss)) eqn:Sm; [|reflexivity]. apply smem_iff in Sm. contradiction. }
  rewrite X, A3'. unfold run_checks.
  assert (Y : forallb (fun r => smem r REGIONS) ss = false).
  { destruct (forallb (fun r => smem r REGIONS) ss) eqn:Y; [|reflexivity]. rewrite forallb_forall in Y. specialize (Y r Hr). apply smem_iff in Y. contradiction. }
  rewrite Y. reflexivity.
Qed.
End Stops.
