(** The report depends only on the set of rules (C91): whole runs. *)
From Coq Require Import Lia Permutation Sorted.
From Verif.Model Require Import Base Node Locate Helpers Rules Runner Config Core.
From Verif.Spec Require Import Pipeline RuleSets.
From Verif.Proofs Require Import BaseFacts PipelineProofs RunProofs ReportProofs GroupProofs RuleSetProofs.

(** * Initialisation *)
Definition prepare (c : cfn) (r : rule) : rule := add_types r (fst (r_init r c)) (snd (r_init r c)).
Lemma enabled_prepare s c r : enabled s (prepare c r) = enabled s r.
Proof. reflexivity. Qed.
Lemma init_In k c r : In r (rules (initialize_all k c)) <-> exists r0, In r0 (rules k) /\ r = prepare c r0.
Proof.
  unfold rules, initialize_all. cbn [k_all k_set]. rewrite filter_In, in_map_iff. split.
  - intros [[r0 [E H]] He]. exists r0. fold (prepare c r0) in E. destruct (enabled (k_set k) r0) eqn:Er.
    + split; [apply filter_In; auto | now symmetry].
    + subst r. congruence.
  - intros [r0 [H ->]]. apply filter_In in H as [H E]. split; [|exact E].
    exists r0. rewrite E. split; [reflexivity | exact H].
Qed.
Lemma init_same k k' c i : (forall r, r_id r = i -> (In r (rules k) <-> In r (rules k'))) ->
  forall r, r_id r = i -> (In r (rules (initialize_all k c)) <-> In r (rules (initialize_all k' c))).
Proof.
  intros H r Hr. rewrite !init_In. split; intros [r0 [H0 ->]]; exists r0; split; auto; now apply (H r0).
Qed.
Lemma init_same_all k k' c : (forall r, In r (rules k) <-> In r (rules k')) ->
  forall r, In r (rules (initialize_all k c)) <-> In r (rules (initialize_all k' c)).
Proof. intros H r. rewrite !init_In. split; intros [r0 [H0 ->]]; exists r0; split; auto; now apply (H r0). Qed.
Lemma init_one k c i : (forall r r', In r (rules k) -> In r' (rules k) -> r_id r = i -> r_id r' = i -> r = r') ->
  forall r r', In r (rules (initialize_all k c)) -> In r' (rules (initialize_all k c)) -> r_id r = i -> r_id r' = i -> r = r'.
Proof.
  intros H r r' Hr Hr' E E'. apply init_In in Hr as [a [Ha ->]]. apply init_In in Hr' as [b [Hb ->]]. f_equal. now apply H.
Qed.

(** * Reports *)
Definition same_part (who : string -> bool) (l l' : list finding) : Prop := about who l = about who l'.
Lemma about_tied who x l : filter (tiedb x) (about who l) = if who (f_rule x) then filter (tiedb x) l else [].
Proof.
  induction l as [|m l IH]; [now destruct (who (f_rule x))|]. rewrite about_cons. cbn [filter].
  destruct (tiedb x m) eqn:T.
  - assert (E : f_rule x = f_rule m) by (apply tiedb_iff in T; apply T). rewrite <- E.
    destruct (who (f_rule x)) eqn:W; [cbn [filter]; now rewrite T, IH | exact IH].
  - destruct (who (f_rule m)); [cbn [filter]; now rewrite T, IH | exact IH].
Qed.
Lemma about_sorted who l : StronglySorted le (about who (sort_findings l)).
Proof. unfold about. rewrite filter_sort. apply sort_sorted. Qed.
Lemma sorted_part who l l' : (forall i, who i = true -> about (String.eqb i) l = about (String.eqb i) l') ->
  about who (sort_findings l) = about who (sort_findings l').
Proof.
  intros H. apply sorted_tied_eq; try apply about_sorted. intros x. rewrite !about_tied.
  destruct (who (f_rule x)) eqn:W; [|reflexivity]. rewrite !sort_stable.
  assert (K : forall m, filter (tiedb x) m = filter (tiedb x) (about (String.eqb (f_rule x)) m)).
  { intros m. rewrite about_tied, String.eqb_refl. reflexivity. }
  rewrite (K l), (K l'), (H _ W). reflexivity.
Qed.

Definition reports (sp : spec) (k : collection) (man : list string) (c : cfn) : list finding :=
  match snd (runner_run sp k man c) with Ok ms => sort_findings ms | Err _ => [] end.
Lemma reports_body sp k man c : reports sp k man c =
  match run_body sp (initialize_all k c) c, get_directives (c_tmpl c) with
  | Ok ms, Ok ds => sort_findings (filter_matches man ds ms [])
  | _, _ => []
  end.
Proof.
  unfold reports, runner_run. rewrite coll_run_body. cbn [snd]. destruct (run_body _ _ _); cbn [bind]; [|reflexivity].
  destruct (get_directives _); reflexivity.
Qed.
Lemma reports_part sp k k' man c who : who "E0002" = false ->
  is_rule_enabled (k_set k) "E0002" false = is_rule_enabled (k_set k') "E0002" false ->
  (e0002_on (k_set k) /\ spec_ok sp) \/ (forall r, In r (rules k) <-> In r (rules k')) ->
  (forall r, who (r_id r) = true -> (In r (rules k) <-> In r (rules k'))) ->
  (forall r r', In r (rules k) -> In r' (rules k) -> who (r_id r) = true -> r_id r = r_id r' -> r = r') ->
  about who (reports sp k man c) = about who (reports sp k' man c).
Proof.
  intros Hw He Hend Hs Hu. rewrite !reports_body. destruct (get_directives (c_tmpl c)) as [ds|].
  2:{ destruct (run_body sp (initialize_all k c) c), (run_body sp (initialize_all k' c) c); reflexivity. }
  assert (K : forall i, who i = true -> agree (equiv i) (run_body sp (initialize_all k c) c) (run_body sp (initialize_all k' c) c)).
  { intros i Wi. apply body_equiv; auto.
    - intros ->. congruence.
    - destruct Hend as [[Hend _]|Hend]; [now left | right; now apply init_same_all].
    - apply init_same. intros r E. apply Hs. congruence.
    - apply init_one. intros r r' H H' E E'. apply Hu; congruence. }
  assert (Hboth : agree (fun _ _ => True) (run_body sp (initialize_all k c) c) (run_body sp (initialize_all k' c) c)).
  { destruct Hend as [[He0 Hsp]|Hend].
    - destruct (run_body_total sp (initialize_all k c) c Hsp He0) as [l ->].
      assert (He0' : e0002_on (k_set k')) by (unfold e0002_on in *; congruence).
      destruct (run_body_total sp (initialize_all k' c) c Hsp He0') as [l' ->]. exact I.
    - assert (M := body_members sp (initialize_all k c) (initialize_all k' c) c He (init_same_all k k' c Hend)).
      destruct (run_body sp (initialize_all k c) c), (run_body sp (initialize_all k' c) c); cbn in *; auto. }
  destruct (run_body sp (initialize_all k c) c) as [la|], (run_body sp (initialize_all k' c) c) as [lb|]; try destruct Hboth; try reflexivity.
  apply sorted_part. intros i Wi. rewrite !filter_fm. exact (K i Wi man ds []).
Qed.
Lemma reports_tell sp k k' man c :
  is_rule_enabled (k_set k) "E0002" false = is_rule_enabled (k_set k') "E0002" false ->
  (forall r, In r (rules k) <-> In r (rules k')) -> tells (reports sp k man c) (reports sp k' man c).
Proof.
  intros He Hs m Hm. rewrite reports_body in *. destruct (get_directives (c_tmpl c)) as [ds|].
  2:{ destruct (run_body sp (initialize_all k c) c); destruct Hm. }
  assert (M := body_members sp (initialize_all k c) (initialize_all k' c) c He (init_same_all k k' c Hs)).
  destruct (run_body sp (initialize_all k c) c) as [la|] eqn:Ea; [|destruct Hm].
  destruct (run_body sp (initialize_all k' c) c) as [lb|] eqn:Eb; [|destruct M].
  apply (Permutation_in _ (sort_perm _)) in Hm. apply report_sound in Hm as [Hm Hn].
  destruct (report_complete man ds lb m (proj1 (M m) Hm) Hn) as [u [Hu Hsame]]. exists u.
  split; [apply (Permutation_in _ (Permutation_sym (sort_perm _))); exact Hu|]. split; [|exact Hsame].
  apply report_sound in Hu as [Hu _]. rewrite (proj2 (body_told _ _ _ _ Ea m Hm)), (proj2 (body_told _ _ _ _ Eb u Hu)). reflexivity.
Qed.
Lemma reports_told sp k man c m : In m (reports sp k man c) ->
  ((exists r, In r (rules k) /\ r_id r = f_rule m) \/ f_rule m = "E0002") /\ f_file m = c_file c.
Proof.
  rewrite reports_body. destruct (run_body sp (initialize_all k c) c) as [la|] eqn:Ea; [|intros []].
  destruct (get_directives (c_tmpl c)) as [ds|]; [|intros []]. intros Hm.
  apply (Permutation_in _ (sort_perm _)) in Hm. apply report_sound in Hm as [Hm _].
  destruct (body_told _ _ _ _ Ea m Hm) as [[[r [Hr Er]]|K] Hf]; split; auto. left.
  apply init_In in Hr as [r0 [Hr0 ->]]. exists r0. split; [exact Hr0 | exact Er].
Qed.

(** * run_checks *)
Lemma run_checks_cases sp tr k rg man c :
  (snd (run_checks sp tr k rg man c) = Exit 32 /\ forallb (fun r => smem r REGIONS) rg = false) \/
  (forallb (fun r => smem r REGIONS) rg = true /\ wants_transform (template c) = true /\ fst (tr c) <> [] /\
   snd (run_checks sp tr k rg man c) = Findings (if is_rule_enabled (k_set k) "E0001" false then fst (tr c) else [])) \/
  (forallb (fun r => smem r REGIONS) rg = true /\ (wants_transform (template c) = true -> fst (tr c) = []) /\
   snd (run_checks sp tr k rg man c) =
     Findings (reports sp k man (if wants_transform (template c) then mkCfn (c_file c) (c_region c) (snd (tr c)) else c))).
Proof.
  unfold run_checks, reports. destruct (forallb _ rg); cbn [negb]; [|left; split; reflexivity]. right.
  destruct (wants_transform (template c)).
  - destruct (tr c) as [[|e es] t']; cbn [fst snd].
    + right. split; [reflexivity|]. split; [reflexivity|]. now destruct (runner_run sp k man _) as [k1 [ms|e1]].
    + left. repeat split; discriminate.
  - right. split; [reflexivity|]. split; [discriminate|]. now destruct (runner_run sp k man c) as [k1 [ms|e1]].
Qed.
Lemma both_iff id s s' : both_select id s s' -> is_rule_enabled s id false = is_rule_enabled s' id false.
Proof. intros H. apply eq_true_iff_eq. unfold is_rule_enabled. rewrite !is_enabled_spec. exact H. Qed.
Lemma runs_iff k r : runs k r <-> In r (rules k).
Proof. symmetry. apply rules_spec. Qed.

Lemma c91_part sp tr k k' rg man c who l l' :
  spec_ok sp -> e0002_selected (k_set k) -> e0002_selected (k_set k') -> both_select "E0001" (k_set k) (k_set k') ->
  who "E0002" = false -> same_rules who k k' -> one_per_id who k ->
  snd (run_checks sp tr k rg man c) = Findings l -> snd (run_checks sp tr k' rg man c) = Findings l' ->
  about who l = about who l'.
Proof.
  intros Hsp He He' H1 Hw Hs Hu Hl Hl'. apply e0002_iff in He, He'. apply both_iff in H1.
  destruct (run_checks_cases sp tr k rg man c) as [[E G]|[(G & W & T & E)|(G & T & E)]]; rewrite E in Hl; [discriminate| |];
  destruct (run_checks_cases sp tr k' rg man c) as [[E' G']|[(G' & W' & T' & E')|(G' & T' & E')]]; rewrite E' in Hl'; try discriminate;
  injection Hl as <-; injection Hl' as <-.
  - now rewrite H1.
  - now rewrite T' in T.
  - now rewrite T in T'.
  - apply reports_part; auto.
    + unfold e0002_on in *. congruence.
    + intros r Hr. rewrite <- !runs_iff. now apply Hs.
    + intros r r' Hr Hr'. rewrite <- runs_iff in Hr, Hr'. now apply Hu.
Qed.

Lemma run_checks_alike sp tr k k' rg man c :
  is_rule_enabled (k_set k) "E0001" false = is_rule_enabled (k_set k') "E0001" false ->
  is_rule_enabled (k_set k) "E0002" false = is_rule_enabled (k_set k') "E0002" false ->
  (forall r, In r (rules k) <-> In r (rules k')) ->
  (forall r r', In r (rules k) -> In r' (rules k) -> r_id r = r_id r' -> r = r') ->
  alike_outcome (snd (run_checks sp tr k rg man c)) (snd (run_checks sp tr k' rg man c)).
Proof.
  intros H1 He Hs Hu.
  destruct (run_checks_cases sp tr k rg man c) as [[E G]|[(G & W & T & E)|(G & T & E)]]; rewrite E;
  destruct (run_checks_cases sp tr k' rg man c) as [[E' G']|[(G' & W' & T' & E')|(G' & T' & E')]]; rewrite E'; try congruence; cbn [alike_outcome].
  - rewrite H1. split; [reflexivity|]. split; intros m Hm; exists m; repeat split; auto.
  - exfalso. auto.
  - exfalso. auto.
  - split; [apply reports_part; auto; now right|]. split; apply reports_tell; auto. intros r. symmetry. apply Hs.
Qed.
Lemma c91_set sp tr k k' rg man c :
  both_select "E0001" (k_set k) (k_set k') -> both_select "E0002" (k_set k) (k_set k') ->
  same_rules everyone k k' -> one_per_id everyone k ->
  alike_outcome (snd (run_checks sp tr k rg man c)) (snd (run_checks sp tr k' rg man c)).
Proof.
  intros H1 H2 Hs Hu. apply run_checks_alike; try now apply both_iff.
  - intros r. rewrite <- !runs_iff. now apply Hs.
  - intros r r' Hr Hr'. rewrite <- runs_iff in Hr, Hr'. now apply Hu.
Qed.
Lemma c91_findings sp tr k k' rg man c l l' :
  both_select "E0001" (k_set k) (k_set k') -> both_select "E0002" (k_set k) (k_set k') -> same_rules everyone k k' ->
  snd (run_checks sp tr k rg man c) = Findings l -> snd (run_checks sp tr k' rg man c) = Findings l' -> same_findings l l'.
Proof.
  intros H1 H2 Hs Hl Hl'. apply both_iff in H1, H2.
  assert (Hr : forall r, In r (rules k) <-> In r (rules k')) by (intros r; rewrite <- !runs_iff; now apply Hs).
  destruct (run_checks_cases sp tr k rg man c) as [[E G]|[(G & W & T & E)|(G & T & E)]]; rewrite E in Hl; [discriminate| |];
  destruct (run_checks_cases sp tr k' rg man c) as [[E' G']|[(G' & W' & T' & E')|(G' & T' & E')]]; rewrite E' in Hl'; try discriminate;
  injection Hl as <-; injection Hl' as <-.
  - rewrite H1. split; intros m Hm; exists m; repeat split; auto.
  - now rewrite T' in T.
  - now rewrite T in T'.
  - split; apply reports_tell; auto. intros r. symmetry. apply Hr.
Qed.

(** Rules that are left out take their findings with them, and nothing else. *)
Lemma c91_ignored sp tr k k' rg man c who l l' :
  spec_ok sp -> e0002_selected (k_set k) -> e0002_selected (k_set k') -> both_select "E0001" (k_set k) (k_set k') ->
  one_per_id who k -> who "E0001" = true -> who "E0002" = true ->
  (forall r, runs k' r <-> runs k r /\ who (r_id r) = true) ->
  snd (run_checks sp tr k rg man c) = Findings l -> snd (run_checks sp tr k' rg man c) = Findings l' ->
  (forall m, In m (fst (tr c)) -> f_rule m = "E0001") ->
  about not_crash l' = about (fun id => not_crash id && who id) l.
Proof.
  intros Hsp He He' H1 Hu W1 W2 Hs Hl Hl' Htr.
  assert (K : about (fun id => not_crash id && who id) l = about (fun id => not_crash id && who id) l').
  { apply (c91_part sp tr k k' rg man c); auto.
    - intros r Hr. apply andb_true_iff in Hr as [_ Hr]. rewrite Hs. tauto.
    - intros r r' Hr Hr' Hw. apply andb_true_iff in Hw as [_ Hw]. now apply Hu. }
  rewrite K. assert (Hall : forall m, In m l' -> who (f_rule m) = true).
  { intros m Hm.
    destruct (run_checks_cases sp tr k' rg man c) as [[E' G']|[(G' & W' & T' & E')|(G' & T' & E')]]; rewrite E' in Hl'; try discriminate;
      injection Hl' as <-.
    - destruct (is_rule_enabled (k_set k') "E0001" false); [|destruct Hm]. now rewrite (Htr m Hm).
    - apply reports_told in Hm as [[[r [Hr Er]]|Hm] _]; [|congruence]. apply runs_iff in Hr. rewrite <- Er. now apply Hs in Hr. }
  clear - Hall. induction l' as [|m l IH]; [reflexivity|]. rewrite !about_cons, (Hall m (or_introl eq_refl)), andb_true_r.
  rewrite IH by (intros x Hx; apply Hall; now right). reflexivity.
Qed.
