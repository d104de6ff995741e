(** C16 and C17: the scenarios enumerated for a set of conditions. *)
From Coq Require Import Lia Permutation.
From Verif.Model Require Import Base Helpers Conditions.
From Verif.Spec Require Import Truth.
From Verif.Proofs Require Import BaseFacts ConditionProofs.

Lemma length_app (a b : string) : String.length (a ++ b) = String.length a + String.length b.
Proof. induction a; cbn; [reflexivity | now rewrite IHa]. Qed.
Lemma length_concat_in s l : In s l -> String.length s <= String.length (String.concat "" l).
Proof.
  induction l as [|a l IH]; [intros []|]. intros [->|H].
  - destruct l; [cbn; lia|]. cbn [String.concat]. rewrite !length_app. lia.
  - destruct l as [|b l]; [destruct H|]. cbn [String.concat]. rewrite !length_app. specialize (IH H). cbn in *. lia.
Qed.

Lemma section_get name template members : section_of name template members ->
  vget_def name (VDict []) template = Ok (VDict members).
Proof. intros [d [-> [H|[H ->]]]]; cbn [vget_def]; now rewrite H. Qed.

Section Hash.
Variable hash : val -> string.
Hypothesis hash_digest : forall v, digest (hash v).
Variable order : list string -> list string.
Hypothesis order_perm : forall l, Permutation (order l) l.
Variable template : val.
Variables defs parameters : list (string * val).
Hypothesis defs_of : section_of "Conditions" template defs.
Hypothesis params_of : section_of "Parameters" template parameters.
Variable fuel : nat.

Lemma section_get_conditions : vget_def "Conditions" (VDict []) template = Ok (VDict defs).
Proof using defs_of. exact (section_get _ _ _ defs_of). Qed.
Lemma section_get_parameters : vget_def "Parameters" (VDict []) template = Ok (VDict parameters).
Proof using params_of. exact (section_get _ _ _ params_of). Qed.

(** * Loading *)
Lemma load_conditions_named names : forall acc cs ok n t,
  load_conditions hash fuel template names acc = (cs, ok) -> assoc n cs = Some t ->
  assoc n acc = Some t \/ condition_named hash fuel template n = Ok t.
Proof.
  induction names as [|m ns IH]; intros acc cs ok n t; cbn [load_conditions].
  - intros [= <- <-]. auto.
  - destruct (condition_named hash fuel template m) as [u|] eqn:E; [|intros [= <- <-]; auto].
    intros H1 H2. destruct (IH _ _ _ _ _ H1 H2) as [H|H]; [|auto]. destruct (String.eqb_spec n m) as [->|Hn].
    + rewrite assoc_set_same in H. injection H as <-. auto.
    + rewrite assoc_set_other in H by exact Hn. auto.
Qed.
Lemma load_named n t : assoc n (cs_conditions (load hash fuel template)) = Some t -> condition_named hash fuel template n = Ok t.
Proof.
  unfold load. destruct (vget_def "Conditions" (VDict []) template) as [[| | | | | |d]|]; try discriminate.
  destruct (load_conditions hash fuel template (keys d) []) as [cs ok] eqn:E.
  assert (H : assoc n cs = Some t -> condition_named hash fuel template n = Ok t).
  { intros H. destruct (load_conditions_named _ _ _ _ _ _ E H); [discriminate | assumption]. }
  destruct ok; [|exact H]. destruct (vget_def "Parameters" (VDict []) template) as [[| | | | | |ps]|]; exact H.
Qed.
Lemma load_conditions_all names : forall acc, (forall n, In n names -> exists t, condition_named hash fuel template n = Ok t) ->
  exists cs, load_conditions hash fuel template names acc = (cs, true) /\
    forall n, In n (keys cs) <-> In n (keys acc) \/ In n names.
Proof.
  induction names as [|m ns IH]; intros acc H; cbn [load_conditions].
  - exists acc. split; [reflexivity|]. cbn. intuition.
  - destruct (H m) as [t ->]; [now left|]. destruct (IH (set_assoc m t acc)) as [cs [H1 H2]]; [intros; apply H; now right|].
    exists cs. split; [exact H1|]. intros n. rewrite H2, keys_set_in. cbn. intuition.
Qed.
Lemma load_all : (forall n v, In (n, v) defs -> exists t, condition_named hash fuel template n = Ok t) ->
  forall n, mem_assoc n (cs_conditions (load hash fuel template)) = true <-> In n (keys defs).
Proof.
  intros H n. rewrite mem_assoc_iff. unfold load. rewrite section_get_conditions.
  destruct (load_conditions_all (keys defs) []) as [cs [H1 H2]].
  { intros m Hm. apply in_map_iff in Hm as [[m' v] [<- Hm]]. eauto. }
  rewrite H1. assert (Hk : In n (keys cs) <-> In n (keys defs)) by (rewrite H2; cbn; intuition).
  destruct (vget_def "Parameters" (VDict []) template) as [[| | | | | |ps]|]; exact Hk.
Qed.
Lemma load_parameters_from ps : forall acc h l, assoc h (load_parameters hash ps acc) = Some l ->
  assoc h acc = Some l \/
  exists name attrs, In (name, VDict attrs) ps /\ assoc "AllowedValues" attrs = Some (VList l) /\ h = hash (VDict [("Ref", VStr name)]).
Proof.
  induction ps as [|[n p] ps IH]; intros acc h l; cbn [load_parameters]; [auto|].
  destruct p as [| | | | | |attrs]; cbn [vget]; auto.
  assert (Hskip : assoc h (load_parameters hash ps acc) = Some l -> assoc h acc = Some l \/
     exists name attrs', In (name, VDict attrs') ((n, VDict attrs) :: ps) /\ assoc "AllowedValues" attrs' = Some (VList l) /\ h = hash (VDict [("Ref", VStr name)])).
  { intros H. apply IH in H as [H|[m [a [H1 H2]]]]; [auto|]. right. exists m, a. split; [now right | exact H2]. }
  destruct (assoc "AllowedValues" attrs) as [[| | | | |vs|]|] eqn:E; auto.
  intros H. apply IH in H as [H|[m [a [H1 H2]]]].
  - destruct (String.eqb_spec h (hash (VDict [("Ref", VStr n)]))) as [->|Hn].
    + rewrite assoc_set_same in H. injection H as <-. right. exists n, attrs. split; [now left | auto].
    + rewrite assoc_set_other in H by exact Hn. auto.
  - right. exists m, a. split; [now right | exact H2].
Qed.
Lemma load_params h l : assoc h (cs_parameters (load hash fuel template)) = Some l ->
  exists name attrs, In (name, VDict attrs) parameters /\ assoc "AllowedValues" attrs = Some (VList l) /\ h = hash (VDict [("Ref", VStr name)]).
Proof using params_of.
  unfold load. rewrite section_get_parameters.
  destruct (vget_def "Conditions" (VDict []) template) as [[| | | | | |cd]|]; try discriminate.
  destruct (load_conditions _ _ _ _ _) as [cs [|]]; [|discriminate]. cbn [cs_parameters].
  intros H. apply load_parameters_from in H as [H|H]; [discriminate | exact H].
Qed.

(** * Which function calls the conditions have in common *)
Lemma match_equals_spec i : forall m sh, infl_ok i -> infl_ok m ->
  match_equals i m sh = (infl_merge i m, sh || existsb (fun kv => mem_assoc (fst kv) m) i).
Proof.
  induction i as [|[k vs] i IH]; intros m sh Hi Hm; cbn [match_equals infl_merge fold_left existsb fst snd].
  - now rewrite orb_false_r.
  - destruct Hi as [Hi1 Hi2]. inversion Hi1 as [|? ? Hk Hn]; subst.
    assert (Hvs : vs <> []). { apply (Hi2 k vs). cbn. now rewrite String.eqb_refl. }
    rewrite IH; [|split; [exact Hn|]|now apply infl_add_ok].
    + f_equal. rewrite <- orb_assoc. f_equal.
      assert (Hf : negb (match assoc k m with Some (_ :: _) => false | _ => true end) = mem_assoc k m).
      { unfold mem_assoc. destruct (assoc k m) as [[|]|] eqn:E; try reflexivity. apply Hm in E as [E _]. congruence. }
      rewrite Hf. f_equal. apply Bool.eq_true_iff_eq. rewrite !existsb_exists.
      split; intros [[k' vs'] [H1 H2]]; exists (k', vs'); (split; [exact H1|]); cbn [fst] in *; apply mem_assoc_iff; apply mem_assoc_iff in H2.
      * apply infl_add_keys in H2 as [H2| ->]; [exact H2|]. exfalso. apply Hk. change k with (fst (k, vs')). now apply in_map.
      * apply infl_add_keys. now left.
    + intros k' s' Ha. apply (Hi2 k' s'). cbn [assoc]. destruct (String.eqb_spec k' k) as [->|]; [|exact Ha].
      exfalso. apply Hk. apply assoc_Some_key. eauto.
Qed.

Notation conds := (cs_conditions (load hash fuel template)).

(** The conditions asked about. *)
Variable names : list string.
Hypothesis names_loaded : forall n, In n names -> mem_assoc n conds = true.
Hypothesis names_wf : forall n, In n names -> exists v, assoc n defs = Some v /\ well_formed defs v.

Lemma name_term n : In n names -> exists t v, assoc n conds = Some t /\ condition_named hash fuel template n = Ok t /\
  assoc n defs = Some v /\ infl_good hash defs v (infl_of t).
Proof.
  intros H. assert (Hl := names_loaded n H). unfold mem_assoc in Hl. destruct (assoc n conds) as [t|] eqn:E; [|discriminate].
  destruct (names_wf n H) as [v [Hv [values [b Hb]]]]. exists t, v. split; [reflexivity|]. apply load_named in E.
  split; [exact E|]. split; [exact Hv|]. exact (proj2 (c15_built hash template defs defs_of values fuel n v t b Hv E Hb)).
Qed.

Definition infl_name (n : string) : influenced := match assoc n conds with Some t => infl_of t | None => [] end.
Lemma infl_name_ok n : In n names -> infl_ok (infl_name n).
Proof. intros H. destruct (name_term n H) as [t [v [H1 [_ [_ [H2 _]]]]]]. unfold infl_name. now rewrite H1. Qed.

Lemma match_conditions_spec ns : forall m sh, infl_ok m -> (forall n, In n ns -> In n names) ->
  exists m' sh', match_conditions conds ns m sh = Some (m', sh') /\ infl_ok m' /\
    (forall k x, infl_has m' k x <-> infl_has m k x \/ exists n, In n ns /\ infl_has (infl_name n) k x) /\
    (forall k, In k (keys m') <-> In k (keys m) \/ exists n, In n ns /\ In k (keys (infl_name n))) /\
    (sh = true -> sh' = true) /\
    (forall n k, In n ns -> In k (keys (infl_name n)) -> In k (keys m) -> sh' = true) /\
    (forall n1 n2 k, In n1 ns -> In n2 ns -> n1 <> n2 -> In k (keys (infl_name n1)) -> In k (keys (infl_name n2)) -> sh' = true).
Proof.
  induction ns as [|n ns IH]; intros m sh Hm Hin; cbn [match_conditions].
  - exists m, sh. split; [reflexivity|]. split; [exact Hm|]. split; [|split; [|split; [auto|split]]].
    + intros k x. split; [auto|]. intros [H|[n [[] _]]]; exact H.
    + intros k. split; [auto|]. intros [H|[n [[] _]]]; exact H.
    + intros n k [].
    + intros n1 n2 k [].
  - assert (Hn : In n names) by (apply Hin; now left). assert (Hok := infl_name_ok n Hn).
    destruct (name_term n Hn) as [t [v [Ht _]]].
    assert (Ei : infl_of t = infl_name n) by (unfold infl_name; now rewrite Ht). rewrite Ht, Ei, match_equals_spec by assumption.
    set (sh1 := sh || existsb (fun kv => mem_assoc (fst kv) m) (infl_name n)).
    assert (Hsh1 : forall k, In k (keys (infl_name n)) -> In k (keys m) -> sh1 = true).
    { intros k H1 H2. unfold sh1. apply orb_true_iff. right. apply existsb_exists.
      apply in_map_iff in H1 as [[k' vs] [<- H1]]. exists (k', vs). split; [exact H1|]. now apply mem_assoc_iff. }
    destruct (IH (infl_merge (infl_name n) m) sh1) as [m' [sh' [E [F1 [F2 [F3 [F4 [F5 F6]]]]]]]].
    + now apply infl_merge_ok.
    + intros x Hx. apply Hin. now right.
    + exists m', sh'. split; [exact E|]. split; [exact F1|]. split; [|split; [|split; [|split]]].
      * intros k x. rewrite F2, infl_merge_has by apply Hok. split.
        -- intros [[H|H]|[n' [H1 H2]]]; [now left | right; exists n; split; [now left | exact H] | right; exists n'; split; [now right | exact H2]].
        -- intros [H|[n' [[<-|H1] H2]]]; [auto | auto | right; eauto].
      * intros k. rewrite F3, infl_merge_keys. split.
        -- intros [[H|H]|[n' [H1 H2]]]; [now left | right; exists n; split; [now left | exact H] | right; exists n'; split; [now right | exact H2]].
        -- intros [H|[n' [[<-|H1] H2]]]; [auto | auto | right; eauto].
      * intros ->. apply F4. reflexivity.
      * intros n' k [<-|H1] H2 H3; [apply F4; eapply Hsh1; eauto|]. apply (F5 n' k H1 H2). apply infl_merge_keys. now left.
      * intros n1 n2 k [<-|H1] [<-|H2] Hne K1 K2.
        -- congruence.
        -- apply (F5 n2 k H2 K2). apply infl_merge_keys. now right.
        -- apply (F5 n1 k H1 K1). apply infl_merge_keys. now right.
        -- exact (F6 n1 n2 k H1 H2 Hne K1 K2).
Qed.

Lemma matched_spec : exists m sh, match_conditions conds names [] false = Some (m, sh) /\ infl_ok m /\
    (forall k x, infl_has m k x <-> exists n, In n names /\ infl_has (infl_name n) k x) /\
    (forall k, In k (keys m) -> exists c, k = hash c) /\
    (forall n1 n2 k, In n1 names -> In n2 names -> n1 <> n2 -> In k (keys (infl_name n1)) -> In k (keys (infl_name n2)) -> sh = true).
Proof.
  destruct (match_conditions_spec names [] false infl_ok_nil (fun n H => H)) as [m [sh [E [F1 [F2 [F3 [_ [_ F6]]]]]]]].
  exists m, sh. split; [exact E|]. split; [exact F1|]. split; [|split; [|exact F6]].
  - intros k x. rewrite F2. split; [intros [[s [H _]]|H]; [discriminate | exact H] | auto].
  - intros k Hk. apply F3 in Hk as [[]|[n [H1 H2]]]. destruct (name_term n H1) as [t [v [Ht [_ [_ [_ [_ Hg]]]]]]].
    apply Hg. unfold infl_name in H2. now rewrite Ht in H2.
Qed.

(** * All combinations *)
Lemma set_assoc_new {A} k (v : A) d : ~ In k (keys d) -> set_assoc k v d = d ++ [(k, v)].
Proof.
  induction d as [|[k' v'] d IH]; cbn; [reflexivity|]. intros H. destruct (String.eqb_spec k k') as [->|]; [tauto|].
  rewrite IH; [reflexivity | tauto].
Qed.
Definition nonempty {A} (l : list A) (d : A) : list A := match l with [] => [d] | _ => l end.
Definition step (n : string) (vs : list bool) (c : scenario) : list scenario := map (fun v => set_assoc n (Some v) c) vs.
Lemma multiply_conditions_start cur n vs : multiply_conditions cur n vs =
  flat_map (step n vs) (nonempty cur []).
Proof. destruct cur; [|reflexivity]. cbn. now rewrite app_nil_r. Qed.
Lemma in_nonempty {A} (l : list A) d x : In x l -> nonempty l d = l.
Proof. destruct l; [intros []|reflexivity]. Qed.
Lemma fold_conditions_in vs ns : forall cur (b : string -> bool) c, NoDup ns -> ns <> [] \/ cur <> [] ->
  (forall n, In n ns -> In (b n) vs) -> In c (nonempty cur []) -> (forall n, In n ns -> ~ In n (keys c)) ->
  In (c ++ scenario_of ns b) (fold_left (fun r n => multiply_conditions r n vs) ns cur).
Proof.
  induction ns as [|n ns IH]; intros cur b c Hn Hne Hb Hc Hk; cbn [fold_left].
  - destruct cur; [destruct Hne; congruence|]. unfold scenario_of. cbn [map]. now rewrite app_nil_r.
  - inversion Hn as [|? ? Hn1 Hn2]; subst. rewrite multiply_conditions_start.
    assert (Hin : In (c ++ [(n, Some (b n))])
       (flat_map (step n vs) (nonempty cur []))).
    { apply in_flat_map. exists c. split; [exact Hc|]. unfold step. apply in_map_iff. exists (b n). split; [|apply Hb; now left].
      apply set_assoc_new, Hk. now left. }
    assert (E : c ++ scenario_of (n :: ns) b = (c ++ [(n, Some (b n))]) ++ scenario_of ns b)
      by (unfold scenario_of; cbn [map]; now rewrite <- app_assoc).
    rewrite E. apply IH; [exact Hn2| | | |].
    + right. intros E2. match type of E2 with ?x = [] => change (In (c ++ [(n, Some (b n))]) x) in Hin end. rewrite E2 in Hin. destruct Hin.
    + intros m Hm. apply Hb. now right.
    + now rewrite (in_nonempty _ _ _ Hin).
    + intros m Hm. unfold keys. rewrite map_app, in_app_iff. cbn. intros [H|[H|[]]].
      * apply (Hk m); [now right | exact H].
      * subst m. contradiction.
Qed.
Lemma fold_conditions_only vs ns : forall cur r, NoDup ns -> vs <> [] ->
  (forall c n, In c cur -> In n ns -> ~ In n (keys c)) ->
  In r (fold_left (fun r n => multiply_conditions r n vs) ns cur) ->
  exists c b, In c (nonempty cur []) /\ r = c ++ scenario_of ns b /\ forall n, In n ns -> In (b n) vs.
Proof.
  induction ns as [|n ns IH]; intros cur r Hn Hv Hk Hr; cbn [fold_left] in Hr.
  - exists r, (fun _ => true). unfold scenario_of. cbn [map]. rewrite app_nil_r. split; [|split; [reflexivity | intros ? []]].
    destruct cur; [destruct Hr | exact Hr].
  - inversion Hn as [|? ? Hn1 Hn2]; subst. rewrite multiply_conditions_start in Hr.
    assert (Hk' : forall c m, In c (nonempty cur []) -> In m (n :: ns) -> ~ In m (keys c)).
    { intros c m Hc Hm. destruct cur; [destruct Hc as [<-|[]]; intros [] | eapply Hk; eauto]. }
    assert (Hel : forall c, In c (flat_map (step n vs) (nonempty cur [])) <->
        exists c0 v, In c0 (nonempty cur []) /\ In v vs /\ c = c0 ++ [(n, Some v)]).
    { intros c. rewrite in_flat_map. split.
      - intros [c0 [H1 H2]]. unfold step in H2. apply in_map_iff in H2 as [v [<- H2]]. exists c0, v. rewrite set_assoc_new; [auto|].
        apply (Hk' c0); [exact H1 | now left].
      - intros [c0 [v [H1 [H2 ->]]]]. exists c0. split; [exact H1|]. unfold step. apply in_map_iff. exists v. split; [|exact H2].
        apply set_assoc_new, (Hk' c0); [exact H1 | now left]. }
    apply IH in Hr; [|exact Hn2|exact Hv|].
    + destruct Hr as [c [b [H1 [-> H2]]]].
      assert (Hne : exists z, In z (flat_map (step n vs) (nonempty cur []))).
      { destruct vs as [|v0 vs']; [congruence|]. assert (exists c0, In c0 (nonempty cur [])) as [c0 Hc0]
          by (destruct cur as [|c1 ?]; [exists []; now left | exists c1; now left]).
        exists (c0 ++ [(n, Some v0)]). apply Hel. exists c0, v0. split; [exact Hc0|]. split; [now left | reflexivity]. }
      destruct Hne as [z Hz]. rewrite (in_nonempty _ _ _ Hz) in H1. apply Hel in H1 as [c0 [v [H3 [H4 ->]]]].
      exists c0, (fun m => if String.eqb m n then v else b m). split; [exact H3|]. split.
      * rewrite <- app_assoc. f_equal. unfold scenario_of. cbn [map app]. rewrite String.eqb_refl. f_equal.
        apply map_ext_in. intros m Hm. destruct (String.eqb_spec m n) as [->|]; [contradiction | reflexivity].
      * intros m [<-|Hm]; [now rewrite String.eqb_refl|]. destruct (String.eqb_spec m n); [subst; contradiction | now apply H2].
    + intros c m Hc Hm. apply Hel in Hc as [c0 [v [H3 [H4 ->]]]]. unfold keys. rewrite map_app, in_app_iff. cbn. intros [H|[H|[]]].
      * apply (Hk' c0 m H3); [now right | exact H].
      * subst m. contradiction.
Qed.

(** * Combinations of values *)
Lemma bad_not_in fc sets : ~ In ((fc ++ String.concat "" (order sets)) ++ ".bad")%string sets.
Proof using order order_perm.
  intros H. apply (Permutation_in _ (Permutation_sym (order_perm sets))) in H. apply length_concat_in in H.
  rewrite !length_app in H. cbn in H. clear - H. lia.
Qed.
Lemma extend_sets_in h sets : forall cur fc x, In x (extend_sets order cur h sets fc) ->
  exists c y, In c cur /\ x = set_assoc h y c.
Proof using order order_perm.
  induction cur as [|c cur IH]; intros fc x; cbn [extend_sets]; [intros []|].
  rewrite !in_app_iff, in_map_iff. intros [[y [<- H]]|[[<-|[]]|H]].
  - exists c, y. split; [now left | reflexivity].
  - eexists c, _. split; [now left | reflexivity].
  - apply IH in H as [c' [y [H1 ->]]]. exists c', y. split; [now right | reflexivity].
Qed.
Lemma extend_sets_hit h sets : forall cur fc c s, In c cur -> In s sets -> In (set_assoc h s c) (extend_sets order cur h sets fc).
Proof using order order_perm.
  induction cur as [|c cur IH]; intros fc c' s Hc Hs; cbn [extend_sets]; [destruct Hc|]. rewrite !in_app_iff.
  destruct Hc as [->|Hc]; [left; apply in_map_iff; exists s; split; [reflexivity|] | right; right; now apply IH].
  exact (Permutation_in _ (Permutation_sym (order_perm sets)) Hs).
Qed.
Lemma extend_sets_bad h sets : forall cur fc c, In c cur ->
  exists y, ~ In y sets /\ In (set_assoc h y c) (extend_sets order cur h sets fc).
Proof using order order_perm.
  induction cur as [|c cur IH]; intros fc c' Hc; cbn [extend_sets]; [destruct Hc|].
  destruct Hc as [->|Hc].
  - eexists. split; [apply (bad_not_in fc)|]. rewrite !in_app_iff. right. left. now left.
  - destruct (IH (fc ++ String.concat "" (order sets))%string c' Hc) as [y [H1 H2]]. exists y. split; [exact H1|]. rewrite !in_app_iff. auto.
Qed.

Lemma multiply_equals_start cur h sets pv : multiply_equals order cur h sets pv =
  match pv with
  | Some (p :: ps) => flat_map (fun c => map (fun s => set_assoc h s c) (allowed_strings (p :: ps))) (nonempty cur [])
  | _ => extend_sets order (nonempty cur []) h sets ""
  end.
Proof. reflexivity. Qed.

Variable pvals : list (string * list val).
Definition value_ok (h : string) (x : string) : Prop :=
  match assoc h pvals with Some (p :: ps) => In x (allowed_strings (p :: ps)) | _ => True end.

(** Whatever the real values are, some combination answers every comparison in the same way. *)
Lemma fold_equals_in (w : string -> string) matched : forall cur c, NoDup (keys matched) ->
  (forall h, In h (keys matched) -> value_ok h (w h)) -> In c (nonempty cur []) -> matched <> [] \/ cur <> [] ->
  exists sc, In sc (fold_left (fun r kv => multiply_equals order r (fst kv) (snd kv) (assoc (fst kv) pvals)) matched cur) /\
    (forall k, ~ In k (keys matched) -> assoc k sc = assoc k c) /\
    (forall h sets, In (h, sets) matched -> exists x, assoc h sc = Some x /\ forall s, In s sets -> String.eqb x s = String.eqb (w h) s) /\
    (forall k, In k (keys sc) -> In k (keys c) \/ In k (keys matched)).
Proof using order order_perm pvals.
  induction matched as [|[h sets] matched IH]; intros cur c Hn Hv Hc Hne; cbn [fold_left fst snd].
  - exists c. split; [destruct cur; [destruct Hne; congruence | exact Hc]|]. split; [reflexivity|]. split; [intros h sets []|auto].
  - inversion Hn as [|? ? Hh Hn']; subst.
    assert (Hstep : exists x, In (set_assoc h x c) (multiply_equals order cur h sets (assoc h pvals)) /\
                      forall s, In s sets -> String.eqb x s = String.eqb (w h) s).
    { assert (Hset : exists x, In (set_assoc h x c) (extend_sets order (nonempty cur []) h sets "") /\
                      forall s, In s sets -> String.eqb x s = String.eqb (w h) s).
      { destruct (in_dec string_dec (w h) sets) as [Hin|Hout].
        - exists (w h). split; [now apply extend_sets_hit | reflexivity].
        - destruct (extend_sets_bad h sets (nonempty cur []) "" c Hc) as [y [H1 H2]]. exists y. split; [exact H2|].
          intros s Hs. destruct (String.eqb_spec y s) as [->|]; [contradiction|].
          destruct (String.eqb_spec (w h) s) as [<-|]; [contradiction | reflexivity]. }
      specialize (Hv h (or_introl eq_refl)). unfold value_ok in Hv. rewrite multiply_equals_start.
      destruct (assoc h pvals) as [[|p ps]|]; [exact Hset| |exact Hset].
      exists (w h). split; [|reflexivity]. apply in_flat_map. exists c. split; [exact Hc|]. apply in_map_iff. now exists (w h). }
    destruct Hstep as [x [Hx1 Hx2]].
    destruct (IH (multiply_equals order cur h sets (assoc h pvals)) (set_assoc h x c) Hn') as [sc [H1 [H2 [H3 H4]]]].
    + intros h' Hh'. apply Hv. now right.
    + now rewrite (in_nonempty _ _ _ Hx1).
    + right. intros E. rewrite E in Hx1. destruct Hx1.
    + exists sc. split; [exact H1|]. split; [|split].
      * intros k Hk. rewrite H2; [|intros Hk'; apply Hk; now right]. apply assoc_set_other. intros ->. apply Hk. now left.
      * intros h' sets' [[= <- <-]|Hin]; [|now apply H3]. exists x. split; [|exact Hx2]. rewrite H2 by exact Hh. apply assoc_set_same.
      * intros k Hk. apply H4 in Hk as [Hk|Hk]; [|right; now right]. apply keys_set_in in Hk as [->|Hk]; [right; now left | now left].
Qed.
(** And every combination gives each call a value, an allowed one where values are restricted. *)
Lemma fold_equals_only matched : forall cur sc, NoDup (keys matched) ->
  (forall h p ps, In h (keys matched) -> assoc h pvals = Some (p :: ps) -> allowed_strings (p :: ps) <> []) ->
  In sc (fold_left (fun r kv => multiply_equals order r (fst kv) (snd kv) (assoc (fst kv) pvals)) matched cur) ->
  exists c, In c (nonempty cur []) /\
    (forall k, ~ In k (keys matched) -> assoc k sc = assoc k c) /\
    (forall h, In h (keys matched) -> exists x, assoc h sc = Some x /\ value_ok h x) /\
    (forall k, In k (keys sc) -> In k (keys c) \/ In k (keys matched)).
Proof using order order_perm pvals.
  induction matched as [|[h sets] matched IH]; intros cur sc Hn Hp Hin; cbn [fold_left fst snd] in Hin.
  - exists sc. split; [destruct cur; [destruct Hin | exact Hin]|]. split; [reflexivity|]. split; [intros h []|auto].
  - inversion Hn as [|? ? Hh Hn']; subst.
    apply IH in Hin as [c [H1 [H2 [H3 H4]]]]; [|exact Hn'|intros h' p ps Hh'; apply Hp; now right].
    assert (Hne : exists z, In z (multiply_equals order cur h sets (assoc h pvals))).
    { assert (exists c0, In c0 (nonempty cur [])) as [c0 Hc0] by (destruct cur as [|c1 ?]; [exists []; now left | exists c1; now left]).
      rewrite multiply_equals_start. specialize (Hp h).
      assert (Hb : exists z, In z (extend_sets order (nonempty cur []) h sets "")).
      { destruct (extend_sets_bad h sets _ "" c0 Hc0) as [y [_ Hy]]. eauto. }
      destruct (assoc h pvals) as [[|p ps]|]; [exact Hb| |exact Hb].
      specialize (Hp p ps (or_introl eq_refl) eq_refl). destruct (allowed_strings (p :: ps)) as [|x xs] eqn:E; [congruence|].
      exists (set_assoc h x c0). apply in_flat_map. exists c0. split; [exact Hc0|]. rewrite <- E. apply in_map_iff. exists x.
      split; [reflexivity|]. rewrite E. now left. }
    destruct Hne as [z Hz]. rewrite (in_nonempty _ _ _ Hz) in H1.
    assert (Hc : exists c0 x, In c0 (nonempty cur []) /\ c = set_assoc h x c0 /\ value_ok h x).
    { rewrite multiply_equals_start in H1. unfold value_ok.
      destruct (assoc h pvals) as [[|p ps]|].
      - apply extend_sets_in in H1 as [c0 [y [H5 ->]]]. eauto.
      - apply in_flat_map in H1 as [c0 [H5 H6]]. apply in_map_iff in H6 as [y [<- H6]]. eauto.
      - apply extend_sets_in in H1 as [c0 [y [H5 ->]]]. eauto. }
    destruct Hc as [c0 [x [H5 [-> H6]]]]. exists c0. split; [exact H5|]. split; [|split].
    + intros k Hk. rewrite H2; [|intros Hk'; apply Hk; now right]. apply assoc_set_other. intros ->. apply Hk. now left.
    + intros h' [<-|Hin]; [|now apply H3]. exists x. split; [|exact H6]. rewrite H2 by exact Hh. apply assoc_set_same.
    + intros k Hk. apply H4 in Hk as [Hk|Hk]; [|right; now right]. apply keys_set_in in Hk as [->|Hk]; [right; now left | now left].
Qed.

(** * Collecting *)
Lemma test_all_ok sc (b : string -> bool) ns : forall acc, NoDup ns -> (forall n, In n ns -> ~ In n (keys acc)) ->
  (forall n, In n ns -> exists t, assoc n conds = Some t /\ term_test t sc = Ok (Some (b n))) ->
  test_all conds ns sc acc = Ok (acc ++ scenario_of ns b).
Proof.
  induction ns as [|n ns IH]; intros acc Hn Hk H; cbn [test_all].
  - unfold scenario_of. cbn [map]. now rewrite app_nil_r.
  - inversion Hn as [|? ? Hn1 Hn2]; subst. destruct (H n) as [t [-> ->]]; [now left|]. cbn [bind].
    rewrite set_assoc_new by (apply Hk; now left). rewrite IH; [|exact Hn2| |intros m Hm; apply H; now right].
    + unfold scenario_of. cbn [map]. now rewrite <- app_assoc.
    + intros m Hm. unfold keys. rewrite map_app, in_app_iff. cbn. intros [H1|[H1|[]]].
      * apply (Hk m); [now right | exact H1].
      * subst m. contradiction.
Qed.
Lemma scenario_eqb_of ns b b' : NoDup ns -> scenario_eqb (scenario_of ns b) (scenario_of ns b') = true ->
  scenario_of ns b = scenario_of ns b'.
Proof.
  intros Hn H. unfold scenario_eqb in H. apply andb_true_iff in H as [_ H]. rewrite forallb_forall in H.
  apply map_ext_in. intros n Hin. f_equal. specialize (H (n, Some (b n))). cbn [fst snd] in H.
  assert (Ha : assoc n (scenario_of ns b') = Some (Some (b' n))).
  { apply assoc_NoDup.
    - unfold keys, scenario_of. rewrite map_map. cbn. now rewrite map_id.
    - apply in_map_iff. exists n. auto. }
  rewrite Ha in H. assert (E : opt_bool_eqb (Some (b n)) (Some (b' n)) = true).
  { apply H. apply in_map_iff. exists n. auto. }
  cbn in E. apply Bool.eqb_prop in E. now rewrite E.
Qed.
Lemma scenario_eqb_refl ns b : NoDup ns -> scenario_eqb (scenario_of ns b) (scenario_of ns b) = true.
Proof.
  intros Hn. unfold scenario_eqb. rewrite Nat.eqb_refl. cbn [andb]. apply forallb_forall. intros [k x] H.
  rewrite (assoc_NoDup k x); [|unfold keys, scenario_of; rewrite map_map; cbn; now rewrite map_id | exact H].
  apply in_map_iff in H as [n [[= <- <-] _]]. cbn. apply Bool.eqb_reflx.
Qed.
Lemma collect_spec ns (bs : list (string * string) -> string -> bool) : NoDup ns ->
  forall l acc, (forall sc, In sc l -> test_all conds ns sc [] = Ok (scenario_of ns (bs sc))) ->
  (forall r, In r acc -> exists b, r = scenario_of ns b) ->
  exists out, collect_scenarios conds ns l acc = Ok out /\
    forall r, In r out <-> In r acc \/ exists sc, In sc l /\ r = scenario_of ns (bs sc).
Proof.
  intros Hn. induction l as [|sc l IH]; intros acc Hl Ha; cbn [collect_scenarios].
  - exists acc. split; [reflexivity|]. intros r. split; [auto|]. intros [H|[sc [[] _]]]; exact H.
  - rewrite Hl by (now left). cbn [bind].
    destruct (existsb (scenario_eqb (scenario_of ns (bs sc))) acc) eqn:E.
    + destruct (IH acc) as [out [H1 H2]]; [intros; apply Hl; now right | exact Ha |]. exists out. split; [exact H1|].
      intros r. rewrite H2. split.
      * intros [H|[sc' [H3 H4]]]; [auto|]. right. exists sc'. split; [now right | exact H4].
      * intros [H|[sc' [[<-|H3] ->]]]; [auto| |right; eauto]. left. apply existsb_exists in E as [r' [E1 E2]].
        destruct (Ha r' E1) as [b' ->]. apply scenario_eqb_of in E2; [|exact Hn]. now rewrite E2.
    + destruct (IH (acc ++ [scenario_of ns (bs sc)])) as [out [H1 H2]].
      * intros; apply Hl; now right.
      * intros r Hr. apply in_app_iff in Hr as [Hr|[<-|[]]]; eauto.
      * exists out. split; [exact H1|]. intros r. rewrite H2, in_app_iff. cbn [In]. split.
        -- intros [[H|[<-|[]]]|[sc' [H3 H4]]]; [auto | right; exists sc; auto | right; exists sc'; auto].
        -- intros [H|[sc' [[<-|H3] ->]]]; [auto | auto | right; eauto].
Qed.
End Hash.
