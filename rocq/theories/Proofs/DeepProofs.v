(** C76: what is left of values, and the scenarios of get_object_without_nested_conditions. *)
From Coq Require Import List Permutation Lia.
From Verif.Model Require Import Base Helpers Conditions Search Resolve.
From Verif.Spec Require Import Paths Branches ConditionUse Truth Resolved Groups Nested.
From Verif.Proofs Require Import BaseFacts SearchProofs ConditionProofs ScenarioMain ResolveProofs SetProofs RelationProofs PropertyRuleProofs NestedProofs.
Import ListNotations.
Local Open Scope string_scope.

Section Walks.
Variable sc : scenario.
Fixpoint rd_items (l : list val) : res (list val) :=
  match l with
  | [] => Ok []
  | x :: xs => do y <- resolve_deep sc x; do ys <- rd_items xs; Ok (if is_null y then ys else y :: ys)
  end.
Fixpoint rd_members (d : list (string * val)) : res (list (string * val)) :=
  match d with
  | [] => Ok []
  | (k, x) :: rest => do y <- resolve_deep sc x; do ys <- rd_members rest; Ok ((k, y) :: ys)
  end.
End Walks.
Lemma rd_list sc l : resolve_deep sc (VList l) = do l' <- rd_items sc l; Ok (VList l').
Proof. reflexivity. Qed.
Lemma rd_if sc c t e : resolve_deep sc (if_ c t e) =
  match decides sc c with
  | Some true => resolve_deep sc t
  | Some false => resolve_deep sc e
  | None => do d' <- rd_members sc [("Fn::If", VList [VStr c; t; e])]; Ok (VDict d')
  end.
Proof. reflexivity. Qed.
Lemma rd_object sc d : ~ In "Fn::If" (keys d) -> VDict d <> no_value -> resolve_deep sc (VDict d) = do d' <- rd_members sc d; Ok (VDict d').
Proof.
  intros Hk Hn. destruct d as [|[k x] [|y d]]; try reflexivity. cbn [resolve_deep].
  destruct (String.eqb_spec k "Fn::If") as [->|_]; [elim Hk; now left|].
  destruct (is_novalue k x) eqn:E; [|reflexivity]. unfold is_novalue in E. apply andb_true_iff in E as [E1 E2]. apply String.eqb_eq in E1 as ->.
  destruct x as [| | | |s| |]; try discriminate. cbn [eq_str] in E2. apply String.eqb_eq in E2 as <-. elim Hn. reflexivity.
Qed.
Scheme deep_mut := Induction for deep Sort Prop with deep_items_mut := Induction for deep_items Sort Prop with deep_members_mut := Induction for deep_members Sort Prop.
Combined Scheme deep_mutual from deep_mut, deep_items_mut, deep_members_mut.
Lemma deep_both decide :
  (forall v r, deep decide v r -> r <> Some VNull /\ forall sc, (forall n, decides sc n = decide n) -> resolve_deep sc v = Ok (left_over r)) /\
  (forall l l', deep_items decide l l' -> forall sc, (forall n, decides sc n = decide n) -> rd_items sc l = Ok l') /\
  (forall d d', deep_members decide d d' -> forall sc, (forall n, decides sc n = decide n) -> rd_members sc d = Ok d').
Proof.
  apply (deep_mutual decide
    (fun v r _ => r <> Some VNull /\ forall sc, (forall n, decides sc n = decide n) -> resolve_deep sc v = Ok (left_over r))
    (fun l l' _ => forall sc, (forall n, decides sc n = decide n) -> rd_items sc l = Ok l')
    (fun d d' _ => forall sc, (forall n, decides sc n = decide n) -> rd_members sc d = Ok d')); try (intros; split; [discriminate | intros; reflexivity]).
  - intros c t e r Hc _ [Hr IH]. split; [exact Hr|]. intros sc Hs. rewrite rd_if, Hs, Hc. now apply IH.
  - intros c t e r Hc _ [Hr IH]. split; [exact Hr|]. intros sc Hs. rewrite rd_if, Hs, Hc. now apply IH.
  - intros c t e l Hc _ IH. split; [discriminate|]. intros sc Hs. rewrite rd_if, Hs, Hc. cbn [rd_members]. rewrite rd_list, (IH sc Hs). reflexivity.
  - intros d d' Hk Hn _ IH. split; [discriminate|]. intros sc Hs. rewrite (rd_object sc d Hk Hn), (IH sc Hs). reflexivity.
  - intros l l' _ IH. split; [discriminate|]. intros sc Hs. rewrite rd_list, (IH sc Hs). reflexivity.
  - reflexivity.
  - intros x y l l' _ [Hy IH] _ IHl sc Hs. cbn [rd_items]. rewrite (IH sc Hs), (IHl sc Hs). cbn [bind left_over]. destruct y; try reflexivity. now elim Hy.
  - intros x l l' _ [_ IH] _ IHl sc Hs. cbn [rd_items]. rewrite (IH sc Hs), (IHl sc Hs). reflexivity.
  - reflexivity.
  - intros k x y d d' _ [_ IH] _ IHd sc Hs. cbn [rd_members]. rewrite (IH sc Hs), (IHd sc Hs). reflexivity.
  - intros k x d d' _ [_ IH] _ IHd sc Hs. cbn [rd_members]. rewrite (IH sc Hs), (IHd sc Hs). reflexivity.
Qed.
Lemma deep_computes decide v r sc : deep decide v r -> (forall n, decides sc n = decide n) -> resolve_deep sc v = Ok (left_over r).
Proof. intros H. now apply (proj1 (deep_both decide)). Qed.
Lemma is_no_value v : {v = no_value} + {v <> no_value}.
Proof.
  unfold no_value. destruct v as [| | | | | |d]; try (right; discriminate). destruct d as [|[k x] [|y d]]; try (right; discriminate).
  destruct (String.string_dec k "Ref") as [->|Hk]; [|right; congruence]. destruct x as [| | | |s| |]; try (right; discriminate).
  destruct (String.string_dec s "AWS::NoValue") as [->|Hs]; [now left | right; congruence].
Qed.
Lemma deep_total decide v : tidy v -> exists r, deep decide v r.
Proof.
  induction v as [v IH] using vsize_ind. intros Ht.
  assert (Hitems : forall l, (forall x, In x l -> vsize x < vsize v /\ tidy x) -> exists l', deep_items decide l l').
  { induction l as [|x l IHl]; intros Hl; [exists []; constructor|]. destruct IHl as [l' Hl']; [intros y Hy; apply Hl; now right|].
    destruct (Hl x (or_introl eq_refl)) as [Hx Hxt]. destruct (IH x Hx Hxt) as [[y|] Hy]; [exists (y :: l'); now constructor | exists l'; now constructor]. }
  destruct v as [|b|z|q|s|l|d]; try solve [eexists; constructor].
  - inversion Ht as [| | | | |l0 Hl| |]; subst. destruct (Hitems l) as [l' Hl']; [|eexists; constructor; exact Hl'].
    intros x Hx. split; [|now apply Hl]. clear -Hx. cbn [vsize]. induction l as [|y l IHl]; [destruct Hx|]. cbn [fold_right]. destruct Hx as [->|Hx]; [|apply IHl in Hx]; lia.
  - apply tidy_dict in Ht as [[c [t [e [E [Ht He]]]]]|[Hk Hm]].
    + rewrite E in *. destruct (decide c) as [[]|] eqn:Ec.
      * destruct (IH t) as [r Hr]; [unfold if_; cbn [vsize fold_right snd]; lia | exact Ht|]. exists r. now apply de_then.
      * destruct (IH e) as [r Hr]; [unfold if_; cbn [vsize fold_right snd]; lia | exact He|]. exists r. now apply de_else.
      * destruct (Hitems [VStr c; t; e]) as [l' Hl'].
        { intros x Hx. split; [|destruct Hx as [<-|[<-|[<-|[]]]]; [constructor | exact Ht | exact He]]. unfold if_. cbn [vsize fold_right snd]. destruct Hx as [<-|[<-|[<-|[]]]]; cbn [vsize]; lia. }
        eexists. now apply de_undecided with (l := l').
    + destruct (is_no_value (VDict d)) as [->|Hn]; [eexists; constructor|].
      assert (Hd : forall d0, (forall k x, In (k, x) d0 -> vsize x < vsize (VDict d) /\ tidy x) -> exists d', deep_members decide d0 d').
      { induction d0 as [|[k x] d0 IHd]; intros Hd0; [exists []; constructor|]. destruct IHd as [d' Hd']; [intros k' y Hy; apply (Hd0 k'); now right|].
        destruct (Hd0 k x (or_introl eq_refl)) as [Hx Hxt]. destruct (IH x Hx Hxt) as [[y|] Hy]; [exists ((k, y) :: d'); now constructor | exists ((k, VNull) :: d'); now constructor]. }
      destruct (Hd d) as [d' Hd']; [|eexists; apply de_object; eassumption].
      intros k x Hx. split; [|now apply (Hm k)]. clear -Hx. cbn [vsize]. induction d as [|[k' y] d IHd]; [destruct Hx|]. cbn [fold_right snd]. destruct Hx as [[= -> ->]|Hx]; [|apply IHd in Hx]; lia.
Qed.
Lemma deep_unique names b v r r' : NoDup names -> deep (known names b) v r -> deep (known names b) v r' -> r = r'.
Proof.
  intros Hn H H'. assert (K : forall n, decides (scenario_of names b) n = known names b n) by (intros n; now apply decides_known).
  pose proof (deep_computes _ _ _ _ H K) as E. rewrite (deep_computes _ _ _ _ H' K) in E.
  apply (proj1 (deep_both _)) in H as [H _]. apply (proj1 (deep_both _)) in H' as [H' _]. injection E as E. destruct r, r'; cbn in E; congruence.
Qed.

(** * The scenarios *)
Section Below.
Variables (template globals : val) (p : path) (v : val).
Hypothesis Hw : wf template.
Hypothesis Hg : wf globals.
Hypothesis Hp : at_path p template = Some v.
Hypothesis Hpl : plain_path p.
Hypothesis Hgp : at_path p globals = None.
Hypothesis Ht : tidy v.
Hypothesis Hv : is_dict v || is_list v = true.
Hypothesis Hnv : v <> no_value.

Lemma nested_plain order c : (forall n, ~ rests_on v n) -> get_object_without_nested_conditions order c template globals v p = Ok [(None, v)].
Proof using Hw Hg Hp Hpl Hgp Ht Hv Hnv.
  intros Hno. unfold get_object_without_nested_conditions, get_condition_scenarios_below_path. destruct (names_below template globals p v Hw Hg Hp Hpl Hgp Ht) as [cs [E [_ Hin]]]. rewrite E. cbn [bind fst snd].
  assert (K : keys cs = []) by (destruct (keys cs) as [|n l]; [reflexivity|]; elim (Hno n); apply Hin; now left). rewrite K.
  assert (Es : get_scenarios order c [] = Ok []) by (unfold get_scenarios; destruct (cs_conditions c); reflexivity). rewrite Es. cbn [bind]. rewrite Hv.
  clear -Hnv. destruct v as [| | | | | |d]; try reflexivity. destruct d as [|[k x] [|y d]]; try reflexivity. destruct (is_novalue k x) eqn:En; [|reflexivity].
  unfold is_novalue in En. apply andb_true_iff in En as [E1 E2]. apply String.eqb_eq in E1 as ->. destruct x as [| | | |s| |]; try discriminate. cbn [eq_str] in E2. apply String.eqb_eq in E2 as <-. now elim Hnv.
Qed.
Lemma nested_names names : NoDup names -> (forall n, In n names <-> rests_on v n) -> exists con, Permutation names con /\ NoDup con /\
  forall order c scs, get_scenarios order c con = Ok scs -> scs <> [] ->
    get_object_without_nested_conditions order c template globals v p = map_res (fun sc => rmap (fun o => (Some sc, o)) (resolve_deep sc v)) scs.
Proof using Hw Hg Hp Hpl Hgp Ht Hv Hnv.
  intros Hnd Hn. destruct (names_below template globals p v Hw Hg Hp Hpl Hgp Ht) as [cs [E [Hcd Hin]]]. exists (keys cs). split; [apply NoDup_Permutation; auto; intros n; now rewrite Hn, Hin|]. split; [exact Hcd|].
  intros order c scs Hs Hne. unfold get_object_without_nested_conditions, get_condition_scenarios_below_path. rewrite E. cbn [bind fst snd]. rewrite Hs. cbn [bind]. rewrite Hv. destruct scs; [contradiction | reflexivity].
Qed.
Lemma known_perm names con b : Permutation names con -> NoDup con -> forall n, decides (scenario_of con b) n = known names b n.
Proof.
  intros Hpm Hcd n. rewrite decides_known by exact Hcd. unfold known.
  destruct (smem n names) eqn:E1, (smem n con) eqn:E2; try reflexivity.
  - apply smem_iff in E1. apply (Permutation_in _ Hpm), smem_iff in E1. congruence.
  - apply smem_iff in E2. apply (Permutation_in _ (Permutation_sym Hpm)), smem_iff in E2. congruence.
Qed.
Lemma nested_found hash order defs parameters fuel w b names :
  (forall v, digest (hash v)) -> (forall l, Permutation (order l) l) ->
  section_of "Conditions" template defs -> section_of "Parameters" template parameters ->
  NoDup names -> names <> [] -> (forall n, In n names <-> rests_on v n) ->
  (forall n, In n names -> mem_assoc n (cs_conditions (load hash fuel template)) = true) ->
  (List.length names <= 4 \/ some_related defs names) ->
  deployment hash parameters w -> gives defs w names b ->
  exists out, get_object_without_nested_conditions order (load hash fuel template) template globals v p = Ok out /\
    forall r, deep (known names b) v r -> exists sc, In (Some sc, left_over r) out /\ Permutation sc (scenario_of names b).
Proof using Hw Hg Hp Hpl Hgp Ht Hv Hnv.
  intros Hh Ho Hc Hps Hnd Hne Hn Hl Hs Hdw Hgv. destruct (nested_names names Hnd Hn) as [con [Hpm [Hcd Hget]]].
  assert (Hin : forall n, In n con <-> In n names) by (intros n; split; [apply Permutation_in; now symmetry | now apply Permutation_in]).
  destruct (c16 hash order template defs parameters fuel con w b) as [scs [Hsc Hisc]]; auto.
  - intros E. rewrite E in Hpm. apply Permutation_sym, Permutation_nil in Hpm. contradiction.
  - intros n Hi. now apply Hl, Hin.
  - destruct Hs as [Hs|[n [n' [x [x' [H1 [H2 H3]]]]]]]; [left; now rewrite <- (Permutation_length Hpm)|]. right. exists n, n', x, x'. rewrite !Hin. auto.
  - intros n Hi. now apply Hgv, Hin.
  - rewrite (Hget order _ scs Hsc) by (intros ->; destruct Hisc).
    assert (Htot : forall sc, exists o, resolve_deep sc v = Ok o).
    { intros sc. destruct (deep_total (decides sc) v Ht) as [r Hr]. exists (left_over r). now apply (deep_computes _ _ _ _ Hr). }
    assert (Hm : forall scs, exists out, map_res (fun sc => rmap (fun o => (Some sc, o)) (resolve_deep sc v)) scs = Ok out /\ forall sc o, In sc scs -> resolve_deep sc v = Ok o -> In (Some sc, o) out).
    { clear -Htot. induction scs as [|sc scs [out [E IH]]]; [exists []; split; [reflexivity | intros ? ? []]|]. destruct (Htot sc) as [o Eo]. cbn [map_res]. rewrite Eo. cbn [rmap bind]. rewrite E. cbn [bind].
      eexists. split; [reflexivity|]. intros sc' o' [->|Hi] E'; [left; congruence | right; now apply IH]. }
    destruct (Hm scs) as [out [E Hout]]. exists out. split; [exact E|]. intros r Hr. exists (scenario_of con b). split; [|apply Permutation_map; now symmetry].
    apply Hout; [exact Hisc|]. apply (deep_computes _ _ _ _ Hr). now apply known_perm.
Qed.
Lemma nested_real hash order defs parameters names w0 b0 :
  (forall v, digest (hash v)) -> (forall l, Permutation (order l) l) ->
  section_of "Conditions" template defs -> section_of "Parameters" template parameters ->
  NoDup (keys defs) -> (forall n v, In (n, v) defs -> well_formed defs v) ->
  NoDup (keys parameters) -> (forall n p, In (n, p) parameters -> plain_parameter p) -> told_apart hash parameters ->
  NoDup names -> names <> [] -> (forall n, In n names <-> rests_on v n) -> (forall n, In n names -> In n (keys defs)) ->
  (List.length names <= 4 \/ some_related defs names) -> deployment hash parameters w0 -> gives defs w0 names b0 ->
  exists limit, forall fuel, limit <= fuel ->
  exists out, get_object_without_nested_conditions order (load hash fuel template) template globals v p = Ok out /\
    forall s o, In (s, o) out -> exists sc b r, s = Some sc /\ Permutation sc (scenario_of names b) /\ deep (known names b) v r /\ o = left_over r /\
      ((some_related defs names \/ forall n, In n names -> exists w, deployment hash parameters w /\ gives defs w [n] b) ->
       exists w, deployment hash parameters w /\ gives defs w names b).
Proof using Hw Hg Hp Hpl Hgp Ht Hv Hnv.
  intros Hh Ho Hc Hps Hcn Hcw Hpan Hpp Hta Hnd Hne Hn Hdef Hsz Hw0 Hg0. destruct (nested_names names Hnd Hn) as [con [Hpm [Hcd Hget]]].
  assert (Hin : forall n, In n con <-> In n names) by (intros n; split; [apply Permutation_in; now symmetry | now apply Permutation_in]).
  assert (Hrel : some_related defs names <-> some_related defs con).
  { split; intros [n [n' [x [x' [H1 [H2 H3]]]]]]; exists n, n', x, x'; (split; [now apply Hin | split; [now apply Hin | exact H3]]). }
  assert (Hcne : con <> []) by (intros E; rewrite E in Hpm; apply Permutation_sym, Permutation_nil in Hpm; contradiction).
  destruct (c17 hash order template defs parameters con) as [limit Hlim]; auto.
  { intros n Hi. now apply Hdef, Hin. }
  destruct (all_loaded hash template defs Hc Hcn Hcw) as [limit' Hlim'].
  exists (Nat.max limit limit'). intros fuel Hf. destruct (Hlim fuel ltac:(lia)) as [scs [Hsc [H1 H2]]].
  assert (Hscs : scs <> []).
  { destruct (c16 hash order template defs parameters fuel con w0 b0) as [scs' [Hsc' Hi]]; auto.
    - intros n Hi. apply Hlim'; [lia | now apply Hdef, Hin].
    - destruct Hsz as [Hsz|Hsz]; [left; now rewrite <- (Permutation_length Hpm) | right; now apply Hrel].
    - intros n Hi. now apply Hg0, Hin.
    - rewrite Hsc in Hsc'. injection Hsc' as ->. intros ->. destruct Hi. }
  rewrite (Hget order _ scs Hsc Hscs).
  assert (Hval : forall b, exists r, deep (known names b) v r /\ resolve_deep (scenario_of con b) v = Ok (left_over r)).
  { intros b. destruct (deep_total (known names b) v Ht) as [r Hr]. exists r. split; [exact Hr|]. apply (deep_computes _ _ _ _ Hr). now apply known_perm. }
  destruct (map_res (fun sc => rmap (fun o => (Some sc, o)) (resolve_deep sc v)) scs) as [out|e] eqn:E.
  - exists out. split; [reflexivity|]. intros s o Hso. apply map_res_inv in E.
    assert (Hsco : exists sc, In sc scs /\ s = Some sc /\ resolve_deep sc v = Ok o).
    { clear -E Hso. induction E as [|sc so scs out Hx _ IH]; [destruct Hso|]. destruct Hso as [->|Hso].
      - exists sc. split; [now left|]. destruct (resolve_deep sc v); cbn [rmap] in Hx; [injection Hx as <- <-; auto | discriminate].
      - destruct (IH Hso) as [sc' [Hi K]]. exists sc'. split; [now right | exact K]. }
    destruct Hsco as [sc [Hi [-> Eo]]]. destruct (H1 sc Hi) as [b [-> Hb]]. destruct (Hval b) as [r [Hr Er]]. rewrite Er in Eo. injection Eo as <-.
    exists (scenario_of con b), b, r. split; [reflexivity|]. split; [apply Permutation_map; now symmetry|]. split; [exact Hr|]. split; [reflexivity|]. intros [Hrr|Hrr].
    + destruct (H2 (proj1 Hrel Hrr) _ Hi) as [b' [w [Eb [Hw' Hg']]]]. exists w. split; [exact Hw'|]. intros n Hi'.
      assert (b n = b' n) as ->; [|now apply Hg', Hin].
      pose proof (decides_scenario con b n Hcd (proj2 (Hin n) Hi')) as K1. pose proof (decides_scenario con b' n Hcd (proj2 (Hin n) Hi')) as K2. rewrite Eb in K1. congruence.
    + destruct Hb as [w [Hw' Hg']]; [intros n Hi'; now apply Hrr, Hin|]. exists w. split; [exact Hw'|]. intros n Hi'. now apply Hg', Hin.
  - exfalso. clear -E H1 Hval. revert E. assert (K : exists out, map_res (fun sc => rmap (fun o => (Some sc, o)) (resolve_deep sc v)) scs = Ok out); [|destruct K as [out ->]; discriminate].
    induction scs as [|sc scs IH]; [exists []; reflexivity|]. destruct IH as [out Eo]; [intros r Hr; apply H1; now right|]. destruct (H1 sc (or_introl eq_refl)) as [b [-> _]]. destruct (Hval b) as [r [_ Er]].
    cbn [map_res]. rewrite Er. cbn [rmap bind]. rewrite Eo. cbn [bind]. eauto.
Qed.
Lemma nested_both hash order defs parameters names w0 b0 :
  (forall v, digest (hash v)) -> (forall l, Permutation (order l) l) ->
  section_of "Conditions" template defs -> section_of "Parameters" template parameters ->
  NoDup (keys defs) -> (forall n v, In (n, v) defs -> well_formed defs v) ->
  NoDup (keys parameters) -> (forall n p, In (n, p) parameters -> plain_parameter p) -> told_apart hash parameters ->
  NoDup names -> names <> [] -> (forall n, In n names <-> rests_on v n) -> (forall n, In n names -> In n (keys defs)) ->
  (List.length names <= 4 \/ some_related defs names) -> deployment hash parameters w0 -> gives defs w0 names b0 ->
  exists limit, forall fuel, limit <= fuel ->
  exists out, get_object_without_nested_conditions order (load hash fuel template) template globals v p = Ok out /\
    (forall s o, In (s, o) out -> exists sc b r, s = Some sc /\ Permutation sc (scenario_of names b) /\ deep (known names b) v r /\ o = left_over r /\
      ((some_related defs names \/ forall n, In n names -> exists w, deployment hash parameters w /\ gives defs w [n] b) ->
       exists w, deployment hash parameters w /\ gives defs w names b)) /\
    (forall w b r, deployment hash parameters w -> gives defs w names b -> deep (known names b) v r -> exists sc, In (Some sc, left_over r) out /\ Permutation sc (scenario_of names b)).
Proof using Hw Hg Hp Hpl Hgp Ht Hv Hnv.
  intros Hh Ho Hc Hps Hcn Hcw Hpan Hpp Hta Hnd Hne Hn Hdef Hsz Hw0 Hg0.
  destruct (nested_real hash order defs parameters names w0 b0) as [limit Hlim]; auto.
  destruct (all_loaded hash template defs Hc Hcn Hcw) as [limit' Hlim'].
  exists (Nat.max limit limit'). intros fuel Hf. destruct (Hlim fuel ltac:(lia)) as [out [E Hout]]. exists out. split; [exact E|]. split; [exact Hout|].
  intros w b r Hdw Hgv Hd. destruct (nested_found hash order defs parameters fuel w b names) as [out' [E' Hout']]; auto.
  - intros n Hi. apply Hlim'; [lia | now apply Hdef].
  - rewrite E in E'. injection E' as <-. now apply Hout'.
Qed.
End Below.
