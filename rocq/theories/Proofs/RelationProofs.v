(** Proofs about Model/Relationship.v and the path walk of Model/Resolve.v (C33). *)
From Coq Require Import Permutation Lia.
From Verif.Model Require Import Base Helpers Conditions Search Resolve Rules Relationship.
From Verif.Spec Require Import Truth Resolved.
From Verif.Proofs Require Import BaseFacts ConditionProofs ScenarioMain ResolveProofs.

Definition has (r : list (string * taken)) (c : string) (b : bool) : Prop :=
  exists k, assoc c r = Some k /\ (if b then t_true k else t_false k) = true.
Definition no_empty (r : list (string * taken)) : Prop := forall c k, assoc c r = Some k -> t_true k || t_false k = true.

Lemma has_in r c b : has r c b -> In c (keys r).
Proof. intros [k [H _]]. apply assoc_Some_key. eauto. Qed.
Lemma in_has r c : no_empty r -> In c (keys r) -> exists b, has r c b.
Proof.
  intros Hn Hi. apply assoc_Some_key in Hi as [k Hk]. specialize (Hn c k Hk). apply orb_true_iff in Hn as [H|H]; [exists true | exists false]; exists k; auto.
Qed.

Lemma add_taken_has k t r c b : has (add_taken k t r) c b <-> has r c b \/ (c = k /\ (if b then t_true t else t_false t) = true).
Proof.
  unfold add_taken, has. destruct (String.eqb_spec c k) as [->|Hck].
  - destruct (assoc k r) as [t'|] eqn:E; rewrite assoc_set_same.
    + split.
      * intros [x [[= <-] Hx]]. destruct b; cbn [taken_union t_true t_false] in Hx; apply orb_true_iff in Hx as [Hx|Hx]; eauto.
      * intros [[x [[= <-] Hx]]|[_ Hx]]; eexists; (split; [reflexivity|]); destruct b; cbn [taken_union t_true t_false]; rewrite Hx; auto with bool.
    + split; [intros [x [[= <-] Hx]]; auto|]. intros [[x [H _]]|[_ Hx]]; [discriminate | eauto].
  - assert (E : assoc c match assoc k r with Some t' => set_assoc k (taken_union t' t) r | None => set_assoc k t r end = assoc c r)
      by (destruct (assoc k r); now apply assoc_set_other).
    rewrite E. split; [now left | intros [H|[H _]]; [exact H | contradiction]].
Qed.
Lemma add_taken_no_empty k t r : no_empty r -> t_true t || t_false t = true -> no_empty (add_taken k t r).
Proof.
  intros Hr Ht c x. unfold add_taken. destruct (String.eqb_spec c k) as [->|Hck].
  - destruct (assoc k r) as [t'|] eqn:E; rewrite assoc_set_same; intros [= <-]; [|exact Ht].
    specialize (Hr k t' E). cbn. destruct (t_true t'), (t_false t'), (t_true t), (t_false t); auto.
  - destruct (assoc k r); rewrite assoc_set_other by exact Hck; apply Hr.
Qed.
Lemma add_taken_NoDup k t r : NoDup (keys r) -> NoDup (keys (add_taken k t r)).
Proof. intros H. unfold add_taken. destruct (assoc k r); now apply keys_set_NoDup. Qed.

Lemma add_all_has child : forall r c b,
  NoDup (keys child) ->
  has (fold_left (fun r kt => add_taken (fst kt) (snd kt) r) child r) c b <-> has r c b \/ has child c b.
Proof.
  induction child as [|[k t] child IH]; intros r c b Hn; cbn [fold_left fst snd].
  - split; [now left | intros [H|[x [H _]]]; [exact H | discriminate]].
  - cbn in Hn. inversion Hn; subst. rewrite IH by assumption. rewrite add_taken_has. unfold has at 4. cbn [assoc].
    split.
    + intros [[H|[-> H]]|H]; [now left | right; exists t; now rewrite String.eqb_refl |].
      right. destruct H as [x [Hx Hb]]. exists x. destruct (String.eqb_spec c k) as [->|_]; [|auto].
      destruct H1. apply assoc_Some_key. eauto.
    + intros [H|[x [Hx Hb]]]; [auto|]. destruct (String.eqb_spec c k) as [->|_].
      * injection Hx as <-. auto.
      * right. exists x. auto.
Qed.
Lemma add_all_no_empty child : forall r, no_empty r -> (forall c k, In (c, k) child -> t_true k || t_false k = true) ->
  no_empty (fold_left (fun r kt => add_taken (fst kt) (snd kt) r) child r).
Proof.
  induction child as [|[k t] child IH]; intros r Hr H; cbn [fold_left fst snd]; [exact Hr|]. apply IH; [|intros c x Hx; apply (H c); now right].
  apply add_taken_no_empty; [exact Hr|]. apply (H k). now left.
Qed.
Lemma add_all_NoDup child : forall r, NoDup (keys r) -> NoDup (keys (fold_left (fun r kt => add_taken (fst kt) (snd kt) r) child r)).
Proof. induction child as [|[k t] child IH]; intros r Hr; cbn [fold_left]; [exact Hr|]. apply IH. now apply add_taken_NoDup. Qed.

Definition found (r : list (string * taken)) (Q : string -> bool -> Prop) : Prop :=
  NoDup (keys r) /\ no_empty r /\ forall c b, has r c b <-> Q c b.
Lemma found_nil : found [] (fun _ _ => False).
Proof. split; [constructor|]. split; [intros c k; discriminate|]. intros c b. split; [intros [k [H _]]; discriminate | intros []]. Qed.
Lemma found_one s b0 : found [(s, mkTaken b0 (negb b0))] (fun c b => c = s /\ b = b0).
Proof.
  split; [repeat constructor; intros []|]. split.
  - intros c k H. cbn in H. destruct (String.eqb c s); [injection H as <-; now destruct b0 | discriminate].
  - intros c b. unfold has. cbn [assoc]. destruct (String.eqb_spec c s) as [->|Hc].
    + split; [intros [k [[= <-] H]]; split; [reflexivity|]; destruct b, b0; cbn in H; congruence | intros [_ ->]; eexists; split; [reflexivity|]; now destruct b0].
    + split; [intros [k [H _]]; discriminate | intros [H _]; contradiction].
Qed.
Lemma found_add r q P Q : found r P -> found q Q -> found (fst (add_conds (r, true) (q, true))) (fun c b => P c b \/ Q c b).
Proof.
  intros [R1 [R2 R3]] [Q1 [Q2 Q3]]. cbn [add_conds fst snd]. split; [now apply add_all_NoDup|]. split.
  - apply add_all_no_empty; [exact R2|]. intros c k Hi. apply (Q2 c). now apply assoc_NoDup.
  - intros c b. rewrite add_all_has by exact Q1. now rewrite R3, Q3.
Qed.
Lemma found_ext r P Q : (forall c b, P c b <-> Q c b) -> found r P -> found r Q.
Proof. intros H [R1 [R2 R3]]. split; [exact R1|]. split; [exact R2|]. intros c b. rewrite R3. apply H. Qed.

Lemma from_path_plain text pe rest only inc : root_condition text (pe :: rest) only = Ok no_conds ->
  rest <> [] -> (forall k, pe = PKey k -> inc = true \/ smem k FUNCTIONS && negb (String.eqb k "Fn::If") = false) ->
  conditions_from_path text (pe :: rest) inc only =
  match step text pe with
  | Err EKey => Ok no_conds
  | Err e => Err e
  | Ok x => do child <- conditions_from_path x rest inc only; Ok (add_conds no_conds child)
  end.
Proof.
  intros Hr Hne Hf. cbn [conditions_from_path]. rewrite Hr. destruct rest as [|r0 rest]; [contradiction|].
  replace ((match pe with PKey k => smem k FUNCTIONS && negb (String.eqb k "Fn::If") | _ => false end) && negb inc) with false; [reflexivity|].
  destruct pe as [k|]; [|reflexivity]. destruct (Hf k eq_refl) as [->| ->]; [now rewrite andb_false_r | reflexivity].
Qed.

Lemma passes_nil v c b : ~ passes v [] c b.
Proof. intros H. inversion H. Qed.

(** The walk finds exactly the branches the path goes through. *)
Lemma walk v p : place v p -> p <> [] ->
  exists r, conditions_from_path v p true false = Ok (r, true) /\ found r (passes v p).
Proof.
  induction 1 as [v|d c t e i x p Hd Hi Hp IH|d k x p Hk Hd Hp IH|l i x p Hl Hp IH]; intros Hne; [contradiction| | |]; clear Hne.
  - (* through an If *)
    assert (Hinner : exists r2, conditions_from_path (VList [VStr c; t; e]) (PIdx i :: p) true false = Ok (r2, true) /\
              found r2 (passes (VList [VStr c; t; e]) (PIdx i :: p))).
    { destruct p as [|p0 p].
      - exists []. split; [reflexivity|]. eapply found_ext; [|apply found_nil]. intros n b. split; [intros [] | intros H; inversion H; subst].
        match goal with H : passes _ [] _ _ |- _ => now apply passes_nil in H end.
      - destruct IH as [r [Hr Hf]]; [discriminate|]. rewrite from_path_plain; [|reflexivity|discriminate|discriminate].
        cbn [step]. rewrite Hi, Hr. cbn [bind]. eexists. split; [reflexivity|].
        eapply found_ext; [|apply (found_add [] r _ _ found_nil Hf)]. intros n b. split.
        + intros [[]|H]. econstructor; eauto.
        + intros H. inversion H; subst. right. assert (x0 = x) as -> by congruence. assumption. }
    destruct Hinner as [r2 [Hr2 Hf2]].
    assert (Hroot : exists r1, root_condition (VDict d) (PKey "Fn::If" :: PIdx i :: p) false = Ok (r1, true) /\
              found r1 (fun n b => n = c /\ (i = 1 /\ b = true \/ i = 2 /\ b = false))).
    { unfold root_condition. change (String.eqb "Fn::If" "Fn::If") with true. cbn [andb orb negb vget]. rewrite Hd. cbn [bind].
      destruct i as [|[|[|i]]].
      - eexists. split; [reflexivity|]. eapply found_ext; [|apply found_nil]. intros n b. split; [intros []|]. intros [_ [[? _]|[? _]]]; discriminate.
      - eexists. split; [reflexivity|]. eapply found_ext; [|apply (found_one c true)]. intros n b. cbn. split; [intros [-> ->]; auto|].
        intros [-> [[_ ->]|[? _]]]; [auto | discriminate].
      - eexists. split; [reflexivity|]. eapply found_ext; [|apply (found_one c false)]. intros n b. cbn. split; [intros [-> ->]; auto|].
        intros [-> [[? _]|[_ ->]]]; [discriminate | auto].
      - cbn in Hi. destruct i; discriminate. }
    destruct Hroot as [r1 [Hr1 Hf1]]. cbn [conditions_from_path]. rewrite Hr1. rewrite andb_false_r.
    change (step (VDict d) (PKey "Fn::If")) with (match assoc "Fn::If" d with Some x => Ok x | None => Err EKey end). rewrite Hd.
    cbn [conditions_from_path] in Hr2. rewrite Hr2. cbn [bind]. eexists. split; [reflexivity|].
    eapply found_ext; [|apply (found_add _ _ _ _ Hf1 Hf2)]. intros n b. cbv beta. split.
    + intros [[-> [[-> ->]|[-> ->]]]|H]; [eapply ps_then; eauto | eapply ps_else; eauto | eapply ps_key; eauto].
    + intros H. inversion H; subst.
      * assert (E : c = n) by congruence. auto.
      * assert (E : c = n) by congruence. auto.
      * right. match goal with H : assoc "Fn::If" d = Some ?y |- _ => assert (y = VList [VStr c; t; e]) as -> by congruence end. assumption.
  - assert (Hroot : forall q, root_condition (VDict d) (PKey k :: q) false = Ok no_conds).
    { intros q. unfold root_condition. destruct (String.eqb_spec k "Fn::If"); [contradiction | reflexivity]. }
    assert (Hps : forall n b, passes (VDict d) (PKey k :: p) n b <-> passes x p n b).
    { intros n b. split; [intros H; inversion H; subst; try contradiction; assert (x0 = x) as -> by congruence; assumption | intros H; eapply ps_key; eauto]. }
    destruct p as [|p0 p].
    + exists []. cbn [conditions_from_path]. rewrite Hroot. split; [reflexivity|]. eapply found_ext; [|apply found_nil].
      intros n b. rewrite Hps. split; [intros [] | apply passes_nil].
    + destruct IH as [r [Hr Hf]]; [discriminate|]. rewrite from_path_plain; [|apply Hroot|discriminate|auto].
      cbn [step]. rewrite Hd, Hr. cbn [bind]. eexists. split; [reflexivity|].
      eapply found_ext; [|apply (found_add [] r _ _ found_nil Hf)]. intros n b. rewrite Hps. tauto.
  - assert (Hps : forall n b, passes (VList l) (PIdx i :: p) n b <-> passes x p n b).
    { intros n b. split; [intros H; inversion H; subst; assert (x0 = x) as -> by congruence; assumption | intros H; eapply ps_item; eauto]. }
    destruct p as [|p0 p].
    + exists []. split; [reflexivity|]. eapply found_ext; [|apply found_nil]. intros n b. rewrite Hps. split; [intros [] | apply passes_nil].
    + destruct IH as [r [Hr Hf]]; [discriminate|]. rewrite from_path_plain; [|reflexivity|discriminate|discriminate].
      cbn [step]. rewrite Hl, Hr. cbn [bind]. eexists. split; [reflexivity|].
      eapply found_ext; [|apply (found_add [] r _ _ found_nil Hf)]. intros n b. rewrite Hps. tauto.
Qed.

Lemma condition_of_unique section name template c c' : condition_of section name template c -> condition_of section name template c' -> c = c'.
Proof. intros [d [s [o [-> [H1 [H2 [H3 _]]]]]]] [d' [s' [o' [[= <-] [H1' [H2' [H3' _]]]]]]]. congruence. Qed.

Lemma path_needs template p : place template p -> p <> [] -> plain_conditions template ->
  exists r, get_conditions_from_path template p true true false = Ok (r, true) /\ found r (needs template p).
Proof.
  intros Hp Hne [d [-> Hpl]]. destruct (walk _ _ Hp Hne) as [r [Hr Hf]]. unfold get_conditions_from_path. rewrite Hr. cbn [bind].
  assert (Hno : (forall section name rest, p = PKey section :: PKey name :: rest -> In section ["Resources"; "Outputs"] -> forall c, ~ condition_of section name (VDict d) c) ->
    found r (needs (VDict d) p)).
  { intros H. eapply found_ext; [|exact Hf]. intros c b. unfold needs. split; [now left|].
    intros [Hc|[_ [s [n [rest [E [Hs Hc]]]]]]]; [exact Hc|]. now destruct (H s n rest E Hs c). }
  destruct p as [|[section|i] p]; [contradiction| |exists r; split; [reflexivity|]; apply Hno; intros; discriminate].
  destruct p as [|[name|j] p]; [exists r; split; [reflexivity|]; apply Hno; intros; discriminate| |].
  - destruct (smem section ["Resources"; "Outputs"]) eqn:Es.
    + apply smem_iff in Es. cbn [vget_def].
      assert (Hx : exists s, assoc section d = Some s /\ place s (PKey name :: p)).
      { inversion Hp; subst; eauto. }
      destruct Hx as [s [Hs Hps]]. destruct (Hpl section s Es Hs) as [m [-> Hm]]. rewrite Hs. cbn [bind vget_def].
      assert (Hx : exists x, assoc name m = Some x).
      { inversion Hps; subst; eauto. }
      destruct Hx as [x Hx]. destruct (Hm name x Hx) as [o [-> Hc]]. rewrite Hx. cbn [bind vget].
      destruct Hc as [Hc|[c Hc]]; rewrite Hc; cbn [bind]; unfold add_resource_condition; cbn [truthy].
      * exists r. split; [reflexivity|]. apply Hno. intros s0 n0 rest [= <- <- <-] _ c [d0 [s1 [o0 [[= <-] [E1 [E2 [E3 _]]]]]]]. congruence.
      * destruct (String.eqb_spec c "") as [->|Hcne]; cbn [negb fst snd].
        -- exists r. split; [reflexivity|]. apply Hno. intros s0 n0 rest [= <- <- <-] _ c [d0 [s1 [o0 [[= <-] [E1 [E2 [E3 E4]]]]]]]. congruence.
        -- exists (add_taken c (mkTaken true false) r). split; [reflexivity|].
           destruct Hf as [F1 [F2 F3]]. split; [now apply add_taken_NoDup|]. split; [now apply add_taken_no_empty|].
           intros n b. rewrite add_taken_has, F3. unfold needs. split.
           ++ intros [H|[-> H]]; [now left|]. destruct b; [|discriminate]. right. split; [reflexivity|].
              exists section, name, p. split; [reflexivity|]. split; [exact Es|]. exists d, m, o. auto.
           ++ intros [H|[-> [s0 [n0 [rest [[= <- <- <-] [_ [d0 [s1 [o0 [[= <-] [E1 [E2 [E3 E4]]]]]]]]]]]]]]; [now left|].
              right. cbn. split; [congruence | reflexivity].
    + exists r. split; [reflexivity|]. apply Hno. intros s0 n0 rest [= <- <- <-] H. apply smem_iff in H. congruence.
  - destruct (smem section ["Resources"; "Outputs"]) eqn:Es.
    + apply smem_iff in Es.
      assert (Hx : exists s, assoc section d = Some s /\ forall m, s <> VDict m).
      { inversion Hp; subst.
        - eexists. split; [eassumption | discriminate].
        - match goal with H : place ?s (PIdx j :: p) |- _ => inversion H; subst end. eexists. split; [eassumption | discriminate]. }
      destruct Hx as [s [Hs Hnd]]. destruct (Hpl section s Es Hs) as [m [-> _]]. now destruct (Hnd m).
    + exists r. split; [reflexivity|]. apply Hno. intros; discriminate.
Qed.

(** * Is the resource available? *)
Lemma available_eq order c template p resource rc r : plain_conditions template -> place template p -> p <> [] ->
  condition_of "Resources" resource template rc -> get_conditions_from_path template p true true false = Ok (r, true) ->
  is_resource_available order c template p resource =
  if mem_assoc rc r then Ok []
  else do scs <- get_scenarios order c (keys r ++ [rc]); Ok (filter (unavailable r rc) scs).
Proof.
  intros _ _ _ [d [s [o [-> [H1 [H2 [H3 H4]]]]]]] Hr. unfold is_resource_available. rewrite Hr. cbn [bind vget_def fst snd].
  rewrite H1. cbn [bind vget_def]. rewrite H2. cbn [bind vget]. rewrite H3. cbn [bind truthy].
  destruct (String.eqb_spec rc ""); [contradiction|]. reflexivity.
Qed.

Lemma assoc_scenario names b n : NoDup names -> In n names -> assoc n (scenario_of names b) = Some (Some (b n)).
Proof.
  unfold scenario_of. intros Hn Hi. rewrite (assoc_NoDup n (Some (b n))); [reflexivity| |].
  - unfold keys. rewrite map_map. cbn. now rewrite map_id.
  - apply in_map_iff. exists n. auto.
Qed.

Lemma unavailable_iff template p r rc names b : found r (needs template p) -> NoDup names ->
  (forall n, In n names <-> n = rc \/ In n (keys r)) -> (exists b0, place_exists b0 template p) ->
  unavailable r rc (scenario_of names b) = true <-> b rc = false /\ place_exists b template p.
Proof.
  intros [F1 [F2 F3]] Hnd Hn [b0 Hb0]. unfold unavailable. rewrite andb_true_iff, forallb_forall.
  rewrite (assoc_scenario names b rc Hnd) by (apply Hn; now left).
  assert (Hrc : (match Some (Some (b rc)) with Some (Some true) => false | _ => true end) = true <-> b rc = false) by (destruct (b rc); split; congruence).
  rewrite Hrc. split; intros [H1 H2]; (split; [exact H1|]).
  - intros c x Hc. apply F3 in Hc as [k [Hk Hx]]. assert (Hin : In (c, k) r) by now apply assoc_In. specialize (H2 _ Hin). cbn [fst snd] in H2.
    assert (Hcr : In c (keys r)) by (apply assoc_Some_key; eauto).
    rewrite (assoc_scenario names b c Hnd) in H2 by (apply Hn; now right). cbn [taken_in] in H2.
    destruct (Bool.bool_dec (b c) x) as [->|Hne]; [reflexivity|]. exfalso.
    assert (Hother : has r c (b c)) by (exists k; split; [exact Hk|]; now destruct (b c)).
    assert (Hthis : has r c x) by (exists k; auto). apply F3 in Hother. apply F3 in Hthis.
    apply Hne. rewrite <- (Hb0 _ _ Hother). now rewrite <- (Hb0 _ _ Hthis).
  - intros [c k] Hin. cbn [fst snd]. assert (Hk : assoc c r = Some k) by now apply assoc_NoDup.
    assert (Hcr : In c (keys r)) by (apply assoc_Some_key; eauto).
    rewrite (assoc_scenario names b c Hnd) by (apply Hn; now right). cbn [taken_in].
    destruct (in_has r c F2 Hcr) as [x Hx]. pose proof (proj1 (F3 c x) Hx) as Hnx. rewrite (H2 _ _ Hnx). destruct Hx as [k' [Hk' Hx]].
    assert (k' = k) as -> by congruence. now destruct x.
Qed.

Lemma keys_scenario names b : keys (scenario_of names b) = names.
Proof. unfold keys, scenario_of. rewrite map_map. cbn. apply map_id. Qed.

Section Reported.
Variables (hash : val -> string) (order : list string -> list string) (template : val) (defs parameters : list (string * val)).
Hypothesis Hh : forall v, digest (hash v).
Hypothesis Ho : forall l, Permutation (order l) l.
Hypothesis Hc : section_of "Conditions" template defs.
Hypothesis Hp : section_of "Parameters" template parameters.
Hypothesis Hpl : plain_conditions template.
Variables (p : path) (resource rc : string) (names : list string).
Hypothesis Hplace : place template p.
Hypothesis Hne : p <> [].
Hypothesis Hrc : condition_of "Resources" resource template rc.
Hypothesis Hnd : NoDup names.
Hypothesis Hnames : forall n, In n names <-> n = rc \/ exists x, needs template p n x.
Hypothesis Hnot : forall x, ~ needs template p rc x.

Theorem c33_reported fuel w b :
  (forall n, In n names -> mem_assoc n (cs_conditions (load hash fuel template)) = true) ->
  (List.length names <= 4 \/ some_related defs names) ->
  deployment hash parameters w -> gives defs w names b ->
  place_exists b template p -> b rc = false ->
  exists out, is_resource_available order (load hash fuel template) template p resource = Ok out /\
    exists sc, In sc out /\ Permutation sc (scenario_of names b).
Proof.
  intros Hl Hs Hw Hg Hex Hb. destruct (path_needs template p Hplace Hne Hpl) as [r [Hr Hf]].
  rewrite (available_eq order _ template p resource rc r Hpl Hplace Hne Hrc Hr). pose proof Hf as [F1 [F2 F3]].
  assert (Hkr : forall n, In n (keys r) <-> exists x, needs template p n x).
  { intros n. split; [intros Hi; destruct (in_has r n F2 Hi) as [x Hx]; exists x; now apply F3 | intros [x Hx]; apply (has_in r n x); now apply F3]. }
  assert (Hrr : ~ In rc (keys r)) by (rewrite Hkr; intros [x Hx]; now apply (Hnot x)).
  destruct (mem_assoc rc r) eqn:Em; [now apply mem_assoc_iff in Em|].
  set (ns := keys r ++ [rc]). assert (Hns : forall n, In n ns <-> In n names).
  { intros n. unfold ns. rewrite in_app_iff, Hkr, Hnames. cbn. intuition. }
  assert (Hnn : NoDup ns) by (apply (Permutation_NoDup (Permutation_cons_append (keys r) rc)); now constructor).
  assert (Hpm : Permutation ns names) by now apply NoDup_Permutation.
  destruct (c16 hash order template defs parameters fuel ns w b) as [scs [Hsc Hi]]; auto.
  - unfold ns. intros E. now apply app_eq_nil in E as [_ E].
  - intros n Hi. now apply Hl, Hns.
  - destruct Hs as [Hs|[n [n' [v [v' [H1 [H2 H3]]]]]]]; [left; now rewrite (Permutation_length Hpm)|]. right. exists n, n', v, v'. rewrite !Hns. auto.
  - intros n Hi. now apply Hg, Hns.
  - rewrite Hsc. cbn [bind]. eexists. split; [reflexivity|]. exists (scenario_of ns b). split; [|now apply Permutation_map].
    apply filter_In. split; [exact Hi|]. apply (unavailable_iff template p); auto.
    + intros n. rewrite Hns, Hnames, Hkr. reflexivity.
    + eauto.
Qed.

Theorem c33_possible :
  NoDup (keys defs) -> (forall n v, In (n, v) defs -> well_formed defs v) ->
  NoDup (keys parameters) -> (forall n q, In (n, q) parameters -> plain_parameter q) -> told_apart hash parameters ->
  (forall n, In n names -> In n (keys defs)) -> (exists b0, place_exists b0 template p) ->
  exists limit, forall fuel, limit <= fuel ->
  exists out, is_resource_available order (load hash fuel template) template p resource = Ok out /\
    forall sc, In sc out -> exists b, Permutation sc (scenario_of names b) /\ b rc = false /\ place_exists b template p /\
      ((some_related defs names \/ forall n, In n names -> exists w, deployment hash parameters w /\ gives defs w [n] b) ->
       exists w, deployment hash parameters w /\ gives defs w names b).
Proof.
  intros Hdn Hdw Hpn Hpp Hta Hin Hex. destruct (path_needs template p Hplace Hne Hpl) as [r [Hr Hf]].
  pose proof Hf as [F1 [F2 F3]].
  assert (Hkr : forall n, In n (keys r) <-> exists x, needs template p n x).
  { intros n. split; [intros Hi; destruct (in_has r n F2 Hi) as [x Hx]; exists x; now apply F3 | intros [x Hx]; apply (has_in r n x); now apply F3]. }
  assert (Hrr : ~ In rc (keys r)) by (rewrite Hkr; intros [x Hx]; now apply (Hnot x)).
  set (ns := keys r ++ [rc]). assert (Hns : forall n, In n ns <-> In n names).
  { intros n. unfold ns. rewrite in_app_iff, Hkr, Hnames. cbn. intuition. }
  assert (Hnn : NoDup ns) by (apply (Permutation_NoDup (Permutation_cons_append (keys r) rc)); now constructor).
  assert (Hpm : Permutation ns names) by now apply NoDup_Permutation.
  destruct (c17 hash order template defs parameters ns) as [limit HL]; auto.
  - unfold ns. intros E. now apply app_eq_nil in E as [_ E].
  - intros n Hi. now apply Hin, Hns.
  - exists limit. intros fuel Hfuel. destruct (HL fuel Hfuel) as [scs [Hsc [H1 H2]]].
    rewrite (available_eq order _ template p resource rc r Hpl Hplace Hne Hrc Hr).
    destruct (mem_assoc rc r) eqn:Em; [now apply mem_assoc_iff in Em|]. fold ns. rewrite Hsc. cbn [bind]. eexists. split; [reflexivity|].
    intros sc Hi. apply filter_In in Hi as [Hi Hu]. destruct (H1 sc Hi) as [b [Eb Hj]]. exists b. rewrite Eb in Hu.
    apply (unavailable_iff template p r rc ns b Hf Hnn) in Hu; [|intros n; rewrite Hns, Hnames, Hkr; reflexivity | exact Hex].
    destruct Hu as [U1 U2]. split; [rewrite Eb; now apply Permutation_map|]. split; [exact U1|]. split; [exact U2|].
    intros [Hrel|Hind].
    + assert (Hrel' : some_related defs ns) by (destruct Hrel as [n [n' [v [v' [X1 [X2 X3]]]]]]; exists n, n', v, v'; rewrite !Hns; auto).
      destruct (H2 Hrel' sc Hi) as [b' [w [Eb' [Hw Hg]]]]. exists w. split; [exact Hw|].
      assert (Ebb : forall n, In n ns -> b n = b' n).
      { intros n Hn. assert (E : assoc n (scenario_of ns b) = assoc n (scenario_of ns b')) by congruence.
        rewrite !assoc_scenario in E by auto. congruence. }
      intros n Hn. apply Hns in Hn. rewrite (Ebb n Hn). now apply Hg.
    + destruct Hj as [w [Hw Hg]]; [intros n Hn; apply Hind; now apply Hns|]. exists w. split; [exact Hw|].
      intros n Hn. apply Hg. now apply Hns.
Qed.
End Reported.

(** No condition on the resource, or the place needs it: nothing is reported. *)
Theorem c33_no_condition order c template p resource d s o : plain_conditions template -> place template p -> p <> [] ->
  template = VDict d -> assoc "Resources" d = Some (VDict s) -> assoc resource s = Some (VDict o) -> assoc "Condition" o = None ->
  is_resource_available order c template p resource = Ok [].
Proof.
  intros Hpl Hp Hne Et H1 H2 H3. destruct (path_needs template p Hp Hne Hpl) as [r [Hr _]]. subst template.
  unfold is_resource_available. rewrite Hr. cbn [bind vget_def]. rewrite H1. cbn [bind vget_def]. rewrite H2. cbn [bind vget]. rewrite H3. reflexivity.
Qed.
Theorem c33_needed order c template p resource rc x : plain_conditions template -> place template p -> p <> [] ->
  condition_of "Resources" resource template rc -> needs template p rc x ->
  is_resource_available order c template p resource = Ok [].
Proof.
  intros Hpl Hp Hne Hrc Hn. destruct (path_needs template p Hp Hne Hpl) as [r [Hr [_ [_ F3]]]].
  rewrite (available_eq order c template p resource rc r Hpl Hp Hne Hrc Hr). apply F3 in Hn. apply has_in in Hn. apply mem_assoc_iff in Hn. now rewrite Hn.
Qed.
