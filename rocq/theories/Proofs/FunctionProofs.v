(** Proofs about the arguments of the intrinsic functions (C32). *)
From Coq Require Import Lia ZArith QArith Permutation.
From Verif.Model Require Import Base Helpers Rules Search Refs ConditionRules Relationship Limits Parameters Policies Functions.
From Verif.Spec Require Import Paths ConditionUse FunctionArguments.
From Verif.Proofs Require Import BaseFacts SearchProofs ConditionUseProofs.
Import Verif.Model.Rules.
Local Open Scope string_scope.

(** What a check has to do for the rule to be a judge. *)
Definition checks (f : string) (check : path -> val -> res (list rulematch)) (fault : path -> val -> path -> Prop) : Prop :=
  forall p v ms, check (p ++ [PKey f])%list v = Ok ms -> exists rs, map rm_path ms = map (fun r => p ++ PKey f :: r)%list rs /\ forall r, In r rs <-> fault p v r.

Lemma list_choice {A B} (R : A -> B -> Prop) l : (forall x, In x l -> exists y, R x y) -> exists ys, Forall2 R l ys.
Proof.
  induction l as [|x l IH]; intros H; [now exists []|]. destruct (H x (or_introl eq_refl)) as [y Hy].
  destruct IH as [ys Hs]; [intros z Hz; apply H; now right|]. exists (y :: ys). now constructor.
Qed.
Lemma Forall2_in_l {A B} (R : A -> B -> Prop) l ys x : Forall2 R l ys -> In x l -> exists y, In y ys /\ R x y.
Proof. induction 1 as [|a b l ys Hab _ IH]; intros Hx; [destruct Hx|]. destruct Hx as [->|Hx]; [exists b; split; [now left|exact Hab]|]. destruct (IH Hx) as [y [H1 H2]]. exists y. split; [now right|exact H2]. Qed.
Lemma Forall2_in_r {A B} (R : A -> B -> Prop) l ys y : Forall2 R l ys -> In y ys -> exists x, In x l /\ R x y.
Proof. induction 1 as [|a b l ys Hab _ IH]; intros Hx; [destruct Hx|]. destruct Hx as [->|Hx]; [exists a; split; [now left|exact Hab]|]. destruct (IH Hx) as [x [H1 H2]]. exists x. split; [now right|exact H2]. Qed.

Lemma flat_map_in_ext {A B} (f g : A -> list B) l : (forall x, In x l -> f x = g x) -> flat_map f l = flat_map g l.
Proof. induction l as [|x l IH]; intros H; [reflexivity|]. cbn [flat_map]. rewrite (H x (or_introl eq_refl)), IH; [reflexivity|]. intros y Hy. apply H. now right. Qed.

Section Judge.
Variables template globals : val.
Hypothesis Hwf : wf template.
Hypothesis Hgw : wf globals.

Lemma judged_occurring f (check : path -> val -> res (list rulematch)) (fault : path -> val -> path -> Prop) ms :
  (forall p v ms, occurs f template globals p v -> check (p ++ [PKey f])%list v = Ok ms ->
     exists rs, map rm_path ms = map (fun r => p ++ PKey f :: r)%list rs /\ forall r, In r rs <-> fault p v r) ->
  each template globals f check = Ok ms -> judged f template globals fault ms.
Proof using Hwf Hgw.
  intros Hc He. unfold each in He. apply concat_res_inv in He as [g [Hg ->]].
  set (h := fun p v => match check p v with Ok ms => ms | Err _ => [] end).
  assert (E : flat_map g (search_deep_keys f template globals) = flat_map (fun pv => h (fst pv) (snd pv)) (search_deep_keys f template globals)).
  { apply flat_map_in_ext. intros x Hx. unfold h. now rewrite (Hg x Hx). }
  rewrite E.
  destruct (list_choice (fun (pv : path * val) (x : path * val * list path) => exists p, fst pv = (p ++ [PKey f])%list /\ fst x = (p, snd pv) /\
     map rm_path (h (fst pv) (snd pv)) = map (fun r => p ++ PKey f :: r)%list (snd x) /\ forall r, In r (snd x) <-> fault p (snd pv) r)
     (search_deep_keys f template globals)) as [out Ho].
  { intros [q v] Hi. pose proof Hi as Hi'. apply in_search_deep in Hi' as [p [-> Ho]]; try assumption. specialize (Hg _ Hi). cbn [fst snd] in *.
    destruct (Hc p v _ Ho Hg) as [rs [H1 H2]]. exists (p, v, rs), p. cbn [fst snd]. unfold h. rewrite Hg. auto. }
  exists out. clear E. split; [|split].
  - clear Hc Hg. induction Ho as [|[q v] [[p v'] rs] l ys [p' [H1 [H2 [H3 H4]]]] _ IH]; [reflexivity|]. cbn [fst snd] in *. injection H2 as -> ->.
    cbn [flat_map map List.concat fst snd]. rewrite map_app, IH, H3. reflexivity.
  - intros p v. split.
    + intros Hi. assert (Hi' : In (p ++ [PKey f], v)%list (search_deep_keys f template globals)) by (apply in_search_deep; eauto).
      destruct (Forall2_in_l _ _ _ _ Ho Hi') as [[[p' v'] rs] [Hy [p'' [H1 [H2 _]]]]]. cbn [fst snd] in *. injection H2 as -> ->.
      apply app_inj_tail in H1 as [-> _]. exists rs. exact Hy.
    + intros [rs Hy]. destruct (Forall2_in_r _ _ _ _ Ho Hy) as [[q v'] [Hi [p' [H1 [H2 _]]]]]. cbn [fst snd] in *. injection H2 as -> ->. subst q.
      apply in_search_deep in Hi as [p'' [E Hi]]; try assumption. apply app_inj_tail in E as [-> _]. exact Hi.
  - intros p v rs Hy. destruct (Forall2_in_r _ _ _ _ Ho Hy) as [[q v'] [Hi [p' [H1 [H2 [_ H4]]]]]]. cbn [fst snd] in *. injection H2 as -> ->. exact H4.
Qed.
Lemma judged_each f check fault ms : checks f check fault -> each template globals f check = Ok ms -> judged f template globals fault ms.
Proof using Hwf Hgw. intros Hc. apply judged_occurring. intros p v ms' _. apply Hc. Qed.
Lemma judged_flat f g fault : checks f (fun p v => Ok (g p v)) fault ->
  judged f template globals fault (flat_map (fun pv => g (fst pv) (snd pv)) (search_deep_keys f template globals)).
Proof using Hwf Hgw.
  intros Hc. apply (judged_each f (fun p v => Ok (g p v)) fault _ Hc). unfold each. apply (concat_res_Ok _ (fun pv => g (fst pv) (snd pv))). reflexivity.
Qed.
Lemma each_total f check : (forall p v, occurs f template globals p v -> exists ms, check (p ++ [PKey f])%list v = Ok ms) -> exists ms, each template globals f check = Ok ms.
Proof using Hwf Hgw.
  intros H. apply concat_res_total. intros [q v] Hi. apply in_search_deep in Hi as [p [-> Hi]]; try assumption. exact (H p v Hi).
Qed.
End Judge.

(** A list of places: none or the argument itself. *)
Definition flagged (rs : list path) (b : Prop) : Prop := forall r, In r rs <-> r = [] /\ b.
Lemma flag_none (b : Prop) : ~ b -> flagged [] b.
Proof. intros H r. split; [intros [] | intros [_ Hb]; contradiction]. Qed.
Lemma flag_one (b : Prop) : b -> flagged [[]] b.
Proof. intros H r. split; [intros [<-|[]]; auto | intros [-> _]; now left]. Qed.

Lemma smem_in k fs : smem k fs = true <-> In k fs.
Proof. apply smem_iff. Qed.
Lemma smem_notin k fs : smem k fs = false <-> ~ In k fs.
Proof. rewrite <- smem_iff. destruct (smem k fs); split; congruence. Qed.
Lemma not_calls fs k x : ~ In k fs -> ~ calls fs (VDict [(k, x)]).
Proof. intros H [k' [x' [[= <- <-] Hi]]]. contradiction. Qed.
Lemma is_call fs k x : In k fs -> calls fs (VDict [(k, x)]).
Proof. intros H. exists k, x. auto. Qed.

Ltac none := exists []; split; [reflexivity|]; unfold unless; match goal with |- forall r, In r _ <-> r = [] /\ ?b => change (flagged [] b) | |- flagged _ _ => idtac end.
Ltac one := exists [[]]; split; [reflexivity|]; unfold unless; match goal with |- forall r, In r _ <-> r = [] /\ ?b => change (flagged [[]] b) | |- flagged _ _ => idtac end.

Lemma base64_checks : checks "Fn::Base64" base64_check (unless base64_ok).
Proof.
  intros p v ms. unfold base64_check. intros [= <-].
  destruct v as [| | | |s|l|[|[k x] [|m d]]]; try (one; apply flag_one; intros [[s0 H]|[k0 [x0 [H _]]]]; discriminate).
  - none. apply flag_none. intros H. apply H. left. now exists s.
  - destruct (String.eqb k "Fn::Split") eqn:E.
    + one. apply flag_one. apply String.eqb_eq in E. subst k. intros [[s H]|[k [y [[= <- <-] H]]]]; [discriminate|contradiction].
    + none. apply flag_none. intros H. apply H. right. exists k, x. split; [reflexivity|]. now apply String.eqb_neq.
Qed.
Lemma not_checks : checks "Fn::Not" not_check (unless list_ok).
Proof.
  intros p v ms. unfold not_check. intros [= <-]. destruct v as [| | | |s|l|d]; try (one; apply flag_one; intros [m H]; discriminate).
  none. apply flag_none. intros H. apply H. now exists l.
Qed.
Lemma ref_checks : checks "Ref" ref_text_check (unless text).
Proof.
  intros p v ms. unfold ref_text_check. intros [= <-]. destruct v as [| | | |s|l|d]; try (one; apply flag_one; intros [m H]; discriminate).
  none. apply flag_none. intros H. apply H. now exists s.
Qed.
Lemma getaz_checks regions : checks "Fn::GetAZs" (getaz_check regions) (fun p v r => r = [] /\ (text v \/ object v) /\ ~ getaz_ok regions v).
Proof.
  intros p v ms. unfold getaz_check. intros [= <-].
  destruct v as [| | | |s|l|[|[k x] [|m d]]]; try (none; apply flag_none; intros [[[s0 H]|[d0 H]] _]; discriminate).
  - destruct (negb (String.eqb s "") && negb (smem s regions)) eqn:E.
    + one. apply flag_one. split; [left; now exists s|]. apply andb_prop in E as [E1 E2]. apply Bool.negb_true_iff in E1, E2.
      intros [[= ->]|[[s' [[= ->] H]]|H]]; [discriminate| |discriminate]. apply smem_notin in E2. contradiction.
    + none. apply flag_none. intros [_ H]. apply H. apply Bool.andb_false_iff in E as [E|E]; apply Bool.negb_false_iff in E.
      * left. apply String.eqb_eq in E. now subst.
      * right; left. exists s. split; [reflexivity|]. now apply smem_in.
  - one. apply flag_one. split; [right; now eexists|]. intros [H|[[s [H _]]|H]]; discriminate.
  - destruct (negb (String.eqb k "Ref") || negb (eq_str "AWS::Region" x)) eqn:E.
    + one. apply flag_one. split; [right; now eexists|]. intros [H|[[s [H _]]|[= -> ->]]]; discriminate.
    + none. apply flag_none. intros [_ H]. apply H. right; right. apply Bool.orb_false_iff in E as [E1 E2]. apply Bool.negb_false_iff in E1, E2.
      apply String.eqb_eq in E1. subst k. destruct x as [| | | |s|l|d]; try discriminate. apply String.eqb_eq in E2. now subst s.
  - one. apply flag_one. split; [right; now eexists|]. intros [H|[[s [H _]]|H]]; discriminate.
Qed.
(** The places of a list of findings. *)
Definition places (q : path) (ms : list rulematch) (fault : path -> Prop) : Prop :=
  exists rs, map rm_path ms = map (fun r => q ++ r)%list rs /\ forall r, In r rs <-> fault r.
Lemma places_app q a b f g : places q a f -> places q b g -> places q (a ++ b)%list (fun r => f r \/ g r).
Proof.
  intros [ra [Ea Ha]] [rb [Eb Hb]]. exists (ra ++ rb)%list. rewrite !map_app, Ea, Eb. split; [reflexivity|]. intros r. now rewrite in_app_iff, (Ha r), (Hb r).
Qed.
Lemma places_nil q (f : path -> Prop) : (forall r, ~ f r) -> places q [] f.
Proof. intros H. exists []. split; [reflexivity|]. intros r. split; [intros [] | intros Hr; exact (H r Hr)]. Qed.
Lemma places_one q r m (f : path -> Prop) : (forall r', f r' <-> r' = r) -> places q [mkRM (q ++ r)%list m] f.
Proof. intros H. exists [r]. split; [reflexivity|]. intros r'. rewrite (H r'). split; [intros [<-|[]]; reflexivity | intros ->; now left]. Qed.
Lemma places_here q m (f : path -> Prop) : (forall r', f r' <-> r' = []) -> places q [mkRM q m] f.
Proof. intros H. pose proof (places_one q [] m f H) as P. now rewrite app_nil_r in P. Qed.
Lemma places_iff q ms (f g : path -> Prop) : places q ms f -> (forall r, f r <-> g r) -> places q ms g.
Proof. intros [rs [E H]] He. exists rs. split; [exact E|]. intros r. now rewrite (H r), (He r). Qed.
Lemma checks_places f check fault : (forall p v ms, check (p ++ [PKey f])%list v = Ok ms -> places (p ++ [PKey f])%list ms (fault p v)) -> checks f check fault.
Proof.
  intros H p v ms E. destruct (H p v ms E) as [rs [E' H']]. exists rs. split; [|exact H']. rewrite E'. apply map_ext. intros r. now rewrite <- app_assoc.
Qed.
Ltac p_none H := apply places_nil; intros r H.

Lemma import_checks : checks "Fn::ImportValue" import_check import_fault.
Proof.
  apply checks_places. intros p v ms [= <-]. apply places_iff with (fun r => (r = [] /\ exists rest, p = PKey "Conditions" :: rest) \/ (r = [] /\ ~ import_ok v)).
  2: { intros r. unfold import_fault. tauto. }
  apply places_app.
  - destruct p as [|[k|i] p]; cbn [app import_place].
    + p_none H. destruct H as [_ [rest H]]. discriminate.
    + destruct (String.eqb k "Conditions") eqn:E.
      * apply String.eqb_eq in E. subst k. apply places_here. intros r. split; [intros [H _]; exact H | intros ->; eauto].
      * p_none H. destruct H as [_ [rest [= -> _]]]. discriminate.
    + p_none H. destruct H as [_ [rest H]]. discriminate.
  - destruct v as [| | | |s|l|[|[k x] [|m d]]]; try (apply places_here; intros r; split; [intros [H _]; exact H | intros ->; split; [reflexivity|]; intros [[s0 H]|[k0 [x0 [H _]]]]; discriminate]).
    + p_none H. destruct H as [_ H]. apply H. left. now exists s.
    + cbn [import_shape]. destruct (smem k import_functions) eqn:E.
      * p_none H. destruct H as [_ H]. apply H. right. apply is_call. now apply smem_in.
      * apply places_here. intros r. split; [intros [H _]; exact H | intros ->; split; [reflexivity|]]. intros [[s H]|H]; [discriminate|]. revert H. apply not_calls. now apply smem_notin.
Qed.

Lemma select_checks py_int : checks "Fn::Select" (select_check py_int) (unless (select_ok py_int)).
Proof.
  apply checks_places. intros p v ms. set (q := (p ++ [PKey "Fn::Select"])%list). unfold select_check.
  destruct v as [| | | |s|[|i [|l [|x rest]]]|d]; try (intros [= <-]; apply places_here; intros r; split; [intros [H _]; exact H | intros ->; split; [reflexivity|]; intros [i0 [l0 [H _]]]; discriminate]).
  intros H. destruct (select_index py_int q i) as [a|] eqn:Ea; [|discriminate]. cbn [bind] in H. injection H as <-.
  apply places_iff with (fun r => (r = [] /\ ~ index_ok py_int i) \/ (r = [] /\ ~ (list_ok l \/ calls ["Fn::FindInMap"; "Fn::GetAtt"; "Fn::GetAZs"; "Fn::If"; "Fn::Split"; "Fn::Cidr"; "Ref"] l))).
  2: { intros r. unfold unless, select_ok. split.
       - intros [[-> H]|[-> H]]; (split; [reflexivity|]); intros [i' [l' [[= <- <-] [H1 H2]]]]; contradiction.
       - intros [-> H]. assert (Hd : index_ok py_int i \/ ~ index_ok py_int i).
         { clear - Ea. unfold index_ok. destruct i as [|b|z|f|s|l|[|[k x] [|m d]]]; try discriminate.
           - left. left. right. eauto.
           - left. left. left. eauto.
           - left. right. left. eauto.
           - destruct (py_int s) eqn:E; [left; right; right; left; eauto|]. right.
             intros [[[z H]|[b H]]|[[f H]|[[s' [[= <-] H]]|[[k [x [H _]]]|[d [H _]]]]]]; try discriminate. congruence.
           - left. right; right; right; right. exists []. split; [reflexivity|discriminate].
           - destruct (in_dec string_dec k ["Ref"; "Fn::FindInMap"]) as [Hi|Hi]; [left; right; right; right; left; now apply is_call|].
             right. intros [[[z H]|[b H]]|[[f H]|[[s' [H _]]|[H|[d [[= <-] H]]]]]]; try discriminate; [|cbn in H; lia]. revert H. now apply not_calls.
           - left. right; right; right; right. eexists. split; [reflexivity|discriminate]. }
         destruct Hd as [Hd|Hd]; [right|left]; (split; [reflexivity|]); [|exact Hd]. intros Hl. apply H. exists i, l. auto. }
  apply places_app.
  - destruct i as [|b|z|f|s|l'|[|[k x] [|m d]]]; try discriminate; unfold select_index in Ea.
    all: match type of Ea with Ok ?x = Ok ?y => assert (Ex : y = x) by congruence; subst y; clear Ea end.
    + p_none H. destruct H as [_ H]. apply H. left. right. eauto.
    + p_none H. destruct H as [_ H]. apply H. left. left. eauto.
    + p_none H. destruct H as [_ H]. apply H. right. left. eauto.
    + destruct (py_int s) eqn:E; [p_none H; destruct H as [_ H]; apply H; right; right; left; eauto|].
      apply places_here. intros r. split; [intros [H _]; exact H | intros ->; split; [reflexivity|]].
      intros [[[z H]|[b H]]|[[f H]|[[s' [[= <-] H]]|[[k [x [H _]]]|[d [H _]]]]]]; try discriminate. congruence.
    + p_none H. destruct H as [_ H]. apply H. right; right; right; right. eexists. split; [reflexivity|discriminate].
    + destruct (smem k ["Ref"; "Fn::FindInMap"]) eqn:E; [p_none H; destruct H as [_ H]; apply H; right; right; right; left; apply is_call; now apply smem_in|].
      apply places_here. intros r. split; [intros [H _]; exact H | intros ->; split; [reflexivity|]].
      intros [[[z H]|[b H]]|[[f H]|[[s' [H _]]|[H|[d [[= <-] H]]]]]]; try discriminate; [|cbn in H; lia]. revert H. apply not_calls. now apply smem_notin.
    + p_none H. destruct H as [_ H]. apply H. right; right; right; right. eexists. split; [reflexivity|discriminate].
  - destruct l as [|b|z|f|s|l'|[|[k x] [|m d]]]; cbn [select_list]; try (apply places_here; intros r; split; [intros [H _]; exact H | intros ->; split; [reflexivity|]; intros [[l0 H]|[k0 [x0 [H _]]]]; discriminate]).
    + p_none H. destruct H as [_ H]. apply H. left. now exists l'.
    + destruct (smem k select_functions) eqn:E; [p_none H; destruct H as [_ H]; apply H; right; apply is_call; now apply smem_in|].
      apply places_here. intros r. split; [intros [H _]; exact H | intros ->; split; [reflexivity|]]. intros [[l0 H]|H]; [discriminate|]. revert H. apply not_calls. now apply smem_notin.
Qed.

Lemma split_checks : checks "Fn::Split" split_check split_fault.
Proof.
  apply checks_places. intros p v ms [= <-]. set (q := (p ++ [PKey "Fn::Split"])%list).
  destruct v as [| | | |s|[|d [|s [|x rest]]]|d]; try (apply places_here; intros r; split; [intros H; inversion H; reflexivity | intros ->; apply sf_shape; intros d0 s0; discriminate]).
  apply places_iff with (fun r => (r = [PIdx 0] /\ ~ text d) \/ ((exists k x, s = VDict [(k, x)] /\ ~ split_source k /\ r = [PKey k]) \/ (r = [] /\ ~ text s /\ forall k x, s <> VDict [(k, x)]))).
  2: { intros r. split.
       - intros [[-> H]|[[k [x [-> [H ->]]]]|[-> [H1 H2]]]]; [now apply sf_delimiter | now apply sf_function | now apply sf_source].
       - intros H. inversion H as [v0 Hs E1 E2|d0 s0 Ht E1 E2|d0 k x Ht E1 E2|d0 s0 Ht Hk E1 E2]; subst.
         + exfalso. exact (Hs d s eq_refl).
         + left. auto.
         + right; left. eauto.
         + right; right. auto. }
  apply places_app.
  - destruct d as [| | | |s'|l|d]; cbn [split_delimiter]; try (apply places_one; intros r; split; [intros [H _]; exact H | intros ->; split; [reflexivity|]; intros [s0 H]; discriminate]).
    p_none H. destruct H as [_ H]. apply H. now exists s'.
  - destruct s as [| | | |s'|l|[|[k x] [|m e]]]; cbn [split_text];
      try (apply places_here; intros r; split; [intros [[k0 [x0 [H _]]]|[H _]]; [discriminate|exact H] | intros ->; right; split; [reflexivity|]; split; [intros [s0 H]; discriminate | intros k0 x0 H; discriminate]]).
    + p_none H. destruct H as [[k0 [x0 [H _]]]|[_ [H _]]]; [discriminate|]. apply H. now exists s'.
    + destruct (smem k split_functions) eqn:E.
      * p_none H. destruct H as [[k0 [x0 [[= <- <-] [H _]]]]|[_ [_ H]]]; [apply H; now apply smem_in | exact (H k x eq_refl)].
      * apply places_one. intros r. split.
        -- intros [[k0 [x0 [[= <- <-] [_ H]]]]|[_ [_ H]]]; [exact H | exfalso; exact (H k x eq_refl)].
        -- intros ->. left. exists k, x. split; [reflexivity|]. split; [|reflexivity]. now apply smem_notin.
Qed.
