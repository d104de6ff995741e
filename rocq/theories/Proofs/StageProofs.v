(** E2540: the stages of pipelines. *)
From Coq Require Import List Permutation Lia.
From Verif.Model Require Import Base Helpers Locate Node Conditions Search Resolve Rules Relationship Limits ConditionRules PropertyRules SubProps Pipelines.
From Verif.Spec Require Import Paths Branches References Required Walk Values Truth Resolved Groups Nested Pipelines.
From Verif.Proofs Require Import BaseFacts SearchProofs RelationRule DeepProofs SubPropsProofs PropertyRuleProofs Places Says.
Import Verif.Model.Rules.
Import ListNotations.
Local Open Scope string_scope.

(** * Categories *)
Definition shown (c : option string) : val := match c with Some s => VStr s | None => VNull end.
Lemma shown_inj c c' : shown c = shown c' -> c = c'.
Proof. destruct c, c'; cbn; congruence. Qed.
Lemma shown_eq c c' : py_eq (shown c) (shown c') = true <-> c = c'.
Proof. destruct c, c'; cbn; try (rewrite String.eqb_eq); split; congruence. Qed.
Lemma shown_in c cs s : (forall v, In v s -> exists c, v = shown c) -> (forall c, In c cs <-> In (shown c) s) -> py_in (shown c) s = true <-> In c cs.
Proof.
  intros Hs Hc. unfold py_in. rewrite existsb_exists. split.
  - intros [v [Hv E]]. destruct (Hs v Hv) as [c' ->]. apply shown_eq in E as ->. now apply Hc.
  - intros H. exists (shown c). split; [now apply Hc | now apply shown_eq].
Qed.
Lemma shown_hash c : hashable (shown c) = true.
Proof. destruct c; reflexivity. Qed.
Lemma category_computes d c : category d c -> category_of (VDict d) = Ok (shown c).
Proof. intros [t [H1 H2]]. unfold category_of. cbn [vget bind]. rewrite H1. cbn [bind vget]. destruct c; rewrite H2; reflexivity. Qed.
Lemma category_fun d c c' : category d c -> category d c' -> c = c'.
Proof. intros H H'. apply category_computes in H, H'. rewrite H in H'. injection H' as E. now apply shown_inj. Qed.
(** [cats l cs]: [cs] are the categories of the actions [l]. *)
Definition cats (l : list val) (cs : list (option string)) : Prop := Forall2 (fun a c => exists d, a = VDict d /\ category d c) l cs.
Lemma cats_computes l cs : cats l cs -> map_res category_of l = Ok (map shown cs).
Proof. induction 1 as [|a c l cs [d [-> Hc]] H IH]; [reflexivity|]. cbn [map_res map]. rewrite (category_computes _ _ Hc). cbn [bind]. rewrite IH. reflexivity. Qed.
Lemma cats_total l : (forall a, In a l -> exists d c, a = VDict d /\ category d c) -> exists cs, cats l cs.
Proof.
  induction l as [|a l IH]; intros H; [exists []; constructor|]. destruct (H a (or_introl eq_refl)) as [d [c [E Hc]]]. destruct IH as [cs Hcs]; [intros x Hx; apply H; now right|].
  exists (c :: cs). constructor; eauto.
Qed.
Lemma cats_nth l cs i c : cats l cs -> nth_error cs i = Some c <-> exists d, nth_error l i = Some (VDict d) /\ category d c.
Proof.
  intros H. revert i. induction H as [|a c' l cs [d [-> Hc]] H IH]; intros [|i]; cbn [nth_error].
  - split; [discriminate | intros [d [[=] _]]].
  - split; [discriminate | intros [d [[=] _]]].
  - split; [intros [= <-]; eauto | intros [d' [[= <-] Hc']]; f_equal; eapply category_fun; eauto].
  - apply IH.
Qed.
Lemma set_of_shown cs : exists s, set_of (map shown cs) = Ok s /\ NoDup s /\ forall v, In v s <-> In v (map shown cs).
Proof.
  induction cs as [|c cs [s [E [Hn Hs]]]]; cbn [set_of map]; [exists []; split; [reflexivity|]; split; [constructor | reflexivity]|]. rewrite E. cbn [bind]. unfold set_add. rewrite shown_hash.
  assert (K : py_in (shown c) s = true <-> In c cs).
  { apply shown_in; [intros v Hv; apply Hs, in_map_iff in Hv as [c' [<- _]]; eauto|]. intros c'. rewrite Hs, in_map_iff. split; [eauto | intros [c'' [Ec Hc]]; apply shown_inj in Ec as ->; exact Hc]. }
  destruct (py_in (shown c) s) eqn:Ep.
  - exists s. split; [reflexivity|]. split; [exact Hn|]. intros v. rewrite Hs. cbn. split; [now right|]. intros [<-|H]; [apply in_map; now apply K | exact H].
  - exists (shown c :: s). split; [reflexivity|]. split.
    + constructor; [|exact Hn]. intros H. apply Hs, in_map_iff in H as [c' [Ec Hc]]. apply shown_inj in Ec as ->. now apply K in Hc.
    + intros v. cbn. now rewrite Hs.
Qed.
(** * The checks *)
Definition stage_words (p : path) (sc : option scenario) (q : path) (words : string) : rulematch := mkRM (p ++ q)%list (stage_message words sc).
(** The categories of the actions of each stage. *)
Definition stage_cats (stages : list val) (css : list (list (option string))) : Prop :=
  Forall2 (fun x cs => exists s, x = VDict s /\ (assoc "Actions" s = None /\ cs = [] \/ exists l, assoc "Actions" s = Some (VList l) /\ cats l cs)) stages css.
Lemma shaped_cats stages : stages_shaped stages -> exists css, stage_cats stages css.
Proof.
  intros H. assert (K : forall x, In x stages -> exists s, x = VDict s /\ forall y, assoc "Actions" s = Some y -> exists l, y = VList l /\ forall a, In a l -> exists d c, a = VDict d /\ category d c).
  { intros x Hx. apply In_nth_error in Hx as [n Hn]. destruct (H n x Hn) as [s [E [_ Hs]]]. eauto. }
  clear H. induction stages as [|x stages IH]; [exists []; constructor|]. destruct (K x (or_introl eq_refl)) as [s [-> Hs]]. destruct IH as [css Hcss]; [intros y Hy; apply K; now right|].
  destruct (assoc "Actions" s) as [y|] eqn:Ey.
  - destruct (Hs y eq_refl) as [l [-> Hl]]. destruct (cats_total l Hl) as [cs Hcs]. exists (cs :: css). constructor; [|exact Hcss]. exists s. split; [reflexivity|]. right. eauto.
  - exists ([] :: css). constructor; [|exact Hcss]. exists s. split; [reflexivity|]. now left.
Qed.
Lemma stage_cats_nth stages css : stage_cats stages css -> forall n s, stage_at stages n s -> exists cs, nth_error css n = Some cs /\
  forall i c, nth_error cs i = Some c <-> exists a, action_at s i a /\ category a c.
Proof.
  induction 1 as [|x cs stages css [s0 [-> Hx]] H IH]; intros n s Hs; [destruct n; discriminate Hs|]. destruct n as [|n]; [|now apply IH]. injection Hs as <-. exists cs. split; [reflexivity|]. intros i c.
  destruct Hx as [[E ->]|[l [E Hl]]].
  - split; [destruct i; discriminate | intros [a [[l [E' _]] _]]; congruence].
  - rewrite (cats_nth _ _ i c Hl). split; [intros [d [H1 H2]]; exists d; split; [exists l; auto | exact H2] | intros [a [[l' [E' Ha]] Hc]]; assert (l' = l) as -> by congruence; eauto].
Qed.
Lemma nth_stage stages css n cs : stage_cats stages css -> nth_error css n = Some cs -> exists s, stage_at stages n s.
Proof. intros H. revert n. induction H as [|x cs' stages css [s0 [-> Hx]] H IH]; intros [|n] E; try discriminate E; [now exists s0 | now apply IH]. Qed.
Lemma actions_categorised s i a stages n : stages_shaped stages -> stage_at stages n s -> action_at s i a -> exists c, category a c.
Proof. intros H Hs [l [E Ha]]. destruct (H n _ Hs) as [s' [[= <-] [_ K]]]. destruct (K _ E) as [l' [[= <-] K']]. destruct (K' _ (nth_error_In _ _ Ha)) as [d [c [[= <-] Hc]]]. eauto. Qed.
Lemma count_says stages p sc : says (check_stage_count stages p sc) (fun m => exists q words, stages_fault stages q words /\ List.length stages < 2 /\ q = [] /\
  words = "CodePipeline has " ++ str_of_Z (Z.of_nat (List.length stages)) ++ " stages. There must be at least two stages." /\ m = stage_words p sc q words).
Proof.
  unfold check_stage_count. eapply says_ext; [apply says_if|]. intros m. cbv beta. rewrite PeanoNat.Nat.ltb_lt. split.
  - intros [H ->]. do 2 eexists. split; [now apply st_few|]. split; [exact H|]. split; [reflexivity|]. split; [reflexivity|]. unfold stage_words. now rewrite app_nil_r.
  - intros [q [words [_ [H [-> [-> ->]]]]]]. split; [exact H|]. unfold stage_words. now rewrite app_nil_r.
Qed.
Definition no_source_words : string := "The first stage of a pipeline must contain at least one source action.".
Definition only_source_words : string := "The first stage of a pipeline must contain only source actions.".
Definition later_words : string := "Only the first stage of a pipeline may contain source actions.".
Definition only_sources_words : string := "At least one stage in pipeline must contain an action that is not a source action.".
Lemma single_length {A} (l : list A) : NoDup l -> (List.length l = 1 <-> l <> [] /\ forall x y, In x l -> In y l -> x = y).
Proof.
  intros Hn. split.
  - destruct l as [|x [|y l]]; try discriminate. intros _. split; [discriminate|]. intros a b [<-|[]] [<-|[]]. reflexivity.
  - intros [H1 H2]. destruct l as [|x [|y l]]; [congruence | reflexivity|]. inversion Hn as [|? ? Hx]; subst. elim Hx. rewrite (H2 x y); [now left | now left | right; now left].
Qed.
Lemma first_says stages p sc : stages_shaped stages -> says (check_first_stage stages p sc) (fun m => exists q words, stages_fault stages q words /\ q = [PIdx 0; PKey "Name"] /\
  (words = no_source_words \/ words = only_source_words) /\ m = stage_words p sc q words).
Proof.
  intros Hsh. destruct stages as [|x stages].
  { cbn [check_first_stage]. eapply says_ext; [apply says_none|]. intros m. split; [intros []|]. intros [q [words [F [-> [Hwo _]]]]].
    inversion F; subst; try (match goal with H : stage_at [] ?n _ |- _ => destruct n; discriminate H end). }
  pose proof Hsh as Hsh0. destruct (Hsh 0 x eq_refl) as [s [-> [Ha Hl]]]. destruct (assoc "Actions" s) as [y|] eqn:Ey; [|now elim Ha].
  destruct (Hl y eq_refl) as [l [-> Hl']]. destruct (cats_total l Hl') as [cs Hcs]. destruct (set_of_shown cs) as [st [Est [Hnd Hst]]].
  assert (Hcat : forall i c, nth_error cs i = Some c <-> exists a, action_at s i a /\ category a c).
  { intros i c. rewrite (cats_nth _ _ i c Hcs). split; [intros [d [H1 H2]]; exists d; split; [exists l; auto | exact H2] | intros [a [[l' [E' Hx]] Hc]]; assert (l' = l) as -> by congruence; eauto]. }
  assert (Hact : forall i a, action_at s i a -> exists c, category a c) by (intros i a H; exact (actions_categorised s i a (VDict s :: stages) 0 Hsh0 eq_refl H)).
  assert (Hsrc : py_in (VStr "Source") st = true <-> In (Some "Source") cs).
  { apply (shown_in (Some "Source") cs st); [intros v Hv; apply Hst, in_map_iff in Hv as [c [<- _]]; eauto|]. intros c. rewrite Hst, in_map_iff. split; [eauto | intros [c'' [Ec Hc]]; apply shown_inj in Ec as ->; exact Hc]. }
  assert (Hone : List.length st = 1 <-> cs <> [] /\ forall c c', In c cs -> In c' cs -> c = c').
  { rewrite (single_length st Hnd). split; intros [H1 H2].
    - split; [intros ->; destruct st as [|v st]; [congruence|]; destruct (proj1 (Hst v) (or_introl eq_refl))|]. intros c c' Hc Hc'. apply shown_inj, H2; apply Hst, in_map; assumption.
    - split; [intros ->; destruct cs as [|c cs]; [congruence|]; destruct (proj2 (Hst (shown c)) (or_introl eq_refl))|]. intros v v' Hv Hv'. apply Hst, in_map_iff in Hv as [c [<- Hc]]. apply Hst, in_map_iff in Hv' as [c' [<- Hc']]. f_equal. now apply H2. }
  assert (Hnil : st = [] <-> cs = []).
  { split; intros ->; [destruct cs as [|c cs]; [reflexivity|]; destruct (proj2 (Hst (shown c)) (or_introl eq_refl)) | destruct st as [|v st]; [reflexivity|]; destruct (proj1 (Hst v) (or_introl eq_refl))]. }
  cbn [check_first_stage actions_at]. rewrite Ey. cbn [bind iterate_values]. rewrite (cats_computes _ _ Hcs). cbn [bind]. rewrite Est. cbn [bind].
  eexists. split; [reflexivity|]. intros m. rewrite in_app_iff. 
  assert (A : In m (match st with [] => [] | _ :: _ => if py_in (VStr "Source") st then [] else [mkRM (p ++ [PIdx 0; PKey "Name"])%list (stage_message no_source_words sc)] end) <->
    cs <> [] /\ ~ In (Some "Source") cs /\ m = stage_words p sc [PIdx 0; PKey "Name"] no_source_words).
  { destruct st as [|v st]; [split; [intros []|]; intros [H _]; elim H; now apply Hnil|]. rewrite <- Hsrc. destruct (py_in (VStr "Source") (v :: st)).
    - split; [intros [] | intros [_ [H _]]; now elim H].
    - split; [intros [<-|[]] | intros [_ [_ ->]]; now left]. split; [intros H; apply Hnil in H; discriminate|]. split; [discriminate | reflexivity]. }
  assert (B : In m (if Nat.eqb (List.length st) 1 then [] else [mkRM (p ++ [PIdx 0; PKey "Name"])%list (stage_message only_source_words sc)]) <->
    ~ (cs <> [] /\ forall c c', In c cs -> In c' cs -> c = c') /\ m = stage_words p sc [PIdx 0; PKey "Name"] only_source_words).
  { rewrite <- Hone. destruct (PeanoNat.Nat.eqb_spec (List.length st) 1) as [E|E]; [split; [intros [] | intros [H _]; now elim H]|]. split; [intros [<-|[]]; auto | intros [_ ->]; now left]. }
  unfold no_source_words, only_source_words in A, B |- *. rewrite A, B. clear A B. split.
  - intros [[H1 [H2 ->]]|[H ->]].
    + destruct cs as [|c cs]; [congruence|]. destruct (proj1 (Hcat 0 c) eq_refl) as [a [Hac _]]. exists [PIdx 0; PKey "Name"], no_source_words. split; [|split; [reflexivity | split; [now left | reflexivity]]].
      eapply st_no_source; [reflexivity | exact Hac|]. intros j b Hb Hc. apply H2. eapply nth_error_In. apply Hcat. eauto.
    + exists [PIdx 0; PKey "Name"], only_source_words. split; [|split; [reflexivity | split; [now right | reflexivity]]]. destruct cs as [|c cs].
      * apply (st_no_action _ s); [reflexivity|]. intros i a Hac. destruct (Hact i a Hac) as [c Hc]. assert (K : nth_error (@nil (option string)) i = Some c) by (apply Hcat; eauto). destruct i; discriminate K.
      * destruct (existsb (fun c' => negb (py_eq (shown c) (shown c'))) cs) eqn:Ex.
        -- apply existsb_exists in Ex as [c' [Hc' Hd]]. assert (Hd' : c <> c') by (intros E; apply shown_eq in E; rewrite E in Hd; discriminate Hd). apply In_nth_error in Hc' as [j Hj].
           destruct (proj1 (Hcat 0 c) eq_refl) as [a [Ha1 Ha2]]. destruct (proj1 (Hcat (S j) c') Hj) as [b [Hb1 Hb2]]. exact (st_mixed (VDict s :: stages) s 0 a c (S j) b c' eq_refl Ha1 Ha2 Hb1 Hb2 Hd').
        -- elim H. split; [discriminate|]. assert (K : forall c', In c' (c :: cs) -> c' = c).
           { intros c' [<-|Hc']; [reflexivity|]. destruct (py_eq (shown c) (shown c')) eqn:Ed; [symmetry; now apply shown_eq|]. assert (Et : existsb (fun c' => negb (py_eq (shown c) (shown c'))) cs = true) by (apply existsb_exists; exists c'; split; [exact Hc' | now rewrite Ed]). congruence. }
           intros c1 c2 H1 H2. now rewrite (K c1 H1), (K c2 H2).
  - intros [q [words [F [-> [Hwo ->]]]]]. inversion F as [|s1 i a H0 H1 H2 E1 E2|s1 H0 H1 E1 E2|s1 i a c j b c' H0 H1 H2 H3 H4 H5 E1 E2| | |m' n s1 s' z H0 H1 H2 H3 H4 E1 E2]; subst.
    + injection H0 as <-. left. split; [|split; [|reflexivity]].
      * destruct (Hact i a H1) as [c Hc]. intros ->. assert (K : nth_error (@nil (option string)) i = Some c) by (apply Hcat; eauto). destruct i; discriminate K.
      * intros H. apply In_nth_error in H as [j Hj]. apply Hcat in Hj as [b [Hb1 Hb2]]. exact (H2 j b Hb1 Hb2).
    + injection H0 as <-. right. split; [|reflexivity]. intros [H _]. destruct cs as [|c cs]; [congruence|]. destruct (proj1 (Hcat 0 c) eq_refl) as [a [Hac _]]. exact (H1 0 a Hac).
    + injection H0 as <-. right. split; [|reflexivity]. intros [_ H]. apply H5, H; eapply nth_error_In; apply Hcat; eauto.
    + lia.
Qed.
(** Actions from other stages than the first. *)
Definition all_shown (seen : list val) : Prop := forall v, In v seen -> exists c, v = shown c.
Lemma add_shown c seen : all_shown seen -> exists s, set_add (shown c) seen = Ok s /\ all_shown s /\ forall v, In v s <-> v = shown c \/ In v seen.
Proof.
  intros H. unfold set_add. rewrite shown_hash. destruct (py_in (shown c) seen) eqn:E; eexists; (split; [reflexivity|]).
  - split; [exact H|]. intros v. split; [now right|]. intros [->|K]; [|exact K]. apply existsb_exists in E as [w [Hw Ew]]. destruct (H w Hw) as [c' ->]. apply shown_eq in Ew as ->. exact Hw.
  - split; [intros v [<-|K]; eauto|]. intros v. cbn. split; (intros [K|K]; [left; now symmetry | now right]).
Qed.
Lemma source_shown c : eq_str "Source" (shown c) = true <-> c = Some "Source".
Proof. destruct c as [s|]; cbn [shown]; [rewrite eq_str_true|]; split; try congruence; discriminate. Qed.
Lemma source_actions_says p sc n l cs : cats l cs -> forall i seen, all_shown seen -> exists ms seen', source_actions p sc n i l seen = Ok (ms, seen') /\ all_shown seen' /\
  (forall v, In v seen' <-> In v seen \/ exists c, In c cs /\ v = shown c) /\
  forall m, In m ms <-> 0 < n /\ exists j, nth_error cs j = Some (Some "Source") /\ m = stage_words p sc [PIdx n; PKey "Actions"; PIdx (i + j)] later_words.
Proof.
  induction 1 as [|a c l cs [d [-> Hc]] H IH]; intros i seen Hs; cbn [source_actions].
  - exists [], seen. split; [reflexivity|]. split; [exact Hs|]. split; [intros v; split; [now left | intros [K|[c [[] _]]]; exact K]|]. intros m. split; [intros [] | intros [_ [[|j] [[=] _]]]].
  - rewrite (category_computes _ _ Hc). cbn [bind]. destruct (add_shown c seen Hs) as [s1 [-> [Hs1 Hin]]]. cbn [bind]. destruct (IH (S i) s1 Hs1) as [ms [s2 [-> [Hs2 [Hin2 Hms]]]]]. cbn [bind fst snd].
    eexists. exists s2. split; [reflexivity|]. split; [exact Hs2|]. split.
    + intros v. rewrite Hin2, Hin. cbn. split.
      * intros [[->|K]|[c' [K ->]]]; [right; exists c; auto | now left | right; exists c'; auto].
      * intros [K|[c' [[<-|K] ->]]]; [auto | auto | right; eauto].
    + intros m. rewrite in_app_iff, Hms. split.
      * intros [K|[Hn [j [Hj ->]]]].
        -- destruct (Nat.ltb 0 n && eq_str "Source" (shown c))%bool eqn:E; [|destruct K]. apply andb_true_iff in E as [E1 E2]. apply PeanoNat.Nat.ltb_lt in E1. apply source_shown in E2 as ->. destruct K as [<-|[]].
           split; [exact E1|]. exists 0. split; [reflexivity|]. unfold stage_words. now rewrite PeanoNat.Nat.add_0_r.
        -- split; [exact Hn|]. exists (S j). split; [exact Hj|]. now rewrite <- PeanoNat.Nat.add_succ_comm.
      * intros [Hn [[|j] [Hj ->]]].
        -- left. injection Hj as ->. cbn [shown eq_str]. apply PeanoNat.Nat.ltb_lt in Hn. rewrite Hn. left. unfold stage_words. now rewrite PeanoNat.Nat.add_0_r.
        -- right. split; [exact Hn|]. exists j. split; [exact Hj|]. now rewrite <- PeanoNat.Nat.add_succ_comm.
Qed.
Lemma source_stages_says p sc stages css : stage_cats stages css -> forall n seen, all_shown seen -> exists ms seen', source_stages p sc n stages seen = Ok (ms, seen') /\ all_shown seen' /\
  (forall v, In v seen' <-> In v seen \/ exists cs c, In cs css /\ In c cs /\ v = shown c) /\
  forall m, In m ms <-> exists i j cs, 0 < n + i /\ nth_error css i = Some cs /\ nth_error cs j = Some (Some "Source") /\ m = stage_words p sc [PIdx (n + i); PKey "Actions"; PIdx j] later_words.
Proof.
  induction 1 as [|x cs stages css [s [-> Hx]] H IH]; intros n seen Hs; cbn [source_stages].
  - exists [], seen. split; [reflexivity|]. split; [exact Hs|]. split; [intros v; split; [now left | intros [K|[cs [c [[] _]]]]; exact K]|]. intros m. split; [intros [] | intros [[|i] [j [cs [_ [[=] _]]]]]].
  - assert (K : exists l, bind (vget_def "Actions" (VList []) (VDict s)) iterate_values = Ok l /\ cats l cs).
    { cbn [vget_def bind]. destruct Hx as [[-> ->]|[l [-> Hl]]]; [exists []; split; [reflexivity | constructor] | exists l; split; [reflexivity | exact Hl]]. }
    destruct K as [l [El Hl]]. cbn [vget_def bind] in El |- *. rewrite El. cbn [bind]. destruct (source_actions_says p sc n l cs Hl 0 seen Hs) as [ms [s1 [-> [Hs1 [Hin Hms]]]]]. cbn [bind fst snd].
    destruct (IH (S n) s1 Hs1) as [ms' [s2 [-> [Hs2 [Hin2 Hms2]]]]]. cbn [bind fst snd]. exists (ms ++ ms')%list, s2. split; [reflexivity|]. split; [exact Hs2|]. split.
    + intros v. rewrite Hin2, Hin. cbn. split.
      * intros [[K|[c [K ->]]]|[cs' [c [K1 [K2 ->]]]]]; [now left | right; exists cs, c; auto | right; exists cs', c; auto].
      * intros [K|[cs' [c [[<-|K1] [K2 ->]]]]]; [auto | left; right; eauto | right; exists cs', c; auto].
    + intros m. rewrite in_app_iff, Hms, Hms2. split.
      * intros [[Hn [j [Hj ->]]]|[i [j [cs' [Hn [Hi [Hj ->]]]]]]].
        -- exists 0, j, cs. rewrite PeanoNat.Nat.add_0_r. auto.
        -- exists (S i), j, cs'. rewrite <- PeanoNat.Nat.add_succ_comm. auto.
      * intros [[|i] [j [cs' [Hn [Hi [Hj ->]]]]]].
        -- left. injection Hi as <-. rewrite PeanoNat.Nat.add_0_r in *. split; [exact Hn|]. exists j. auto.
        -- right. exists i, j, cs'. rewrite PeanoNat.Nat.add_succ_comm. auto.
Qed.
Lemma sources_says stages p sc : stages_shaped stages -> says (check_source_actions stages p sc) (fun m => exists q words, stages_fault stages q words /\
  (words = later_words \/ words = only_sources_words) /\ m = stage_words p sc q words).
Proof.
  intros Hsh. destruct (shaped_cats stages Hsh) as [css Hcss]. destruct stages as [|x stages].
  { cbn [check_source_actions]. eapply says_ext; [apply says_none|]. intros m. split; [intros []|]. intros [q [words [F [Hwo _]]]].
    inversion F; subst; try (match goal with H : stage_at [] ?n _ |- _ => destruct n; discriminate H end); [destruct Hwo as [E|E]; discriminate E | congruence]. }
  unfold check_source_actions. set (st := x :: stages) in *. assert (Hne : st <> []) by discriminate.
  destruct (source_stages_says p sc st css Hcss 0 [] (fun v => False_ind _)) as [ms [seen [E [Hs [Hin Hms]]]]]. rewrite E. cbn [bind fst snd].
  eexists. split; [reflexivity|]. intros m. rewrite in_app_iff, Hms.
  assert (Hact : forall n i c, (exists cs, nth_error css n = Some cs /\ nth_error cs i = Some c) <-> exists s a, stage_at st n s /\ action_at s i a /\ category a c).
  { intros n i c. split.
    - intros [cs [H1 H2]]. destruct (nth_stage _ _ _ _ Hcss H1) as [s Hn]. destruct (stage_cats_nth _ _ Hcss n s Hn) as [cs' [E' K]]. rewrite H1 in E'. injection E' as <-. destruct (proj1 (K i c) H2) as [a H3]. exists s, a. auto.
    - intros [s [a [Hn H]]]. destruct (stage_cats_nth _ _ Hcss n s Hn) as [cs' [E' K]]. exists cs'. split; [exact E'|]. apply K. eauto. }
  assert (Hall : forallb (eq_str "Source") seen = true <-> forall n s i a, stage_at st n s -> action_at s i a -> category a (Some "Source")).
  { rewrite forallb_forall. split.
    - intros H n s i a Hn Ha. destruct (actions_categorised s i a st n Hsh Hn Ha) as [c Hc]. destruct (proj2 (Hact n i c)) as [cs [H1 H2]]; [eauto|].
      assert (K : In (shown c) seen) by (apply Hin; right; exists cs, c; eauto using nth_error_In). apply H, source_shown in K as ->. exact Hc.
    - intros H v Hv. apply Hin in Hv as [[]|[cs [c [H1 [H2 ->]]]]]. apply source_shown. apply In_nth_error in H1 as [n H1]. apply In_nth_error in H2 as [i H2].
      destruct (proj1 (Hact n i c)) as [s [a [K1 [K2 K3]]]]; [eauto|]. exact (category_fun _ _ _ K3 (H n s i a K1 K2)). }
  clearbody st.
  split.
  - intros [[i [j [cs [Hn [Hi [Hj ->]]]]]]|K].
    + destruct (proj1 (Hact i j (Some "Source"))) as [s [a [K1 [K2 K3]]]]; [eauto|]. exists [PIdx i; PKey "Actions"; PIdx j], later_words. split; [exact (st_later st i s j a K1 Hn K2 K3)|]. split; [now left | reflexivity].
    + destruct (forallb (eq_str "Source") seen) eqn:Ef; [|destruct K]. destruct K as [<-|[]]. exists [], only_sources_words. split; [apply st_only_sources; [exact Hne | now apply Hall]|]. split; [now right|]. unfold stage_words. now rewrite app_nil_r.
  - intros [q [words [F [Hwo ->]]]]. inversion F as [| | | |n s i a H1 H2 H3 H4 E1 E2|H1 H2 E1 E2|]; subst; try (now destruct Hwo as [K|K]; discriminate K).
    + left. destruct (proj2 (Hact n i (Some "Source"))) as [cs [K1 K2]]; [eauto|]. exists n, i, cs. auto.
    + right. assert (Ef : forallb (eq_str "Source") seen = true) by (now apply Hall). rewrite Ef. left. unfold stage_words. now rewrite app_nil_r.
Qed.
Lemma unique_says p sc stages : (forall x, In x stages -> is_dict x = true) -> forall n seen, says (unique_stages p sc n stages seen) (fun m => exists i s x,
  stage_at stages i s /\ assoc "Name" s = Some (VStr x) /\ (In x seen \/ exists j s', j < i /\ stage_at stages j s' /\ assoc "Name" s' = Some (VStr x)) /\
  m = stage_words p sc [PIdx (n + i); PKey "Name"] ("All stage names within a pipeline must be unique. (" ++ x ++ ")")).
Proof.
  induction stages as [|y stages IH]; intros Hd n seen; cbn [unique_stages].
  - eapply says_ext; [apply says_none|]. intros m. split; [intros []|]. intros [[|i] [s [x [[=] _]]]].
  - pose proof (Hd y (or_introl eq_refl)) as Hy. destruct y as [| | | | | |s]; try discriminate Hy. cbn [vget bind].
    assert (IH' := fun n seen => IH (fun x Hx => Hd x (or_intror Hx)) n seen). clear IH Hd.
    assert (Hskip : (forall x, assoc "Name" s <> Some (VStr x)) -> says (unique_stages p sc (S n) stages seen) (fun m => exists i s0 x,
      stage_at (VDict s :: stages) i s0 /\ assoc "Name" s0 = Some (VStr x) /\ (In x seen \/ exists j s', j < i /\ stage_at (VDict s :: stages) j s' /\ assoc "Name" s' = Some (VStr x)) /\
      m = stage_words p sc [PIdx (n + i); PKey "Name"] ("All stage names within a pipeline must be unique. (" ++ x ++ ")"))).
    { intros Hn. eapply says_ext; [apply IH'|]. intros m. cbv beta. split.
      - intros [i [s0 [x [H1 [H2 [H3 ->]]]]]]. exists (S i), s0, x. split; [exact H1|]. split; [exact H2|]. split; [|now rewrite <- PeanoNat.Nat.add_succ_comm].
        destruct H3 as [H3|[j [s' [Hj H3]]]]; [now left|]. right. exists (S j), s'. split; [lia | exact H3].
      - intros [[|i] [s0 [x [H1 [H2 [H3 ->]]]]]]; [injection H1 as <-; now elim (Hn x)|]. exists i, s0, x. split; [exact H1|]. split; [exact H2|]. split; [|now rewrite <- PeanoNat.Nat.add_succ_comm].
        destruct H3 as [H3|[[|j] [s' [Hj [H3 H4]]]]]; [now left | injection H3 as <-; now elim (Hn x)|]. right. exists j, s'. split; [lia | auto]. }
    destruct (assoc "Name" s) as [v|] eqn:En; [|apply Hskip; discriminate]. destruct v as [| | | |x| |]; try (apply Hskip; discriminate). clear Hskip.
    eapply says_ext; [apply says_cons; apply IH'|]. intros m. cbv beta. split.
    + intros [K|[i [s0 [z [H1 [H2 [H3 ->]]]]]]].
      * destruct (smem x seen) eqn:Es; [|destruct K]. apply smem_iff in Es. destruct K as [<-|[]]. exists 0, s, x. split; [reflexivity|]. split; [exact En|]. split; [now left|]. unfold stage_words. now rewrite PeanoNat.Nat.add_0_r.
      * exists (S i), s0, z. split; [exact H1|]. split; [exact H2|]. split; [|now rewrite <- PeanoNat.Nat.add_succ_comm].
        destruct H3 as [[<-|H3]|[j [s' [Hj H3]]]]; [right; exists 0, s; split; [lia | split; [reflexivity | exact En]] | now left | right; exists (S j), s'; split; [lia | exact H3]].
    + intros [[|i] [s0 [z [H1 [H2 [H3 ->]]]]]].
      * left. injection H1 as <-. rewrite En in H2. injection H2 as <-. destruct H3 as [H3|[j [s' [Hj _]]]]; [|lia]. apply smem_iff in H3. rewrite H3. left. unfold stage_words. now rewrite PeanoNat.Nat.add_0_r.
      * right. exists i, s0, z. split; [exact H1|]. split; [exact H2|]. split; [|now rewrite <- PeanoNat.Nat.add_succ_comm].
        destruct H3 as [H3|[[|j] [s' [Hj [H3 H4]]]]]; [left; now right | injection H3 as <-; left; left; congruence | right; exists j, s'; split; [lia | auto]].
Qed.
Lemma names_says p sc stages : stages_shaped stages -> says (unique_stages p sc 0 stages []) (fun m => exists q words, stages_fault stages q words /\
  (exists x, words = "All stage names within a pipeline must be unique. (" ++ x ++ ")") /\ m = stage_words p sc q words).
Proof.
  intros Hsh. eapply says_ext; [apply unique_says|].
  - intros x Hx. apply In_nth_error in Hx as [n Hn]. destruct (Hsh n x Hn) as [s [-> _]]. reflexivity.
  - intros m. cbv beta. split.
    + intros [i [s [x [H1 [H2 [[[]|[j [s' [Hj [H3 H4]]]]] ->]]]]]]. do 2 eexists. split; [exact (st_same_name stages j i s' s x H3 H1 Hj H4 H2)|]. split; [eauto | reflexivity].
    + intros [q [words [F [[y Hy] ->]]]]. inversion F as [| | | | | |m' n s s' x H1 H2 H3 H4 H5 E1 E2]; subst; try discriminate. exists n, s', x. split; [exact H2|]. split; [exact H5|]. split; [right; exists m', s; auto | reflexivity].
Qed.
Lemma check_says p sc l : stages_shaped l -> says (check_stages p (sc, VList l)) (fun m => exists q words, stages_fault l q words /\ m = stage_words p sc q words).
Proof.
  intros Hsh. unfold check_stages. cbn [fst snd tried]. destruct (count_says l p sc) as [a [-> Ha]], (first_says l p sc Hsh) as [b [-> Hb]], (sources_says l p sc Hsh) as [c [-> Hc]], (names_says p sc l Hsh) as [d [-> Hd]].
  cbn [tried bind]. eexists. split; [reflexivity|]. intros m. rewrite !in_app_iff, Ha, Hb, Hc, Hd. split.
  - intros [[q [words [F [_ [_ [_ ->]]]]]]|[[q [words [F [_ [_ ->]]]]]|[[q [words [F [_ ->]]]]|[[q [words [F [_ ->]]]]|[]]]]]; eauto.
  - intros [q [words [F ->]]]. inversion F as [H1 E1 E2|s i a0 H1 H2 H3 E1 E2|s H1 H2 E1 E2|s i a0 c0 j b0 c' H1 H2 H3 H4 H5 H6 E1 E2|n s i a0 H1 H2 H3 H4 E1 E2|H1 H2 E1 E2|m' n s s' x H1 H2 H3 H4 H5 E1 E2]; subst.
    + left. do 2 eexists. split; [exact F|]. auto.
    + right; left. do 2 eexists. split; [exact F|]. split; [reflexivity|]. split; [now left | reflexivity].
    + right; left. do 2 eexists. split; [exact F|]. split; [reflexivity|]. split; [now right | reflexivity].
    + right; left. do 2 eexists. split; [exact F|]. split; [reflexivity|]. split; [now right | reflexivity].
    + right; right; left. do 2 eexists. split; [exact F|]. split; [now left | reflexivity].
    + right; right; left. do 2 eexists. split; [exact F|]. split; [now right | reflexivity].
    + right; right; right; left. do 2 eexists. split; [exact F|]. split; [eauto | reflexivity].
Qed.
