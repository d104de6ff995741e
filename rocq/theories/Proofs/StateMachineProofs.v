(** C80: E2532 reports exactly the faults of definitions of state machines. *)
From Coq Require Import List.
From Verif.Model Require Import Base Node Locate Helpers Search Rules Refs PropertyRules StateMachine.
From Verif.Spec Require Import Paths Branches Required Walk Values StateMachine.
From Verif.Proofs Require Import BaseFacts SearchProofs BranchProofs PropertyRuleProofs Says CallRun.
Import Verif.Model.Rules.
Import ListNotations.
Local Open Scope string_scope.

(** * The tables *)
Lemma kinds_own t own : assoc t state_keys = Some own -> exists req, state_kind t own req /\ match assoc t state_required with Some l => l | None => [] end = req.
Proof.
  unfold state_keys. cbn [assoc].
  destruct (String.eqb t "Pass") eqn:E1; [apply String.eqb_eq in E1 as ->; intros [= <-]; eexists; split; [constructor|reflexivity]|].
  destruct (String.eqb t "Task") eqn:E2; [apply String.eqb_eq in E2 as ->; intros [= <-]; eexists; split; [constructor|reflexivity]|].
  destruct (String.eqb t "Map") eqn:E3; [apply String.eqb_eq in E3 as ->; intros [= <-]; eexists; split; [constructor|reflexivity]|].
  destruct (String.eqb t "Choice") eqn:E4; [apply String.eqb_eq in E4 as ->; intros [= <-]; eexists; split; [constructor|reflexivity]|].
  destruct (String.eqb t "Wait") eqn:E5; [apply String.eqb_eq in E5 as ->; intros [= <-]; eexists; split; [constructor|reflexivity]|].
  destruct (String.eqb t "Succeed") eqn:E6; [apply String.eqb_eq in E6 as ->; intros [= <-]; eexists; split; [constructor|reflexivity]|].
  destruct (String.eqb t "Fail") eqn:E7; [apply String.eqb_eq in E7 as ->; intros [= <-]; eexists; split; [constructor|reflexivity]|].
  destruct (String.eqb t "Parallel") eqn:E8; [apply String.eqb_eq in E8 as ->; intros [= <-]; eexists; split; [constructor|reflexivity]|].
  discriminate.
Qed.
Lemma kinds_of t own req : state_kind t own req -> assoc t state_keys = Some own /\ match assoc t state_required with Some l => l | None => [] end = req.
Proof. intros H. destruct H; split; reflexivity. Qed.
(** Every type needs at most one key. *)
Lemma kinds_one t own req d : state_kind t own req -> assoc "Type" d <> None ->
  forall k, first_missing d ("Type" :: req) = Some k <-> In k req /\ assoc k d = None.
Proof.
  intros H Ht k. cbn [first_missing]. destruct (assoc "Type" d) eqn:E0; [|congruence].
  destruct H; cbn [first_missing In]; try (split; [discriminate | intros [[] _]]);
  match goal with |- context [assoc ?x d] => destruct (assoc x d) eqn:E1 end;
  (split; [intros [= <-]; auto || fail | intros [[<-|[]] K]; congruence]) || (split; [discriminate | intros [[<-|[]] K]; congruence]).
Qed.
Lemma filter_keys (P : string -> bool) d k : In k (filter P (keys d)) <-> In k (@keys val d) /\ P k = true.
Proof. apply filter_In. Qed.
Lemma not_smem k l : negb (smem k l) = true <-> ~ In k l.
Proof. destruct (smem k l) eqn:E; cbn; [apply smem_iff in E; split; [discriminate | tauto]|]. split; [|reflexivity]. intros _ H. apply smem_iff in H. congruence. Qed.
Lemma no_key k d : ~ In k (@keys val d) <-> assoc k d = None.
Proof. symmetry. apply assoc_None. Qed.

Section Machine.
Variable loads : val -> string + val.
Variable show : val -> string.
Lemma state_says name d p : (forall ty, assoc "Type" d = Some ty -> (forall l, ty <> VList l) /\ (forall o, ty <> VDict o)) ->
  says (check_state show name (VDict d) p) (fun m => exists words, state_fault show name d words /\ m = mkRM p words).
Proof.
  intros Hs. unfold check_state. destruct (assoc "Type" d) as [ty|] eqn:Et.
  2:{ eapply says_ext; [apply says_one|]. intros m. cbv beta. split.
      - intros ->. eexists. split; [now apply st_untyped | reflexivity].
      - intros [words [H ->]]. inversion H; subst; try congruence. reflexivity. }
  destruct (Hs ty eq_refl) as [N1 N2].
  assert (Hbad : (forall t, ty = VStr t -> assoc t state_keys = None) -> says (Ok [mkRM p ("State Machine Definition Type (" ++ shown show ty ++ ") is not valid")]) (fun m => exists words, state_fault show name d words /\ m = mkRM p words)).
  { intros Hb. assert (Hp : prints show ty (shown show ty)) by (destruct ty; cbn [shown]; first [apply pr_text | apply pr_other; discriminate]).
    eapply says_ext; [apply says_one|]. intros m. cbv beta. split.
    - intros ->. eexists. split; [eapply st_type; [exact Et| |exact Hp] | reflexivity]. intros t own req K ->. apply kinds_of in K as [K _]. rewrite (Hb t eq_refl) in K. discriminate K.
    - intros [words [H ->]]. inversion H as [K|ty' s K1 K2 K3|t own req k K1 K2|t own req k K1 K2]; subst.
      + congruence.
      + rewrite Et in K1. injection K1 as <-. f_equal. f_equal. f_equal. inversion K3; subst; inversion Hp; subst; try reflexivity; congruence.
      + rewrite Et in K1. injection K1 as ->. apply kinds_of in K2 as [K2 _]. rewrite (Hb t eq_refl) in K2. discriminate K2.
      + rewrite Et in K1. injection K1 as ->. apply kinds_of in K2 as [K2 _]. rewrite (Hb t eq_refl) in K2. discriminate K2. }
  destruct ty as [|b|z|q|t|l|o]; try (apply Hbad; discriminate); try (now elim (N1 l)); try (now elim (N2 o)).
  change (shown show (VStr t)) with t in *. destruct (assoc t state_keys) as [own|] eqn:Eo.
  2:{ apply Hbad. intros t' [= <-]. exact Eo. }
  clear Hbad. apply kinds_own in Eo as [req [Hk ->]]. pose proof (kinds_one t own req d Hk) as Hm. specialize (Hm ltac:(congruence)).
  eexists. split; [reflexivity|]. intros m. rewrite in_app_iff, in_map_iff. split.
  - intros [[k [<- K]]|K].
    + apply filter_keys in K as [K1 K2]. apply not_smem in K2. rewrite in_app_iff in K2. eexists. split; [|reflexivity]. apply (st_key show name d t own req k Et Hk K1); intros K3; apply K2; [left | right]; exact K3.
    + destruct (first_missing d ("Type" :: req)) as [k|] eqn:Ef; [|destruct K]. destruct K as [<-|[]]. destruct (proj1 (Hm k) eq_refl) as [K1 K2]. eexists. split; [|reflexivity]. eapply st_missing; eauto.
  - intros [words [H ->]]. inversion H as [K|ty' s K1 K2 K3|t' own' req' k K1 K2 K3 K4 K5|t' own' req' k K1 K2 K3 K4]; subst.
    + congruence.
    + rewrite Et in K1. injection K1 as <-. elim (K2 _ _ _ Hk eq_refl).
    + rewrite Et in K1. injection K1 as <-. left. exists k. split; [reflexivity|]. apply filter_keys. split; [exact K3|]. apply not_smem. rewrite in_app_iff.
      apply kinds_of in K2 as [K2 _]. apply kinds_of in Hk as [Hk _]. rewrite K2 in Hk. injection Hk as ->. intros [K|K]; [now apply K4 | now apply K5].
    + rewrite Et in K1. injection K1 as <-. right. assert (req' = req) as ->. { apply kinds_of in K2 as [_ K2]. apply kinds_of in Hk as [_ Hk]. congruence. }
      rewrite (proj2 (Hm k) (conj K3 K4)). now left.
Qed.
Lemma definition_says v p : definition_shaped v ->
  says (check_definition show v p) (fun m => exists d words, v = VDict d /\ definition_fault show d words /\ m = mkRM p words).
Proof.
  intros [d [-> Hd]]. unfold check_definition.
  assert (Hst : says (match assoc "States" d with None => Ok [] | Some (VDict s) => concat_res (fun nv => check_state show (fst nv) (snd nv) p) s | Some _ => Err EAttribute end)
    (fun m => exists states name st words, assoc "States" d = Some (VDict states) /\ In (name, VDict st) states /\ state_fault show name st words /\ m = mkRM p words)).
  { destruct (assoc "States" d) as [s|] eqn:Es.
    - destruct (Hd s eq_refl) as [states [-> Hn]]. eapply says_ext; [apply says_concat with (P := fun nv m => exists st words, snd nv = VDict st /\ state_fault show (fst nv) st words /\ m = mkRM p words)|].
      + intros [name st] Hi. cbn [fst snd]. destruct (Hn name st Hi) as [sd [-> Ht]]. eapply says_ext; [apply (state_says name sd p Ht)|]. intros m. cbv beta. split.
        * intros [words K]. exists sd, words. tauto.
        * intros [st [words [[= <-] K]]]. eauto.
      + intros m. cbv beta. split.
        * intros [[name st] [Hi [sd [words [E [K ->]]]]]]. cbn [fst snd] in *. subst st. exists states, name, sd, words. auto.
        * intros [states' [name [st [words [[= <-] [Hi [K ->]]]]]]]. exists (name, VDict st). split; [exact Hi|]. exists st, words. auto.
    - eapply says_ext; [apply says_none|]. intros m. split; [intros [] | intros [? [? [? [? [[=] _]]]]]]. }
  eapply says_ext; [apply says_cons; exact Hst|]. intros m. cbv beta. rewrite in_app_iff, !in_map_iff. split.
  - intros [[[k [<- K]]|[k [<- K]]]|[states [name [st [words [K1 [K2 [K3 ->]]]]]]]]; exists d; eexists; (split; [reflexivity|]); (split; [|reflexivity]).
    + apply filter_keys in K as [K1 K2]. apply not_smem in K2. now apply df_key.
    + apply filter_In in K as [K1 K2]. apply not_smem in K2. apply no_key in K2. apply df_missing; [|exact K2]. destruct K1 as [<-|[<-|[]]]; auto.
    + eapply df_state; eauto.
  - intros [d' [words [[= <-] [H ->]]]]. inversion H as [k K1 K2|k K1 K2|states name st w K1 K2 K3]; subst.
    + left. left. exists k. split; [reflexivity|]. apply filter_keys. split; [exact K1|]. now apply not_smem.
    + left. right. exists k. split; [reflexivity|]. apply filter_In. split; [destruct K1 as [->| ->]; [now left | right; now left]|]. apply not_smem. now apply no_key.
    + right. exists states, name, st, words. auto.
Qed.
Definition value_words (w : val) (r : path) (m : rulematch) : Prop :=
  (exists err, loads w = inl err /\ m = mkRM r ("State Machine Definition needs to be formatted as JSON. Error " ++ err)) \/
  (exists d words, loads w = inr (VDict d) /\ definition_fault show d words /\ m = mkRM r words).
Definition sub_words (y : val) (r : path) (m : rulematch) : Prop :=
  exists x d words, sub_text y x /\ loads x = inr (VDict d) /\ definition_fault show d words /\ m = mkRM (r ++ [PKey "Fn::Sub"])%list words.
Lemma machine_value_says w r : (forall v, loads w = inr v -> definition_shaped v) -> says (machine_value loads show true w r) (value_words w r).
Proof.
  intros H. unfold machine_value, value_words. destruct (loads w) as [err|v].
  - eapply says_ext; [apply says_one|]. intros m. cbv beta. split; [intros ->; left; eauto | intros [[e [[= <-] ->]]|[d [words [[=] _]]]]; reflexivity].
  - eapply says_ext; [apply (definition_says v r (H v eq_refl))|]. intros m. cbv beta. split.
    + intros [d [words [-> K]]]. right. exists d, words. tauto.
    + intros [[e [[=] _]]|[d [words [[= ->] K]]]]. exists d, words. tauto.
Qed.
Lemma sub_value_says w r : (forall v, loads w = inr v -> definition_shaped v) ->
  says (machine_value loads show false w r) (fun m => exists d words, loads w = inr (VDict d) /\ definition_fault show d words /\ m = mkRM r words).
Proof.
  intros H. unfold machine_value. destruct (loads w) as [err|v].
  - eapply says_ext; [apply says_none|]. intros m. cbv beta. split; [intros [] | intros [d [words [[=] _]]]].
  - eapply says_ext; [apply (definition_says v r (H v eq_refl))|]. intros m. cbv beta. split.
    + intros [d [words [-> K]]]. exists d, words. tauto.
    + intros [d [words [[= ->] K]]]. exists d, words. tauto.
Qed.
Lemma machine_sub_says y r : y <> VList [] -> (forall x v, sub_text y x -> loads x = inr v -> definition_shaped v) ->
  says (machine_sub loads show y (r ++ [PKey "Fn::Sub"])%list) (sub_words y r).
Proof.
  intros Hn H. unfold sub_words. assert (Hno : (forall x, ~ sub_text y x) -> says (Ok []) (fun m : rulematch => exists x d words, sub_text y x /\ loads x = inr (VDict d) /\ definition_fault show d words /\ m = mkRM (r ++ [PKey "Fn::Sub"])%list words)).
  { intros K. eapply says_ext; [apply says_none|]. intros m. split; [intros [] | intros [x [d [words [K' _]]]]; elim (K x K')]. }
  destruct y as [|b|z|q|t|[|x l]|o]; try (apply Hno; intros x K; inversion K); [| congruence |].
  - eapply says_ext; [apply (sub_value_says (VStr t)); intros v; apply H; constructor|]. intros m. cbv beta. split.
    + intros [d [words K]]. exists (VStr t), d, words. split; [constructor | exact K].
    + intros [x [d [words [K1 K]]]]. inversion K1; subst. eauto.
  - eapply says_ext; [apply (sub_value_says x); intros v; apply H; constructor|]. intros m. cbv beta. split.
    + intros [d [words K]]. exists x, d, words. split; [constructor | exact K].
    + intros [x' [d [words [K1 K]]]]. inversion K1; subst. eauto.
Qed.
Lemma fault_words w r q words : machine_fault loads show w r q words <->
  (~ is_call w /\ value_words w r (mkRM q words)) \/ (exists v, w = VDict [("Fn::Sub", v)] /\ sub_words v r (mkRM q words)).
Proof.
  split.
  - intros H. destruct H as [err H1 H2|d words H1 H2 H3|y x d words H1 H2 H3 H4].
    + left. split; [exact H1|]. left. eauto.
    + left. split; [exact H1|]. right. exists d, words. auto.
    + right. exists y. split; [exact H1|]. exists x, d, words. auto.
  - intros [[H1 [[err [H2 [= -> ->]]]|[d [ws [H2 [H3 [= -> ->]]]]]]]|[y [-> [x [d [ws [H2 [H3 [H4 [= -> ->]]]]]]]]]].
    + now apply mf_json.
    + eapply mf_value; eauto.
    + eapply mf_sub; eauto.
Qed.
Lemma shaped_says pd p : machine_shaped loads pd p ->
  forall x, assoc "DefinitionString" pd = Some x -> (forall q, ~ alternative x (p ++ [PKey "DefinitionString"])%list VNull q) /\
     (forall w r, single x (p ++ [PKey "DefinitionString"])%list w r -> ~ is_call w -> says (machine_value loads show true w r) (value_words w r)) /\
     (forall v r, single x (p ++ [PKey "DefinitionString"])%list (VDict [("Fn::Sub", v)]) r -> says (machine_sub loads show v (r ++ [PKey "Fn::Sub"])%list) (sub_words v r)).
Proof.
  intros H x Hx. destruct (H x Hx) as [Hn Hs]. split; [exact Hn|]. split.
  - intros w r Hw Hc. apply machine_value_says. now apply (proj1 (Hs w r Hw)).
  - intros v r Hw. destruct (proj2 (Hs _ r Hw) v eq_refl) as [K1 K2]. now apply machine_sub_says.
Qed.
Lemma c80_machine pd p : machine_shaped loads pd p ->
  exists ms, machine_check loads show (VDict pd) p = Ok ms /\ forall m, In m ms <->
    exists x w r q words, assoc "DefinitionString" pd = Some x /\ single x (p ++ [PKey "DefinitionString"])%list w r /\ machine_fault loads show w r q words /\ m = mkRM q words.
Proof.
  intros H. destruct (call_says "Fn::Sub" (machine_value loads show true) (machine_sub loads show) "DefinitionString" pd p value_words sub_words) as [ms [E Hms]].
  { apply smem_iff. reflexivity. }
  { now apply shaped_says. }
  exists ms. split; [exact E|]. intros m. rewrite Hms. split.
  - intros [x [w [r [Hx [Hw K]]]]]. exists x, w, r, (rm_path m), (rm_msg m). destruct m as [q words]. cbn [rm_path rm_msg]. split; [exact Hx|]. split; [exact Hw|]. split; [now apply fault_words | reflexivity].
  - intros [x [w [r [q [words [Hx [Hw [K ->]]]]]]]]. exists x, w, r. split; [exact Hx|]. split; [exact Hw|]. now apply fault_words.
Qed.
Lemma c80_machine_run sp k c raw name attrs pd m0 d0 x w r q words :
  snd (coll_run sp k c) = Ok raw -> In (machine_rule loads show) (k_all k) -> enabled (k_set k) (machine_rule loads show) = true ->
  wf (template c) -> c_tmpl c = MDict m0 d0 -> resource_of (template c) name "AWS::StepFunctions::StateMachine" attrs -> assoc "Properties" attrs = Some (VDict pd) ->
  machine_shaped loads pd (props_path name) -> assoc "DefinitionString" pd = Some x ->
  single x (props_path name ++ [PKey "DefinitionString"])%list w r -> machine_fault loads show w r q words ->
  exists f, locate_match c "E2532" (mkRM q words) = Ok f /\ In f raw.
Proof.
  intros Hrun Hr He Hw Hc Hres Hp Hs Hx Hsing Hf.
  apply (call_run "Fn::Sub" sp k c raw (machine_rule loads show) (machine_value loads show true) (machine_sub loads show) "DefinitionString" name "AWS::StepFunctions::StateMachine" attrs pd m0 d0 value_words sub_words x w r); auto.
  - apply smem_iff. reflexivity.
  - now left.
  - now apply shaped_says.
  - intros w' r' m [[err [_ ->]]|[d [ws [_ [_ ->]]]]]; reflexivity.
  - intros v r' m [y [d [ws [_ [_ [_ ->]]]]]]. reflexivity.
  - now apply fault_words.
Qed.
End Machine.
