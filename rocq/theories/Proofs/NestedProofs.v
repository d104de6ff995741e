(** C76: get_object_without_nested_conditions. *)
From Coq Require Import List Permutation Lia.
From Verif.Model Require Import Base Helpers Conditions Search Resolve.
From Verif.Spec Require Import Paths Branches ConditionUse Truth Resolved Groups Nested.
From Verif.Proofs Require Import BaseFacts SearchProofs ConditionProofs ScenarioMain ResolveProofs SetProofs RelationProofs PropertyRuleProofs ConditionUseProofs.
Import ListNotations.
Local Open Scope string_scope.

(** * The conditions below a path *)
Definition named (r : res conds) (N : string -> Prop) : Prop := exists cs, r = Ok (cs, true) /\ NoDup (keys cs) /\ forall n, In n (keys cs) <-> N n.
Lemma named_ext r N M : named r N -> (forall n, N n <-> M n) -> named r M.
Proof. intros [cs [E [H1 H2]]] H. exists cs. split; [exact E|]. split; [exact H1|]. intros n. now rewrite H2. Qed.
Lemma named_none : named (Ok no_conds) (fun _ => False).
Proof. exists []. split; [reflexivity|]. split; [constructor|]. reflexivity. Qed.
Lemma named_one c t : named (Ok ([(c, t)], true)) (fun n => n = c).
Proof. exists [(c, t)]. split; [reflexivity|]. split; [repeat constructor; intros []|]. intros n. cbn. intuition congruence. Qed.
Lemma add_taken_keys k t r n : In n (keys (add_taken k t r)) <-> n = k \/ In n (keys r).
Proof. unfold add_taken. destruct (assoc k r); apply keys_set_in. Qed.
Lemma add_all_keys child : forall r n, In n (keys (fold_left (fun r kt => add_taken (fst kt) (snd kt) r) child r)) <-> In n (keys r) \/ In n (keys child).
Proof.
  induction child as [|[k t] child IH]; intros r n; cbn [fold_left fst snd]; [cbn; intuition|]. rewrite IH, add_taken_keys. cbn. intuition.
Qed.
Lemma named_add a b N M : named (Ok a) N -> named (Ok b) M -> named (Ok (add_conds a b)) (fun n => N n \/ M n).
Proof.
  intros [ca [Ea [A1 A2]]] [cb [Eb [B1 B2]]]. injection Ea as ->. injection Eb as ->. eexists. split; [reflexivity|]. cbn [fst]. split; [now apply add_all_NoDup|].
  intros n. now rewrite add_all_keys, A2, B2.
Qed.
Lemma named_bind a r N M : named (Ok a) N -> named r M -> named (do child <- r; Ok (add_conds a child)) (fun n => N n \/ M n).
Proof. intros Ha [cs [-> [H1 H2]]]. cbn [bind]. apply named_add; [exact Ha|]. exists cs. auto. Qed.

Lemma walk_key d k x rest : k <> "Fn::If" -> assoc k d = Some x -> rest <> [] ->
  conditions_from_path (VDict d) (PKey k :: rest) false false =
  if smem k FUNCTIONS then Ok no_conds else do child <- conditions_from_path x rest false false; Ok (add_conds no_conds child).
Proof.
  intros Hk Hx Hr. destruct rest as [|r0 rest]; [contradiction|]. remember (r0 :: rest) as rs. cbn [conditions_from_path]. unfold root_condition. apply String.eqb_neq in Hk. rewrite Hk. cbn [andb negb].
  rewrite !andb_true_r. cbn [Resolve.step]. rewrite Hx. subst rs. reflexivity.
Qed.
Lemma walk_item l i x rest : nth_error l i = Some x -> rest <> [] ->
  conditions_from_path (VList l) (PIdx i :: rest) false false = do child <- conditions_from_path x rest false false; Ok (add_conds no_conds child).
Proof. intros Hx Hr. destruct rest as [|r0 rest]; [contradiction|]. remember (r0 :: rest) as rs. cbn [conditions_from_path root_condition andb Resolve.step]. rewrite Hx. subst rs. reflexivity. Qed.
Lemma walk_if c t e i rest : i = 1 \/ i = 2 ->
  conditions_from_path (if_ c t e) (PKey "Fn::If" :: PIdx i :: rest) false false =
  do child <- conditions_from_path (VList [VStr c; t; e]) (PIdx i :: rest) false false; Ok (add_conds ([(c, mkTaken (Nat.eqb i 1) (Nat.eqb i 2))], true) child).
Proof. intros [-> | ->]; reflexivity. Qed.

Lemma tidy_dict d : tidy (VDict d) -> (exists c t e, VDict d = if_ c t e /\ tidy t /\ tidy e) \/ (~ In "Fn::If" (keys d) /\ forall k x, In (k, x) d -> tidy x).
Proof. intros H. inversion H as [| | | | | |c t e Ht He|d0 H1 H2]; subst; [left; exists c, t, e; auto | right; auto]. Qed.
Lemma tidy_args c t e : tidy t -> tidy e -> tidy (VList [VStr c; t; e]).
Proof. intros Ht He. constructor. intros x [<-|[<-|[<-|[]]]]; [constructor | exact Ht | exact He]. Qed.
Lemma key_in {A} k (x : A) d : assoc k d = Some x -> In k (keys d).
Proof. intros H. apply assoc_In in H. unfold keys. apply in_map_iff. now exists (k, x). Qed.

Lemma walk_in p : forall v y, tidy v -> at_path (p ++ [PKey "Fn::If"])%list v = Some y ->
  exists N, named (conditions_from_path v (p ++ [PKey "Fn::If"])%list false false) N /\ forall n, N n -> rests_on v n.
Proof.
  induction p as [|[k|i] p IH]; intros v y Ht; cbn [app at_path].
  - destruct v as [| | | | | |d]; try discriminate. destruct (assoc "Fn::If" d) as [x|] eqn:Ex; [|discriminate]. intros _. apply tidy_dict in Ht as [[c [t [e [-> [Ht He]]]]]|[Hn _]].
    + exists (fun n => n = c). split; [apply named_one|]. intros n ->. constructor.
    + apply key_in in Ex. contradiction.
  - destruct v as [| | | | | |d]; try discriminate. destruct (assoc k d) as [x|] eqn:Ex; [|discriminate]. intros Hp.
    apply tidy_dict in Ht as [[c [t [e [E [Ht He]]]]]|[Hn Hm]].
    + injection E as ->. cbn [assoc] in Ex. destruct (String.eqb_spec k "Fn::If") as [->|_]; [|discriminate]. injection Ex as <-.
      destruct (IH _ _ (tidy_args c t e Ht He) Hp) as [N [HN Hr]].
      destruct p as [|[k|i] p]; cbn [app at_path] in Hp; try discriminate. cbn [app] in *.
      assert (Hi : i = 1 \/ i = 2). { destruct i as [|[|[|i]]]; cbn [nth_error] in Hp; auto; [|destruct i; discriminate]. destruct p as [|[k|j] p]; discriminate. }
      exists (fun n => n = c \/ N n). split.
      * rewrite (walk_if c t e i _ Hi). apply named_bind; [apply named_one | exact HN].
      * intros n [->|H]; [constructor|]. apply Hr in H. inversion H as [| | |l x n' Hx H'|]; subst. destruct Hx as [<-|[<-|[<-|[]]]]; [inversion H' | now apply ro_then | now apply ro_else].
    + assert (Hk : k <> "Fn::If") by (intros ->; apply key_in in Ex; contradiction). rewrite (walk_key d k x _ Hk Ex) by (destruct p; discriminate).
      destruct (smem k FUNCTIONS) eqn:Ef; [exists (fun _ => False); split; [apply named_none | intros n []]|].
      destruct (IH x y) as [N [HN Hr]]; [apply (Hm k); now apply assoc_In | exact Hp|]. exists (fun n => False \/ N n). split; [apply named_bind; [apply named_none | exact HN]|].
      intros n [[]|H]. apply (ro_member d k x n); [now apply assoc_In | | now apply Hr]. intros K. apply smem_iff in K. congruence.
  - destruct v as [| | | | |l|]; try discriminate. destruct (nth_error l i) as [x|] eqn:Ex; [|discriminate]. intros Hp. inversion Ht as [| | | | |l' Hl| |]; subst.
    rewrite (walk_item l i x _ Ex) by (destruct p; discriminate). apply nth_error_In in Ex. destruct (IH x y (Hl x Ex) Hp) as [N [HN Hr]].
    exists (fun n => False \/ N n). split; [apply named_bind; [apply named_none | exact HN]|]. intros n [[]|H]. apply (ro_item l x n Ex). now apply Hr.
Qed.
Lemma walk_to v n : rests_on v n -> wf v -> tidy v ->
  exists p y N, at_path (p ++ [PKey "Fn::If"])%list v = Some y /\ named (conditions_from_path v (p ++ [PKey "Fn::If"])%list false false) N /\ N n.
Proof.
  intros H. induction H as [c t e|c t e n H IH|c t e n H IH|l x n Hx H IH|d k x n Hx Hk H IH]; intros Hw Ht.
  - exists [], (VList [VStr c; t; e]), (fun n => n = c). split; [reflexivity|]. split; [apply named_one | reflexivity].
  - inversion Ht as [| | | | | |c' t' e' Ht' He'|d Hd _]; subst; [|elim Hd; now left]. apply wf_dict in Hw as [_ Hw]. specialize (Hw _ _ (or_introl eq_refl)).
    destruct IH as [p [y [N [Hp [HN Hn]]]]]; [apply (at_path_wf [PIdx 1] _ _ Hw eq_refl) | exact Ht'|].
    exists (PKey "Fn::If" :: PIdx 1 :: p), y, (fun m => m = c \/ (False \/ N m)). split; [exact Hp|]. cbn [app]. split; [|auto].
    rewrite walk_if by auto. apply named_bind; [apply named_one|]. rewrite (walk_item _ 1 t) by (reflexivity || (destruct p; discriminate)). apply named_bind; [apply named_none | exact HN].
  - inversion Ht as [| | | | | |c' t' e' Ht' He'|d Hd _]; subst; [|elim Hd; now left]. apply wf_dict in Hw as [_ Hw]. specialize (Hw _ _ (or_introl eq_refl)).
    destruct IH as [p [y [N [Hp [HN Hn]]]]]; [apply (at_path_wf [PIdx 2] _ _ Hw eq_refl) | exact He'|].
    exists (PKey "Fn::If" :: PIdx 2 :: p), y, (fun m => m = c \/ (False \/ N m)). split; [exact Hp|]. cbn [app]. split; [|auto].
    rewrite walk_if by auto. apply named_bind; [apply named_one|]. rewrite (walk_item _ 2 e) by (reflexivity || (destruct p; discriminate)). apply named_bind; [apply named_none | exact HN].
  - inversion Ht as [| | | | |l' Hl| |]; subst. destruct (In_nth_error _ _ Hx) as [i Hi]. destruct IH as [p [y [N [Hp [HN Hn]]]]]; [apply (at_path_wf [PIdx i] (VList l)); [exact Hw | cbn; now rewrite Hi] | now apply Hl|].
    exists (PIdx i :: p), y, (fun m => False \/ N m). cbn [app at_path]. rewrite Hi. split; [exact Hp|]. split; [|auto].
    rewrite (walk_item l i x) by (exact Hi || (destruct p; discriminate)). apply named_bind; [apply named_none | exact HN].
  - pose proof Hw as Hw'. apply wf_dict in Hw' as [Hd Hw']. assert (Ha : assoc k d = Some x) by now apply assoc_NoDup.
    assert (Hkif : k <> "Fn::If") by (intros ->; apply Hk; apply smem_iff; reflexivity).
    apply tidy_dict in Ht as [[c [t [e [E _]]]]|[_ Hm]]; [injection E as ->; destruct Hx as [[= <- _]|[]]; contradiction|].
    destruct IH as [p [y [N [Hp [HN Hn]]]]]; [now apply (Hw' k) | now apply (Hm k)|].
    exists (PKey k :: p), y, (fun m => False \/ N m). cbn [app at_path]. rewrite Ha. split; [exact Hp|]. split; [|auto].
    rewrite (walk_key d k x) by (exact Hkif || exact Ha || (destruct p; discriminate)). destruct (smem k FUNCTIONS) eqn:Ef; [apply smem_iff in Ef; contradiction|]. apply named_bind; [apply named_none | exact HN].
Qed.
Lemma walk_prefix p : forall t v q N, at_path p t = Some v -> plain_path p -> q <> [] -> named (conditions_from_path v q false false) N -> named (conditions_from_path t (p ++ q)%list false false) N.
Proof.
  induction p as [|[k|i] p IH]; intros t v q N; cbn [app at_path].
  - intros [= ->] _ _ H. exact H.
  - destruct t as [| | | | | |d]; try discriminate. destruct (assoc k d) as [x|] eqn:Ex; [|discriminate]. intros Hp Hpl Hq HN.
    assert (Hk : ~ In k FUNCTIONS) by (apply Hpl; now left). assert (Hkif : k <> "Fn::If") by (intros ->; apply Hk; apply smem_iff; reflexivity).
    rewrite (walk_key d k x _ Hkif Ex) by (destruct p; [exact Hq | discriminate]). destruct (smem k FUNCTIONS) eqn:Ef; [apply smem_iff in Ef; contradiction|].
    eapply named_ext; [apply named_bind; [apply named_none | apply (IH x v q N Hp); [intros k' Hk'; apply Hpl; now right | exact Hq | exact HN]]|]. intuition.
  - destruct t as [| | | | |l|]; try discriminate. destruct (nth_error l i) as [x|] eqn:Ex; [|discriminate]. intros Hp Hpl Hq HN.
    rewrite (walk_item l i x _ Ex) by (destruct p; [exact Hq | discriminate]).
    eapply named_ext; [apply named_bind; [apply named_none | apply (IH x v q N Hp); [intros k' Hk'; apply Hpl; now right | exact Hq | exact HN]]|]. intuition.
Qed.
Lemma pelem_eqb_iff a b : pelem_eqb a b = true <-> a = b.
Proof.
  destruct a as [a|a], b as [b|b]; cbn; try (split; discriminate).
  - rewrite String.eqb_eq. split; congruence.
  - rewrite Nat.eqb_eq. split; congruence.
Qed.
Lemma path_prefix_iff p : forall q, path_prefix p q = true <-> exists r, q = (p ++ r)%list.
Proof.
  induction p as [|a p IH]; intros [|b q]; cbn [path_prefix app]; try (split; [eauto | reflexivity]).
  - split; [discriminate | intros [r [=]]].
  - rewrite andb_true_iff, pelem_eqb_iff, IH. split; [intros [-> [r ->]]; eauto | intros [r [= -> ->]]; eauto].
Qed.
Lemma below_names template p ifs : forall acc A, named (Ok acc) A ->
  (forall r, In (p ++ r)%list ifs -> exists N, named (conditions_from_path template (p ++ r)%list false false) N) ->
  named (below_path template p false ifs acc) (fun n => A n \/ exists r cs, In (p ++ r)%list ifs /\ conditions_from_path template (p ++ r)%list false false = Ok cs /\ In n (keys (fst cs))).
Proof.
  induction ifs as [|q ifs IH]; intros acc A Ha H; cbn [below_path].
  - eapply named_ext; [exact Ha|]. intros n. split; [now left | intros [K|[r [cs [[] _]]]]; exact K].
  - destruct (path_prefix p q) eqn:Ep.
    + apply path_prefix_iff in Ep as [r ->]. destruct (H r (or_introl eq_refl)) as [N HN]. pose proof HN as [cs [E [H1 H2]]]. unfold get_conditions_from_path. rewrite E. cbn [bind].
      eapply named_ext; [apply (IH (add_conds acc (cs, true)) (fun n => A n \/ N n))|].
      * apply named_add; [exact Ha|]. exists cs. auto.
      * intros r' Hr'. apply H. now right.
      * intros n. cbv beta. split.
        -- intros [[K|K]|[r' [cs' [Hi [E' K]]]]]; [now left | right; exists r, (cs, true); split; [now left|]; split; [exact E | now apply H2] | right; exists r', cs'; split; [now right | auto]].
        -- intros [K|[r' [cs' [[Hi|Hi] [E' K]]]]]; [left; now left | | right; exists r', cs'; auto].
           apply app_inv_head in Hi. subst r'. rewrite E in E'. injection E' as <-. left. right. now apply H2.
    + eapply named_ext; [apply (IH acc A Ha)|].
      * intros r Hr. apply H. now right.
      * intros n. split; [intros [K|[r [cs [Hi K]]]]; [now left | right; exists r, cs; split; [now right | exact K]]|].
        intros [K|[r [cs [[Hi|Hi] K]]]]; [now left | | right; exists r, cs; auto]. assert (path_prefix p q = true) by (apply path_prefix_iff; now exists r). congruence.
Qed.
Lemma no_fn_path p r : plain_path p -> p <> (r ++ [PKey "Fn::If"])%list.
Proof. intros H ->. destruct (H "Fn::If"); [apply in_or_app; right; now left | apply smem_iff; reflexivity]. Qed.
Lemma names_below template globals p v : wf template -> wf globals -> at_path p template = Some v -> plain_path p -> at_path p globals = None -> tidy v ->
  named (below_path template p false (map fst (search_deep_keys "Fn::If" template globals)) no_conds) (rests_on v).
Proof.
  intros Hw Hg Hp Hpl Hgp Ht.
  assert (Hin : forall r, In (p ++ r)%list (map fst (search_deep_keys "Fn::If" template globals)) <-> exists r' y, r = (r' ++ [PKey "Fn::If"])%list /\ at_path r v = Some y).
  { intros r. rewrite in_map_iff. split.
    - intros [[q y] [E Hi]]. cbn [fst] in E. apply in_search_deep in Hi as [q0 [Hq Ho]]; [|exact Hw|exact Hg]. rewrite E in Hq. clear E. symmetry in Hq. rename Hq into E. unfold occurs in Ho.
      assert (Hr : exists r', r = (r' ++ [PKey "Fn::If"])%list).
      { destruct (exists_last (l := r)) as [r' [a Ha]].
        - intros ->. rewrite app_nil_r in E. exact (no_fn_path p q0 Hpl (eq_sym E)).
        - subst r. rewrite app_assoc in E. apply app_inj_tail in E as [_ <-]. eauto. }
      destruct Hr as [r' Hr]. exists r', y. split; [exact Hr|]. rewrite E in Ho. rewrite !at_path_app, Hp, Hgp in Ho. destruct Ho as [Ho|Ho]; [exact Ho | discriminate].
    - intros [r' [y [-> Hy]]]. exists ((p ++ r' ++ [PKey "Fn::If"])%list, y). split; [reflexivity|]. apply in_search_deep; [exact Hw | exact Hg|]. exists (p ++ r')%list. split; [now rewrite app_assoc|].
      left. rewrite <- app_assoc, at_path_app, Hp. exact Hy. }
  eapply named_ext; [apply (below_names template p _ no_conds (fun _ => False) named_none)|].
  - intros r Hr. apply Hin in Hr as [r' [y [-> Hy]]]. destruct (walk_in r' v y Ht Hy) as [N [HN _]]. exists N. apply (walk_prefix p template v _ N Hp Hpl); [destruct r'; discriminate | exact HN].
  - intros n. cbv beta. split.
    + intros [[]|[r [cs [Hi [E K]]]]]. apply Hin in Hi as [r' [y [-> Hy]]]. destruct (walk_in r' v y Ht Hy) as [N [HN Hr]].
      assert (HN' : named (conditions_from_path template (p ++ r' ++ [PKey "Fn::If"])%list false false) N) by (apply (walk_prefix p template v _ N Hp Hpl); [destruct r'; discriminate | exact HN]).
      destruct HN' as [cs' [E' [_ H2]]]. rewrite E in E'. injection E' as ->. apply Hr, H2, K.
    + intros H. right. destruct (walk_to v n H) as [r [y [N [Hy [HN Hn]]]]]; [exact (at_path_wf p template v Hw Hp) | exact Ht|].
      assert (HN' : named (conditions_from_path template (p ++ r ++ [PKey "Fn::If"])%list false false) N) by (apply (walk_prefix p template v _ N Hp Hpl); [destruct r; discriminate | exact HN]).
      destruct HN' as [cs [E [_ H2]]]. exists (r ++ [PKey "Fn::If"])%list, (cs, true). split; [apply Hin; eauto|]. split; [exact E | now apply H2].
Qed.
