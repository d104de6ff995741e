(** Where the members of the branches of an object are in the template, and paths that lead out of it. *)
From Coq Require Import List.
From Verif.Model Require Import Base Locate Rules.
From Verif.Spec Require Import Paths Branches Walk.
From Verif.Proofs Require Import BaseFacts SearchProofs SearchWitness ReportProofs PropertyRuleProofs ValueWitness.
Import ListNotations.
Local Open Scope string_scope.

(** Members of branches *)
Lemma branch_member_at t v p d q k x : wf t -> branch v p (VDict d) q -> at_path p t = Some v -> In (k, x) d -> at_path (q ++ [PKey k])%list t = Some x.
Proof.
  intros Hw Hb Hp Hi. destruct (branch_settled _ _ _ _ Hb t Hp) as [y [Hq Hs]]. inversion Hs as [d0 d' Hd|? E]; subst; [|discriminate E].
  rewrite at_path_app, Hq. cbn [at_path]. apply (pruned_sub _ _ Hd) in Hi. pose proof (at_path_wf _ _ _ Hw Hq) as Hw'. apply wf_dict in Hw' as [Hn _].
  now rewrite (assoc_NoDup _ _ _ Hn Hi).
Qed.
Lemma branch_member_nonempty v p d q (k : string) : branch v p (VDict d) q -> (q ++ [PKey k])%list <> [].
Proof. intros _ H. now apply app_eq_nil in H as [_ [=]]. Qed.
(** A path is fine if the rest of it is, seen from the value the beginning leads to. *)
Lemma indices_after p s : forall t x, at_path p (erase t) = Some x -> (forall t', erase t' = x -> indices_ok t' s) -> indices_ok t (p ++ s)%list.
Proof.
  induction p as [|e p IH]; intros t x H Hs.
  - injection H as H. exact (Hs t H).
  - intros before i after c E L. destruct before as [|e' before].
    + cbn in E. injection E as -> <-. inversion L; subst. destruct c as [v|? ?|? l|? ?]; cbn [erase at_path] in H.
      * destruct v; try exact I; discriminate.
      * discriminate.
      * rewrite nth_error_map in H. destruct (nth_error l i) eqn:En; [|discriminate]. apply nth_error_Some. congruence.
      * exact I.
    + cbn in E. injection E as <- E. inversion L; subst; cbn [erase at_path] in H.
      * rewrite massoc_erase in H. match goal with K : massoc _ _ = Some _ |- _ => rewrite K in H end. cbn [option_map] in H. exact (IH _ _ H Hs _ _ _ _ E ltac:(eassumption)).
      * rewrite nth_error_map in H. match goal with K : nth_error _ _ = Some _ |- _ => rewrite K in H end. cbn [option_map] in H. exact (IH _ _ H Hs _ _ _ _ E ltac:(eassumption)).
Qed.
Lemma indices_key t k : indices_ok t [PKey k].
Proof. intros before i after c E. destruct before as [|? [|? ?]]; discriminate E. Qed.
(** From a value that has no member [k] nothing is reached through [k]. *)
Lemma indices_gone t k rest : at_path [PKey k] (erase t) = None -> indices_ok t (PKey k :: rest).
Proof.
  intros H before i after c E L. destruct before as [|e before]; [discriminate E|]. injection E as <- _. inversion L; subst.
  cbn [erase at_path] in H. rewrite massoc_erase in H. match goal with K : massoc _ _ = Some _ |- _ => rewrite K in H end. discriminate H.
Qed.

(** * Findings of rules on properties, at paths that need not be in the template *)
Lemma reported_props_ok sp k c raw r f name rt attrs pd ms m m0 d0 :
  snd (coll_run sp k c) = Ok raw -> In r (k_all k) -> enabled (k_set k) r = true -> r_match_props r = Some f -> In rt (r_types r ++ fst (r_init r c))%list ->
  c_tmpl c = MDict m0 d0 -> resource_of (template c) name rt attrs -> assoc "Properties" attrs = Some (VDict pd) ->
  f (r_config r) c (VDict pd) rt (props_path name) = Ok ms ->
  (forall m, In m ms -> rm_path m <> [] /\ indices_ok (c_tmpl c) (rm_path m)) -> In m ms ->
  exists fi, locate_match c (r_id r) m = Ok fi /\ In fi raw.
Proof.
  intros Hrun Hr He Hf Hrt Hc Hres Hp Hok Hat Hm.
  set (r' := add_types r (fst (r_init r c)) (snd (r_init r c))).
  assert (Hr' : In r' (rules (fst (coll_run sp k c)))).
  { unfold coll_run. cbn [fst]. unfold rules, initialize_all. cbn [k_all k_set]. apply filter_In. split; [|exact He]. apply in_map_iff. exists r. rewrite He. auto. }
  destruct (c06_props sp k c raw r' name rt attrs pd Hrun Hr' Hres Hp) as [H _].
  assert (Hl : forall x, In x ms -> exists y, locate_match c (r_id r) x = Ok y).
  { intros x Hx. destruct (Hat x Hx) as [Hne Hi]. destruct c as [file region t]. cbn in Hc. subst t. cbn in Hi. destruct (c14_finding m0 d0 file region (r_id r) x Hne Hi) as [y [Hy _]]. eauto. }
  destruct (Hl m Hm) as [fi Hfi]. exists fi. split; [exact Hfi|].
  set (g := fun x => match locate_match c (r_id r) x with Ok y => y | Err _ => fi end).
  assert (Hmap : map_res (locate_match c (r_id r)) ms = Ok (map g ms)) by (apply map_res_Ok; intros x Hx; unfold g; destruct (Hl x Hx) as [y ->]; reflexivity).
  apply (H (map g ms)).
  - unfold matchall_props, r'. cbn [add_types r_match_props r_types r_config r_id]. rewrite Hf.
    assert (E : smem rt (r_types r ++ fst (r_init r c)) = true) by (now apply smem_iff). rewrite E. cbn [negb]. unfold props_path in Hok. rewrite Hok. exact Hmap.
  - apply in_map_iff. exists m. split; [|exact Hm]. unfold g. now rewrite Hfi.
Qed.
(** A path that goes on with a key from a text leads out of the template. *)
Definition key_first (l : path) : Prop := match l with PIdx _ :: _ => False | _ => True end.
Lemma key_first_app l l' : key_first l -> l <> [] -> key_first (l ++ l')%list.
Proof. destruct l as [|[k|i] l]; [congruence | intros _ _; exact I | intros []]. Qed.
Lemma branch_key_first v p w q : branch v p w q -> exists l, q = (p ++ l)%list /\ key_first l.
Proof.
  induction 1 as [c a b p w q _ [l [-> _]]|c a b p w q _ [l [-> _]]|v w p].
  - exists ([PKey "Fn::If"; PIdx 1] ++ l)%list. split; [now rewrite app_assoc | exact I].
  - exists ([PKey "Fn::If"; PIdx 2] ++ l)%list. split; [now rewrite app_assoc | exact I].
  - exists []. split; [now rewrite app_nil_r | exact I].
Qed.
Lemma indices_text c r s l : at_path r (template c) = Some (VStr s) -> key_first l -> indices_ok (c_tmpl c) (r ++ l)%list.
Proof.
  intros Hr Hl. apply (indices_after _ _ _ _ Hr). intros t' Ht'. destruct l as [|[k|i] l]; [intros before i after x E; destruct before; discriminate E | | destruct Hl].
  apply indices_gone. now rewrite Ht'.
Qed.
