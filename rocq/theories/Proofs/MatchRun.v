(** What a rule's check of the whole template finds is in the report of a run. *)
From Coq Require Import List.
Import ListNotations.
From Verif.Model Require Import Base Node Locate Helpers Rules.
From Verif.Spec Require Import Paths Pipeline.
From Verif.Proofs Require Import BaseFacts SearchProofs SearchWitness ReportProofs PropertyRuleProofs.
Local Open Scope string_scope.

Lemma reported_match sp k c raw r f ms m m0 d0 :
  snd (coll_run sp k c) = Ok raw -> In r (k_all k) -> enabled (k_set k) r = true -> r_match r = Some f ->
  c_tmpl c = MDict m0 d0 -> f (r_config r) c = Ok ms ->
  (forall m, In m ms -> rm_path m <> [] /\ indices_ok (c_tmpl c) (rm_path m)) -> In m ms ->
  exists fi, locate_match c (r_id r) m = Ok fi /\ In fi raw.
Proof.
  intros Hrun Hr He Hf Hc Hok Hat Hm.
  set (r' := add_types r (fst (r_init r c)) (snd (r_init r c))).
  assert (Hr' : In r' (rules (fst (coll_run sp k c)))).
  { unfold coll_run. cbn [fst]. unfold rules, initialize_all. cbn [k_all k_set]. apply filter_In. split; [|exact He]. apply in_map_iff. exists r. rewrite He. auto. }
  destruct (c06_match sp k c raw r' Hrun Hr') as [H _].
  assert (Hl : forall x, In x ms -> exists y, locate_match c (r_id r) x = Ok y).
  { intros x Hx. destruct (Hat x Hx) as [Hp Hi]. destruct c as [file region t]. cbn [c_tmpl] in *. subst t.
    destruct (c14_finding m0 d0 file region (r_id r) x Hp Hi) as [y [Hy _]]. eauto. }
  destruct (Hl m Hm) as [fi Hfi]. exists fi. split; [exact Hfi|].
  set (g := fun x => match locate_match c (r_id r) x with Ok y => y | Err _ => fi end).
  assert (Hmap : map_res (locate_match c (r_id r)) ms = Ok (map g ms)) by (apply map_res_Ok; intros x Hx; unfold g; destruct (Hl x Hx) as [y ->]; reflexivity).
  apply (H (map g ms)).
  - unfold matchall, r'. cbn [add_types r_match r_config r_id]. rewrite Hf, Hok. exact Hmap.
  - apply in_map_iff. exists m. split; [|exact Hm]. unfold g. now rewrite Hfi.
Qed.
(** For findings at places that are there. *)
Lemma reported_match_at sp k c raw r f ms m m0 d0 :
  snd (coll_run sp k c) = Ok raw -> In r (k_all k) -> enabled (k_set k) r = true -> r_match r = Some f ->
  c_tmpl c = MDict m0 d0 -> f (r_config r) c = Ok ms ->
  (forall m, In m ms -> rm_path m <> [] /\ exists x, at_path (rm_path m) (template c) = Some x) -> In m ms ->
  exists fi, locate_match c (r_id r) m = Ok fi /\ In fi raw.
Proof.
  intros Hrun Hr He Hf Hc Hok Hat Hm. apply (reported_match sp k c raw r f ms m m0 d0 Hrun Hr He Hf Hc Hok); [|exact Hm].
  intros x Hx. destruct (Hat x Hx) as [Hp [y Hy]]. split; [exact Hp|]. now apply (at_path_indices _ _ y).
Qed.
