(** Templates that do not depend on conditions meet what the theorems on runs assume (C95). *)
From Verif.Model Require Import Base Node Locate Helpers Rules Runner Config Core Conditions Resolve PropertyRules BasedOn Standard.
From Verif.Spec Require Import Paths Branches Walk Required Resolved Groups Values Shipped ShippedChecks.
From Verif.Proofs Require Import BaseFacts SearchProofs BranchProofs PropertyRuleProofs GroupProofs StandardObjects StandardNested.
Import Verif.Model.Rules.
Local Open Scope string_scope.

Lemma steady_item l x : steady (VList l) = true -> In x l -> steady x = true.
Proof. intros H Hx. cbn [steady] in H. rewrite forallb_forall in H. now apply H. Qed.
Lemma steady_member d k x : steady (VDict d) = true -> In (k, x) d -> k <> "Fn::If" /\ steady x = true.
Proof.
  intros H Hx. cbn [steady] in H. rewrite forallb_forall in H. specialize (H _ Hx). cbn [fst snd] in H. apply Bool.andb_true_iff in H as [H1 H2]. split; [|exact H2].
  intros ->. discriminate H1.
Qed.
Lemma steady_get d k x : steady (VDict d) = true -> assoc k d = Some x -> k <> "Fn::If" /\ steady x = true.
Proof. intros H Hx. apply assoc_In in Hx. exact (steady_member d k x H Hx). Qed.
Lemma steady_not_if v : steady v = true -> ~ is_if v.
Proof. intros H [x ->]. discriminate H. Qed.
Lemma steady_value v : steady v = true -> v <> NoValue.
Proof. intros H ->. discriminate H. Qed.
Lemma steady_not_null v : steady v = true -> v <> VNull.
Proof. intros H ->. discriminate H. Qed.
Lemma steady_alternative v p w q : steady v = true -> alternative v p w q -> w = v /\ q = p.
Proof. intros H K. destruct K as [c a b p w q K|c a b p w q K|v p K1 K2]; [discriminate H | discriminate H | auto]. Qed.
Lemma steady_pruned d d' : steady (VDict d) = true -> pruned d d' -> d' = d.
Proof.
  intros H K. induction K as [|k d d' K IH|k x d d' Hx K IH]; [reflexivity| |].
  - destruct (steady_member _ k NoValue H (or_introl eq_refl)) as [_ E]. discriminate E.
  - f_equal. apply IH. cbn [steady forallb] in *. apply Bool.andb_true_iff in H as [_ H]. exact H.
Qed.
Lemma steady_branch v p w q : steady v = true -> branch v p w q -> w = v /\ q = p.
Proof.
  intros H K. destruct K as [c a b p w q K|c a b p w q K|v w p K1 K2 K3]; [discriminate H | discriminate H|]. split; [|reflexivity].
  destruct K3 as [d d' K3|v K3]; [|reflexivity]. now rewrite (steady_pruned d d' H K3).
Qed.
Lemma steady_single v p w q : steady v = true -> single v p w q ->
  steady w = true /\ ((is_list v = false /\ w = v /\ q = p) \/ exists l i, v = VList l /\ nth_error l i = Some w /\ q = (p ++ [PIdx i])%list).
Proof.
  intros H K. destruct K as [v p w q K1 K2|v p l q i x w r K1 K2 K3].
  - apply steady_alternative in K1 as [-> ->]; auto.
  - apply steady_alternative in K1 as [E ->]; auto. subst v. assert (Hx : steady x = true) by (apply (steady_item l); [exact H | now apply nth_error_In in K2]).
    apply steady_alternative in K3 as [-> ->]; auto. split; [exact Hx|]. right. exists l, i. auto.
Qed.
Lemma steady_at p : forall t v, steady t = true -> at_path p t = Some v -> steady v = true.
Proof.
  induction p as [|[k|i] p IH]; intros t v H; cbn [at_path]; [now intros [= <-]| |].
  - destruct t as [| | | | | |d]; try discriminate. destruct (assoc k d) as [x|] eqn:E; [|discriminate]. apply IH. exact (proj2 (steady_get d k x H E)).
  - destruct t as [| | | | |l|]; try discriminate. destruct (nth_error l i) as [x|] eqn:E; [|discriminate]. apply IH. apply (steady_item l x H). now apply nth_error_In in E.
Qed.
Lemma steady_ifs v : steady v = true -> plain_ifs v.
Proof.
  induction v as [v IH] using vsize_ind. intros H. destruct v as [|b|z|r|s|l|d]; try constructor.
  - intros x Hx. apply IH; [now apply vsize_list_In | exact (steady_item l x H Hx)].
  - intros x ->. discriminate H.
Qed.
Lemma steady_looks v n : steady v = true -> ~ looks_at v n.
Proof.
  intros H K. induction K as [c t e|c t e n K IH|c t e n K IH|l x n Hx K IH]; try discriminate H. apply IH. exact (steady_item l x H Hx).
Qed.

(** * Objects in a template that does not depend on conditions *)
Definition fits_all (d : list (string * val)) (p : path) : Prop :=
  ~ is_if (VDict d) /\ VDict d <> NoValue /\ NoDup (keys d) /\ plain_object d /\ no_null_member d p /\ no_null_property (VDict d) p /\
  (forall w q, branch (VDict d) p w q -> w = VDict d /\ q = p) /\ (forall n, ~ members_look_at d n) /\ (forall g n, ~ group_looks_at d g n).
Lemma steady_dict d p : wf (VDict d) -> steady (VDict d) = true -> fits_all d p.
Proof.
  intros Hw H. pose proof (steady_branch (VDict d)) as B. split; [now apply steady_not_if|]. split; [now apply steady_value|]. apply wf_dict in Hw as [Hw _]. split; [exact Hw|].
  split; [|split; [|split; [|split; [|split]]]].
  - split; [exact Hw|]. split; [intros x ->; discriminate H|]. intros k x Hx. apply steady_ifs. exact (proj2 (steady_member d k x H Hx)).
  - intros prop x q Hx K. apply steady_get in Hx as [_ Hx]; auto. apply steady_alternative in K as [K _]; auto. subst x. discriminate Hx.
  - intros prop x q r (e & He & Hx) K. apply B in He as [E ->]; auto. injection E as ->. apply steady_get in Hx as [_ Hx]; auto. apply steady_alternative in K as [K _]; auto. subst x. discriminate Hx.
  - intros w q K. now apply B.
  - intros n (k & x & Hx & K). apply steady_member in Hx as [_ Hx]; auto. exact (steady_looks x n Hx K).
  - intros g n (k & x & Hx & _ & K). apply steady_member in Hx as [_ Hx]; auto. exact (steady_looks x n Hx K).
Qed.
Section Objects.
Variable c : cfn.
Hypothesis Hw : wf (template c).
Hypothesis Hs : steady (template c) = true.
Lemma steady_properties rt pd p : properties_of (template c) rt pd p -> steady (VDict pd) = true.
Proof using Hw Hs. intros H. destruct (properties_at c rt pd p Hw H) as [Ha _]. exact (steady_at p _ _ Hs Ha). Qed.
Lemma steady_object {A} sp (rts pts : list (string * A)) n d p a : object_with sp rts pts (template c) n d p a -> steady (VDict d) = true /\ fits_all d p.
Proof using Hw Hs.
  intros H. assert (Ha : at_path p (template c) = Some (VDict d)).
  { destruct H as [[H _]|[H _]]; [exact (proj1 (properties_at c n d p Hw H)) | exact (proj1 (nested_at sp c n (VDict d) p Hw H))]. }
  pose proof (steady_at p _ _ Hs Ha) as H'. split; [exact H'|]. apply steady_dict; [exact (at_path_wf p _ _ Hw Ha) | exact H'].
Qed.
(** What the theorems on runs assume of single objects. *)
Lemma steady_sizes {A} sp (rts pts : list (string * A)) n d p a : object_with sp rts pts (template c) n d p a ->
  ~ is_if (VDict d) /\ VDict d <> NoValue /\ no_null_member d p.
Proof using Hw Hs. intros H. destruct (steady_object _ _ _ _ _ _ _ H) as [_ K]. unfold fits_all in K. tauto. Qed.
Lemma steady_lists {A} sp (rts pts : list (string * A)) n d p a : object_with sp rts pts (template c) n d p a ->
  all_objects (VDict d) p /\ forall e q, branch (VDict d) p (VDict e) q -> plain_object e /\ VDict e <> no_value /\ forall n, ~ members_look_at e n.
Proof using Hw Hs.
  intros H. destruct (steady_object _ _ _ _ _ _ _ H) as [_ (_ & K2 & _ & K4 & _ & _ & K7 & K8 & _)]. split; [intros w q B; apply K7 in B as [-> _]; eauto|].
  intros e q B. apply K7 in B as [[= ->] _]. split; [exact K4|]. split; [exact K2 | exact K8].
Qed.
Lemma steady_values {A} sp (rts pts : list (string * A)) n d p a : object_with sp rts pts (template c) n d p a ->
  all_objects (VDict d) p /\ all_members (VDict d) p /\ no_null_property (VDict d) p.
Proof using Hw Hs.
  intros H. destruct (steady_object _ _ _ _ _ _ _ H) as [_ (_ & K2 & _ & K4 & _ & K6 & K7 & K8 & _)]. split; [intros w q B; apply K7 in B as [-> _]; eauto|].
  split; [|exact K6]. intros w q B. apply K7 in B as [-> _]. left. eauto.
Qed.
Lemma steady_tables {A} sp (rts pts : list (string * A)) n d p a : object_with sp rts pts (template c) n d p a ->
  plain_object d /\ VDict d <> no_value /\ forall n, ~ members_look_at d n.
Proof using Hw Hs. intros H. destruct (steady_object _ _ _ _ _ _ _ H) as [_ (_ & K2 & _ & K4 & _ & K6 & K7 & K8 & _)]. split; [exact K4|]. split; [exact K2 | exact K8]. Qed.
Lemma steady_groups sp rts pts n d p groups : object_with sp rts pts (template c) n d p groups -> (forall group, In group groups -> proper_group group) -> groups_fit d p groups.
Proof using Hw Hs.
  intros H Hg. destruct (steady_object _ _ _ _ _ _ _ H) as [_ (_ & K2 & _ & K4 & _ & K6 & K7 & K8 & K9)]. split; [intros w q B; apply K7 in B as [-> _]; eauto|]. split; [exact Hg|].
  intros e q B. apply K7 in B as [[= ->] _]. split; [exact K4|]. split; [exact K2|]. intros group m _. apply K9.
Qed.
Lemma steady_custom rs : (forall name rt attrs x, resource_of (template c) name rt attrs -> custom_type rs rt -> assoc "Properties" attrs = Some x -> exists props, x = VDict props) ->
  forall name rt attrs x, resource_of (template c) name rt attrs -> custom_type rs rt -> assoc "Properties" attrs = Some x ->
     exists props, x = VDict props /\ all_members (VDict props) [PKey "Resources"; PKey name; PKey "Properties"].
Proof using Hw Hs.
  intros Ho name rt attrs x H1 H2 H3. destruct (Ho name rt attrs x H1 H2 H3) as [props ->]. exists props. split; [reflexivity|].
  assert (Hp : properties_of (template c) rt props [PKey "Resources"; PKey name; PKey "Properties"]) by (exists name, attrs; auto).
  apply steady_properties in Hp. intros w q B. apply steady_branch in B as [-> _]; auto. left. eauto.
Qed.
End Objects.
