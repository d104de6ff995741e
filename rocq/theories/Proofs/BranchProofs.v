(** Branch enumeration: items_safe against the relation of Spec/Branches.v. *)
From Coq Require Import Lia.
From Verif.Model Require Import Base Node.
From Verif.Spec Require Import Branches.
From Verif.Proofs Require Import BaseFacts.

Lemma is_novalue_iff v : is_novalue v = true <-> v = NoValue.
Proof.
  unfold NoValue. split.
  - destruct v as [| | | | | |[|[k x] [|]]]; cbn; try discriminate. intros H. apply andb_true_iff in H as [H1 H2].
    apply String.eqb_eq in H1; subst. apply eq_str_true in H2; now subst.
  - intros ->. reflexivity.
Qed.
Lemma is_novalue_false v : is_novalue v = false <-> v <> NoValue.
Proof. rewrite <- not_true_iff_false, is_novalue_iff. reflexivity. Qed.

Lemma clean_pruned d d' : pruned d d' <-> clean d = d'.
Proof.
  split.
  - induction 1 as [|k d d' H IH|k x d d' Hx H IH]; [reflexivity | exact IH |].
    unfold clean in *; cbn [filter snd]. apply is_novalue_false in Hx. rewrite Hx; cbn. now rewrite IH.
  - intros <-. induction d as [|[k x] d IH]; [constructor|]. unfold clean; cbn [filter snd].
    destruct (is_novalue x) eqn:E; cbn [negb].
    + apply is_novalue_iff in E; subst. constructor. exact IH.
    + apply is_novalue_false in E. constructor; assumption.
Qed.

(** Enumeration of the branches of any value (items_safe on objects, the value itself otherwise). *)
Definition branches (v : val) (p : path) : list (val * path) :=
  match v with VDict _ => items_safe v p | _ => [(v, p)] end.
Lemma items_safe_if c a b p :
  items_safe (If_of (VList [c; a; b])) p =
  branches a (p ++ [PKey "Fn::If"; PIdx 1]) ++ branches b (p ++ [PKey "Fn::If"; PIdx 2]).
Proof. destruct a, b; reflexivity. Qed.
Lemma items_safe_leaf d p :
  ~ is_if (VDict d) -> items_safe (VDict d) p = if is_novalue (VDict d) then [] else [(VDict (clean d), p)].
Proof.
  intros H. destruct d as [|[k x] [|? ?]]; try reflexivity.
  cbn [items_safe]. destruct (String.eqb_spec k "Fn::If") as [->|Hn]; [exfalso; apply H; now exists x|].
  cbn [is_novalue]. destruct (String.eqb k "Ref" && eq_str "AWS::NoValue" x); reflexivity.
Qed.
Lemma is_if_dec v : {x | v = If_of x} + {~ is_if v}.
Proof.
  destruct v as [| | | | | |[|[k x] [|? ?]]]; try (right; intros [y Hy]; discriminate).
  destruct (String.eqb_spec k "Fn::If") as [->|Hn]; [left; now exists x|].
  right. intros [y Hy]. inversion Hy. congruence.
Defined.

Lemma leaf_items v p : ~ is_if v -> v <> NoValue -> exists w, settled v w /\ branches v p = [(w, p)].
Proof.
  intros Hi Hn. destruct v as [| | | | | |d]; try (eexists; split; [now constructor | reflexivity]).
  exists (VDict (clean d)). split; [constructor; now apply clean_pruned|].
  unfold branches. rewrite items_safe_leaf by exact Hi. apply is_novalue_false in Hn. now rewrite Hn.
Qed.
Lemma settled_det v w w' : settled v w -> settled v w' -> w = w'.
Proof.
  intros H H'. destruct H as [d d' H|v H]; inversion H' as [d0 d'' H''|v0 H'']; subst; try discriminate; [|reflexivity].
  apply clean_pruned in H, H''. congruence.
Qed.

Lemma branches_spec v : forall p w q, In (w, q) (branches v p) <-> branch v p w q.
Proof.
  induction v as [v IH] using vsize_ind. intros p w q.
  destruct (is_if_dec v) as [[x ->]|Hni].
  - split.
    + intros H. destruct x as [| | | | |[|c [|a [|b [|? ?]]]]|]; cbn in H; try destruct H.
      change (In (w, q) (items_safe (If_of (VList [c; a; b])) p)) in H.
      rewrite items_safe_if in H. apply in_app_iff in H as [H|H].
      * apply br_then. apply IH; [cbn; lia | exact H].
      * apply br_else. apply IH; [cbn; lia | exact H].
    + intros H. inversion H; subst.
      * change (In (w, q) (items_safe (If_of (VList [c; a; b])) p)). rewrite items_safe_if.
        apply in_app_iff; left. apply IH; [cbn; lia | assumption].
      * change (In (w, q) (items_safe (If_of (VList [c; a; b])) p)). rewrite items_safe_if.
        apply in_app_iff; right. apply IH; [cbn; lia | assumption].
      * exfalso. match goal with H : ~ is_if _ |- _ => apply H end. now exists x.
  - split.
    + intros H. destruct (is_novalue v) eqn:En.
      * apply is_novalue_iff in En; subst. destruct H.
      * apply is_novalue_false in En. destruct (leaf_items v p Hni En) as [w' [Hs Hb]]. rewrite Hb in H.
        destruct H as [H|[]]. inversion H; subst. now constructor.
    + intros H. inversion H; subst; try (exfalso; apply Hni; eexists; reflexivity).
      match goal with Hn : v <> NoValue |- _ => destruct (leaf_items v q Hni Hn) as [w' [Hs Hb]] end.
      rewrite Hb. left. match goal with Hs' : settled v w |- _ => now rewrite (settled_det _ _ _ Hs' Hs) end.
Qed.
Lemma items_safe_spec d p w q : In (w, q) (items_safe (VDict d) p) <-> branch (VDict d) p w q.
Proof. apply (branches_spec (VDict d)). Qed.

(** Paths of branches extend the starting path; each path occurs once. *)
Lemma branch_ext v p w q : branch v p w q -> exists r, q = p ++ r.
Proof.
  induction 1 as [c a b p w q H [r ->]|c a b p w q H [r ->]|v w p Hi Hn Hs].
  - exists ([PKey "Fn::If"; PIdx 1] ++ r). now rewrite app_assoc.
  - exists ([PKey "Fn::If"; PIdx 2] ++ r). now rewrite app_assoc.
  - exists []. now rewrite app_nil_r.
Qed.
Lemma branches_NoDup v : forall p, NoDup (map snd (branches v p)).
Proof.
  induction v as [v IH] using vsize_ind. intros p.
  destruct (is_if_dec v) as [[x ->]|Hni].
  - destruct x as [| | | | |[|c [|a [|b [|? ?]]]]|]; try constructor.
    change (NoDup (map snd (items_safe (If_of (VList [c; a; b])) p))). rewrite items_safe_if, map_app.
    assert (Ha : NoDup (map snd (branches a (p ++ [PKey "Fn::If"; PIdx 1])))) by (apply IH; cbn; lia).
    assert (Hb : NoDup (map snd (branches b (p ++ [PKey "Fn::If"; PIdx 2])))) by (apply IH; cbn; lia).
    revert Ha Hb.
    assert (Hd : forall q, In q (map snd (branches a (p ++ [PKey "Fn::If"; PIdx 1]))) ->
                           In q (map snd (branches b (p ++ [PKey "Fn::If"; PIdx 2]))) -> False).
    { intros q H1 H2. apply in_map_iff in H1 as [[w1 q1] [E1 H1]], H2 as [[w2 q2] [E2 H2]]. cbn in *; subst.
      apply branches_spec, branch_ext in H1 as [r1 R1]. apply branches_spec, branch_ext in H2 as [r2 R2].
      rewrite R2, <- !app_assoc in R1. apply app_inv_head in R1. discriminate. }
    revert Hd. generalize (map snd (branches a (p ++ [PKey "Fn::If"; PIdx 1]))) (map snd (branches b (p ++ [PKey "Fn::If"; PIdx 2]))).
    intros la lb Hd Ha Hb. induction Ha as [|x la Hx Ha IHa]; [exact Hb|]. cbn. constructor.
    + rewrite in_app_iff. intros [H|H]; [contradiction | apply (Hd x); [now left | exact H]].
    + apply IHa. intros q H1 H2. apply (Hd q); [now right | exact H2].
  - destruct (is_novalue v) eqn:En.
    + apply is_novalue_iff in En; subst. constructor.
    + apply is_novalue_false in En. destruct (leaf_items v p Hni En) as [w' [_ Hb]]. rewrite Hb. cbn.
      constructor; [intros [] | constructor].
Qed.
