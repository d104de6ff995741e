(** Packaging and sample values for C13, C14 and C19. *)
From Verif.Model Require Import Base Node Locate Helpers Rules Search.
From Verif.Spec Require Import Paths Branches.
From Verif.Proofs Require Import BaseFacts SearchProofs.

Lemma c13_exact text t globals q x :
  wf t -> wf globals ->
  (In (q, x) (search_deep_keys text t globals) <->
   exists r, q = r ++ [PKey text] /\ (at_path q t = Some x \/ at_path q globals = Some x)).
Proof.
  intros H1 H2. unfold search_deep_keys. rewrite in_app_iff, (search_spec text t H1), (search_spec text globals H2).
  cbn [app]. split.
  - intros [[r [-> H]]|[r [-> H]]]; exists r; auto.
  - intros [r [-> [H|H]]]; [left | right]; exists r; auto.
Qed.
Lemma c13_once text t : wf t -> NoDup (map fst (search_deep_keys text t (VDict []))).
Proof. intros H. unfold search_deep_keys. rewrite app_nil_r. now apply search_NoDup. Qed.
Definition nested_refs : val :=
  VDict [("A", VList [VDict [("Ref", VDict [("Ref", VStr "x")])]]); ("B", VDict [("Ref", VStr "y")])].

(** The finding for a rule match: its position is that of the nearest existing element of the match's path. *)
Lemma c14_finding m0 d file region id rm :
  rm_path rm <> [] -> indices_ok (MDict m0 d) (rm_path rm) ->
  exists f, locate_match (mkCfn file region (MDict m0 d)) id rm = Ok f /\
    ((exists n m, position (MDict m0 d) (rm_path rm) n m /\
        (forall n' m', position (MDict m0 d) (rm_path rm) n' m' -> n' <= n) /\
        f = mkFinding (sl m + 1) (sc m + 1) (el m + 1) (ec m + 1) file id (rm_msg rm)) \/
     ((forall n m, ~ position (MDict m0 d) (rm_path rm) n m) /\ f = mkFinding 1 1 1 1 file id (rm_msg rm))).
Proof.
  intros Hp Hi. unfold locate_match. cbn [c_tmpl c_file]. assert (H := c14_position m0 d _ Hp Hi).
  destruct (get_location (MDict m0 d) (rm_path rm)) as [[m|]|e]; cbn [bind]; [| |destruct H].
  - eexists. split; [reflexivity|]. left. destruct H as [n [H1 H2]]. exists n, m. auto.
  - eexists. split; [reflexivity|]. right. auto.
Qed.
Lemma c14_index_refuted : exists t p, p <> [] /\ get_location t p = Err EIndex /\ exists m0 d, t = MDict m0 d.
Proof.
  exists (MDict (mkMark 0 0 1 0) [(("A", Some (mkMark 0 0 0 1)), MList (mkMark 0 3 0 5) [])]), [PKey "A"; PIdx 0].
  split; [discriminate|]. split; [reflexivity|]. eauto.
Qed.
Lemma c19_values d key v p :
  assoc key d = Some v -> v <> VNull -> (forall q, ~ alternative v p VNull q) ->
  exists l, get_values (VDict d) key p = Ok (Some l) /\ forall w q, In (q, w) l <-> single v p w q.
Proof.
  intros H1 H2 H3. destruct (get_values_spec d key v p H1 H2) as [G1 [[G2 G3] _]].
  destruct (G3 H3) as [l Hl]. exists l. split; [exact Hl | now apply G1].
Qed.
Lemma c19_null : exists d key, get_values (VDict d) key [] = Err ETypeErr.
Proof. exists [("P", VDict [("Fn::If", VList [VStr "c"; VNull; VInt 1])])], "P". reflexivity. Qed.
