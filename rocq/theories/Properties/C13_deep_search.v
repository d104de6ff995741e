(** C13 Deep key search. *)
From Verif.Model Require Import Base Search.
From Verif.Spec Require Import Paths.
From Verif.Proofs Require Import SearchProofs SearchWitness.

(** The search finds [x] at path [q] exactly when [q] ends in the key and [x] is the value there, in the template or in the
    Globals section set aside by the transform. *)
Theorem search_finds_exactly : forall text t globals q x,
  wf t -> wf globals ->
  (In (q, x) (search_deep_keys text t globals) <->
   exists r, q = r ++ [PKey text] /\ (at_path q t = Some x \/ at_path q globals = Some x)).
Proof. exact c13_exact. Qed.

(** Each place is reported once. *)
Theorem search_finds_once : forall text t, wf t -> NoDup (map fst (search_deep_keys text t (VDict []))).
Proof. exact c13_once. Qed.

Example search_example :
  wf nested_refs /\
  search_deep_keys "Ref" nested_refs (VDict []) =
  [([PKey "A"; PIdx 0; PKey "Ref"], VDict [("Ref", VStr "x")]);
   ([PKey "A"; PIdx 0; PKey "Ref"; PKey "Ref"], VStr "x");
   ([PKey "B"; PKey "Ref"], VStr "y")].
Proof. split; [cbn; repeat constructor; cbn; intuition discriminate | reflexivity]. Qed.

Print Assumptions search_finds_exactly.
Print Assumptions search_finds_once.
