(** C19 Branch enumeration. *)
From Verif.Model Require Import Base Node Search.
From Verif.Spec Require Import Branches.
From Verif.Proofs Require Import BranchProofs SearchProofs SearchWitness.

(** dict_node.items_safe yields exactly the objects some choice of branches produces, with their paths, each once. *)
Theorem items_safe_exact : forall d p w q, In (w, q) (items_safe (VDict d) p) <-> branch (VDict d) p w q.
Proof. exact items_safe_spec. Qed.
Theorem items_safe_once : forall d p, NoDup (map snd (items_safe (VDict d) p)).
Proof. exact (fun d => branches_NoDup (VDict d)). Qed.
Theorem list_items_safe_exact : forall l p t w q,
  In (w, q) (list_items_safe t l p) <->
  t w = true /\ exists i x, nth_error l i = Some x /\ branch x (p ++ [PIdx i]) w q.
Proof. exact list_items_safe_spec. Qed.
(** get_safe on a key that is there (without default), without and with a type filter. *)
Theorem get_safe_exact : forall d key v p t,
  assoc key d = Some v -> v <> VNull ->
  exists l, get_safe d key VNull p None = Ok l /\ (forall w q, In (w, q) l <-> branch v (p ++ [PKey key]) w q) /\
  get_safe d key VNull p (Some t) = Ok (filter (fun wq => t (fst wq)) l).
Proof. exact get_safe_spec. Qed.
(** Template.get_condition_values on the arguments of an Fn::If. *)
Theorem condition_values_exact : forall x p w q,
  In (q, w) (condition_values x (p ++ [PKey "Fn::If"])) <-> alternative (If_of x) p w q.
Proof. exact condition_values_spec. Qed.
(** Template.get_values.  Missing: a value with a branch that is null, see below. *)
Theorem get_values_exact_partial : forall d key v p,
  assoc key d = Some v -> v <> VNull -> (forall q, ~ alternative v p VNull q) ->
  exists l, get_values (VDict d) key p = Ok (Some l) /\ forall w q, In (q, w) l <-> single v p w q.
Proof. exact c19_values. Qed.
(** A branch that is null (allowed in a list) raises an exception. *)
Theorem get_values_null_refuted : exists d key, get_values (VDict d) key [] = Err ETypeErr.
Proof. exact c19_null. Qed.

Example branch_example :
  let v := If_of (VList [VStr "c"; If_of (VList [VStr "d"; NoValue; VDict [("X", VInt 1); ("Y", NoValue)]]); NoValue]) in
  items_safe v [] = [(VDict [("X", VInt 1)], [PKey "Fn::If"; PIdx 1; PKey "Fn::If"; PIdx 2])] /\
  get_values (VDict [("P", v)]) "P" [] =
    Ok (Some [([PKey "Fn::If"; PIdx 1; PKey "Fn::If"; PIdx 2], VDict [("X", VInt 1); ("Y", NoValue)])]) /\
  forall q, ~ alternative v [] VNull q.
Proof.
  cbv zeta. split; [reflexivity|]. split; [reflexivity|]. intros q H. apply one_branch_spec in H.
  destruct H as [H|[]]. discriminate H.
Qed.

Print Assumptions items_safe_exact.
Print Assumptions items_safe_once.
Print Assumptions list_items_safe_exact.
Print Assumptions get_safe_exact.
Print Assumptions condition_values_exact.
Print Assumptions get_values_exact_partial.
Print Assumptions get_values_null_refuted.
