(** C20 Circular dependencies. *)
From Coq Require Import Relations.
From Verif.Model Require Import Base Graph.
From Verif.Spec Require Import Paths Dependencies.
From Verif.Proofs Require Import GraphProofs.

(** Every reported pair is a dependency that lies on a cycle. *)
Theorem reported_pairs_are_on_cycles : forall find_cycle template globals,
  finds_cycles find_cycle -> wf template -> wf globals -> at_path [PKey "Resources"] globals = None -> plain_functions template ->
  forall ms m, circular_match template globals find_cycle = Ok ms -> In m ms ->
  exists a b, m = mkRM [PKey "Resources"; PKey a]
                       ("Circular Dependencies for resource " ++ a ++ ". Circular dependency with [" ++ b ++ "]")%string /\
    depends template a b /\ clos_refl_trans _ (depends template) b a.
Proof. exact c20_sound. Qed.
Print Assumptions reported_pairs_are_on_cycles.

(** From every resource that leads to a cycle, a reported cycle can be reached; so a template with a cycle is reported. *)
Theorem cycles_are_reported : forall find_cycle template globals,
  finds_cycles find_cycle -> wf template -> wf globals -> at_path [PKey "Resources"] globals = None -> plain_functions template ->
  forall ms r a, circular_match template globals find_cycle = Ok ms ->
  clos_refl_trans _ (depends template) r a -> clos_trans _ (depends template) a a ->
  exists x y, In (mkRM [PKey "Resources"; PKey x]
                       ("Circular Dependencies for resource " ++ x ++ ". Circular dependency with [" ++ y ++ "]")%string) ms /\
    clos_refl_trans _ (depends template) r x /\ depends template x y /\ clos_refl_trans _ (depends template) y x.
Proof. exact c20_complete. Qed.
Print Assumptions cycles_are_reported.

(** The check never fails on such a template, and reports nothing without a cycle. *)
Theorem circular_check_runs : forall find_cycle template globals,
  wf template -> wf globals -> at_path [PKey "Resources"] globals = None -> plain_functions template ->
  exists ms, circular_match template globals find_cycle = Ok ms.
Proof. exact c20_total. Qed.
Print Assumptions circular_check_runs.
Theorem no_cycle_no_report : forall find_cycle template globals,
  finds_cycles find_cycle -> wf template -> wf globals -> at_path [PKey "Resources"] globals = None -> plain_functions template ->
  forall ms, circular_match template globals find_cycle = Ok ms ->
  (forall a, ~ clos_trans _ (depends template) a a) -> ms = [].
Proof. exact c20_acyclic. Qed.
Print Assumptions no_cycle_no_report.

(** The contract asked of networkx can be met. *)
Theorem the_contract_can_be_met : finds_cycles find_cycle_dfs.
Proof. exact find_cycle_dfs_contract. Qed.
Print Assumptions the_contract_can_be_met.

(** Four resources, two of them on a cycle through Fn::Sub and Fn::GetAtt. *)
Example ring_meets_the_hypotheses : finds_cycles find_cycle_dfs /\ wf ring /\ wf (VDict []) /\
  at_path [PKey "Resources"] (VDict []) = None /\ plain_functions ring.
Proof.
  exact (conj find_cycle_dfs_contract (conj ring_wf (conj (conj (NoDup_nil _) I) (conj eq_refl ring_plain)))).
Qed.
Example ring_is_reported : circular_match ring (VDict []) find_cycle_dfs =
  Ok [mkRM [PKey "Resources"; PKey "B"] "Circular Dependencies for resource B. Circular dependency with [C]";
      mkRM [PKey "Resources"; PKey "C"] "Circular Dependencies for resource C. Circular dependency with [B]"].
Proof. exact ring_matches. Qed.
