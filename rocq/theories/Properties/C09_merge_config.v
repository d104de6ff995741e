(** C09 Project configuration overrides user configuration. *)
From Verif.Model Require Import Base Config.
From Verif.Spec Require Import Options.
From Verif.Proofs Require Import OptionProofs.

(** Everything the project configuration says is in the merged one; values that are not objects unchanged. *)
Theorem project_value_wins : forall keys u p v,
  at_keys keys (VDict p) = Some v ->
  exists w, at_keys keys (merge_config (VDict u) (VDict p)) = Some w /\ (is_leaf v -> w = v).
Proof. exact c09_project. Qed.

(** Everything the user configuration says is there too, unless the project replaces it; unchanged where the project
    says nothing. *)
Theorem user_value_survives : forall keys u p v,
  at_keys keys (VDict u) = Some v -> ~ cut_off keys (VDict p) ->
  exists w, at_keys keys (merge_config (VDict u) (VDict p)) = Some w /\ (at_keys keys (VDict p) = None -> w = v).
Proof. exact c09_user. Qed.

(** Nothing is invented. *)
Theorem merged_value_comes_from_one : forall keys u p w,
  at_keys keys (merge_config (VDict u) (VDict p)) = Some w ->
  (exists v, at_keys keys (VDict u) = Some v /\ (is_leaf w -> v = w)) \/
  (exists v, at_keys keys (VDict p) = Some v /\ (is_leaf w -> v = w)).
Proof. exact c09_nothing_new. Qed.

Example merge_example :
  let u := [("regions", VList [VStr "a"]); ("configure_rules", VDict [("E1", VDict [("x", VInt 1); ("y", VInt 2)])])] in
  let p := [("regions", VList [VStr "b"]); ("configure_rules", VDict [("E1", VDict [("x", VInt 3)]); ("E2", VDict [])])] in
  merge_config (VDict u) (VDict p) =
  VDict [("regions", VList [VStr "b"]);
         ("configure_rules", VDict [("E1", VDict [("x", VInt 3); ("y", VInt 2)]); ("E2", VDict [])])] /\
  ~ cut_off ["configure_rules"; "E1"; "y"] (VDict p).
Proof.
  split; [reflexivity|]. intros [b [a [w [E [H L]]]]].
  destruct b as [|k1 [|k2 [|k3 b]]]; cbn in E.
  - injection H as <-. exact (L _ eq_refl).
  - injection E as <- _. injection H as <-. exact (L _ eq_refl).
  - injection E as <- <- _. injection H as <-. exact (L _ eq_refl).
  - injection E as <- <- <- _. discriminate H.
Qed.

Print Assumptions project_value_wins.
Print Assumptions user_value_survives.
Print Assumptions merged_value_comes_from_one.
