(** C14 Findings point to the nearest existing key. *)
From Verif.Model Require Import Base Locate Rules.
From Verif.Spec Require Import Paths.
From Verif.Proofs Require Import SearchProofs SearchWitness Samples.

(** The finding made from a rule's match is placed at the last element of the match's path that exists in the template and
    has a position, and at line 1, column 1 if there is none.  Missing: paths with an index beyond the end of its list,
    for which locating fails (see below). *)
Theorem finding_at_nearest_element_partial : forall m0 d file region id rm,
  rm_path rm <> [] -> indices_ok (MDict m0 d) (rm_path rm) ->
  exists f, locate_match (mkCfn file region (MDict m0 d)) id rm = Ok f /\
    ((exists n m, position (MDict m0 d) (rm_path rm) n m /\
        (forall n' m', position (MDict m0 d) (rm_path rm) n' m' -> n' <= n) /\
        f = mkFinding (sl m + 1) (sc m + 1) (el m + 1) (ec m + 1) file id (rm_msg rm)) \/
     ((forall n m, ~ position (MDict m0 d) (rm_path rm) n m) /\ f = mkFinding 1 1 1 1 file id (rm_msg rm))).
Proof. exact c14_finding. Qed.

(** An index beyond the end of a list raises an exception although an earlier key of the path exists. *)
Theorem index_out_of_range_refuted : exists t p,
  p <> [] /\ get_location t p = Err EIndex /\ exists m0 d, t = MDict m0 d.
Proof. exact c14_index_refuted. Qed.

Example position_example :
  let p := [PKey "Resources"; PKey "A"; PKey "Properties"; PKey "Missing"] in
  indices_ok multi_line p /\ position multi_line p 1 (ml 1 2 1 3) /\
  exists f, locate_match (mkCfn "t.yaml" "us-east-1" multi_line) "E1" (mkRM p "x") = Ok f /\ f_line f = 2%Z.
Proof.
  cbv zeta. split; [|split].
  - intros b i a c E _. destruct b as [|? [|? [|? [|? [|? ?]]]]]; discriminate E.
  - exists [PKey "Resources"], (PKey "A"), [PKey "Properties"; PKey "Missing"]. eexists.
    split; [reflexivity|]. split; [reflexivity|]. split; [econstructor; [reflexivity | constructor]|].
    constructor. reflexivity.
  - eexists. split; reflexivity.
Qed.

Print Assumptions finding_at_nearest_element_partial.
Print Assumptions index_out_of_range_refuted.
