(** C34 Specification include/exclude patterns. *)
From Verif.Model Require Import Base Helpers.
From Verif.Spec Require Import Patterns Paths Options.
From Verif.Proofs Require Import BaseFacts PatternProofs.

(** After an override, a resource type is available exactly when it was defined (by the specification or by the
    override) and the two pattern lists let it through. *)
Theorem override_selects_types : forall override spec out,
  set_specs override spec = Ok out ->
  exists merged,
    (let rest := remove_key "IncludeResourceTypes" (remove_key "ExcludeResourceTypes" override) in
     rest = [] /\ merged = spec \/ merge_spec (VDict rest) spec = Ok merged) /\
    forall name v,
      at_keys ["ResourceTypes"; name] out = Some v <->
      at_keys ["ResourceTypes"; name] merged = Some v /\
      available (names_of "IncludeResourceTypes" override) (names_of "ExcludeResourceTypes" override) name.
Proof. exact c34_types. Qed.

(** The selection by itself, for lists with repeats and overlapping patterns. *)
Theorem patterns_select : forall includes excludes all name,
  In name (spec_selected includes excludes all) <-> In name all /\ available includes excludes name.
Proof. exact c34_selected. Qed.

(** The merge: what the override sets wins. *)
Theorem override_wins : forall override spec merged ks v,
  wf (VDict override) -> merge_spec (VDict override) (VDict spec) = Ok merged ->
  at_keys ks (VDict override) = Some v -> is_leaf v -> at_keys ks merged = Some v.
Proof. intros override spec merged ks v. exact (c34_override ks override spec merged v). Qed.

(** What the override does not reach is kept, unless the override replaced something above it. *)
Theorem rest_survives : forall override spec merged ks v,
  wf (VDict override) -> merge_spec (VDict override) (VDict spec) = Ok merged ->
  at_keys ks (VDict spec) = Some v -> ~ cut_off ks (VDict override) ->
  exists w, at_keys ks merged = Some w /\ (at_keys ks (VDict override) = None -> w = v).
Proof. intros override spec merged ks v. exact (c34_original ks override spec merged v). Qed.

(** Nothing else appears. *)
Theorem nothing_invented : forall override spec merged ks w,
  wf (VDict override) -> merge_spec (VDict override) (VDict spec) = Ok merged ->
  at_keys ks merged = Some w ->
  (exists v, at_keys ks (VDict spec) = Some v /\ (is_leaf w -> v = w)) \/
  (exists v, at_keys ks (VDict override) = Some v /\ (is_leaf w -> v = w)).
Proof. intros override spec merged ks w. exact (c34_nothing_new ks override spec merged w). Qed.

Example override_example :
  let spec := VDict [("ResourceTypes", VDict [("AWS::S3::Bucket", VInt 1); ("AWS::EC2::VPC", VInt 2); ("AWS::S3::Policy", VInt 3)])] in
  let override := [("IncludeResourceTypes", VList [VStr "AWS::S3::*"; VStr "*::Bucket"]);
                   ("ExcludeResourceTypes", VList [VStr "*::Bucket"])] in
  set_specs override spec = Ok (VDict [("ResourceTypes", VDict [("AWS::S3::Policy", VInt 3)])]).
Proof. reflexivity. Qed.
Example merge_example :
  let override := [("ResourceTypes", VDict [("A", VDict [("x", VInt 9)]); ("B", VInt 1)])] in
  let spec := [("ResourceTypes", VDict [("A", VDict [("x", VInt 0); ("y", VInt 2)])])] in
  wf (VDict override) /\
  merge_spec (VDict override) (VDict spec) =
    Ok (VDict [("ResourceTypes", VDict [("A", VDict [("x", VInt 9); ("y", VInt 2)]); ("B", VInt 1)])]).
Proof. split; [|reflexivity]. cbn. repeat constructor; cbn; intuition discriminate. Qed.

Print Assumptions override_selects_types.
Print Assumptions patterns_select.
Print Assumptions override_wins.
Print Assumptions rest_survives.
Print Assumptions nothing_invented.
