(** C30 Duplicate list items. *)
From Coq Require Import List Permutation.
Import ListNotations.
From Verif.Model Require Import Base Conditions Rules Relationship Resolve JsonDump PropertyRules.
From Verif.Spec Require Import Paths Branches Truth Resolved SameJson Groups Required.
From Verif.Proofs Require Import ConditionWitness DuplicateProofs DuplicateWitness.
Import Verif.Model.Rules.
Local Open Scope string_scope.

(** An item of a list is reported exactly when it is the same as an earlier one, up to the order of members, and it is reported once.  The digest has to tell the items of this list apart. *)
Theorem repeated_items_reported : forall (sha1 : string -> string) (float_text : QArith_base.Q -> string), float_texts float_text -> forall (order : list string -> list string) (c : conditions), forall p l,
  Forall wf l -> no_collision sha1 (map (dumps float_text) l) ->
  exists idx, check_duplicates order c sha1 float_text (VList l) p =
      Ok (map (fun i => mkRM (p ++ [PIdx i])%list ("List has a duplicate value at " ++ path_text (p ++ [PIdx i])%list)) idx) /\
    NoDup idx /\ forall i, In i idx <-> repeats l i.
Proof. exact c30_list. Qed.
Print Assumptions repeated_items_reported.

(** Values that are no list and no object are passed over ... *)
Theorem scalars_have_no_duplicates : forall (sha1 : string -> string) (float_text : QArith_base.Q -> string) (order : list string -> list string) (c : conditions), forall v p,
  is_list v = false -> is_dict v = false -> check_duplicates order c sha1 float_text v p = Ok [].
Proof. exact c30_other. Qed.
Print Assumptions scalars_have_no_duplicates.

(** ... and so are objects that are no Fn::If. *)
Theorem objects_have_no_duplicates : forall (sha1 : string -> string) (float_text : QArith_base.Q -> string) (order : list string -> list string) (c : conditions), forall d p,
  plain_object d -> forall ms, check_duplicates order c sha1 float_text (VDict d) p = Ok ms -> ms = [].
Proof. exact c30_object. Qed.
Print Assumptions objects_have_no_duplicates.

(** If the value is a choice between lists, the list of each deployment is looked at.  Missing for the full property: deployments with more than four conditions that are unrelated. *)
Theorem conditional_duplicates_found_partial : forall sha1 float_text hash order template defs parameters fuel w b c t e names l i p ms,
  float_texts float_text ->
  (forall v, digest (hash v)) -> (forall l, Permutation (order l) l) ->
  section_of "Conditions" template defs -> section_of "Parameters" template parameters ->
  conditional_list (if_ c t e) ->
  NoDup names -> (forall n, In n names <-> chosen_by (if_ c t e) n) ->
  (forall n, In n names -> mem_assoc n (cs_conditions (load hash fuel template)) = true) ->
  (List.length names <= 4 \/ some_related defs names) ->
  deployment hash parameters w -> gives defs w names b ->
  resolved (known names b) (if_ c t e) (Some (VList l)) -> Forall wf l -> repeats l i ->
  check_duplicates order (load hash fuel template) sha1 float_text (if_ c t e) p = Ok ms ->
  exists sc, Permutation sc (scenario_of names b) /\
    In (mkRM p ("List has a duplicate value at " ++ path_text p ++ " when " ++ plain_scenario_text sc)) ms.
Proof. exact c30_found. Qed.
Print Assumptions conditional_duplicates_found_partial.

(** What is reported for a choice between lists is the case in one of the chosen lists. *)
Theorem conditional_duplicates_are_real : forall (sha1 : string -> string) (float_text : QArith_base.Q -> string), float_texts float_text -> forall (order : list string -> list string) (c : conditions), forall cn t e p ms,
  conditional_list (if_ cn t e) ->
  (forall sc l, resolved (fun n => match assoc n sc with Some b => b | None => None end) (if_ cn t e) (Some (VList l)) -> Forall wf l /\ no_collision sha1 (map (dumps float_text) l)) ->
  check_duplicates order c sha1 float_text (if_ cn t e) p = Ok ms ->
  forall m, In m ms -> exists sc l i, resolved (fun n => match assoc n sc with Some b => b | None => None end) (if_ cn t e) (Some (VList l)) /\ repeats l i /\
    m = duplicate_match p (Some sc) i.
Proof. exact c30_real. Qed.
Print Assumptions conditional_duplicates_are_real.

(** The rule looks at the properties of each choice of branches. *)
Theorem duplicates_rule_looks_at_each_property : forall (sha1 : string -> string) (float_text : QArith_base.Q -> string) (order : list string -> list string) (c : conditions), forall applies props specs p ms,
  all_objects (VDict props) p -> wf (VDict props) ->
  duplicates_check order c sha1 float_text applies (VDict props) specs p = Ok ms ->
  forall m, In m ms <-> exists d q prop ps x o, branch (VDict props) p (VDict d) q /\ assoc prop d = Some x /\ assoc prop specs = Some ps /\
    applies ps = true /\ check_duplicates order c sha1 float_text x (q ++ [PKey prop])%list = Ok o /\ In m o.
Proof. exact c30_rule. Qed.
Print Assumptions duplicates_rule_looks_at_each_property.

(** E3037 is for lists that the specification allows no duplicates in ... *)
Theorem duplicates_forbidden_iff : forall ps,
  no_duplicates ps = true <-> ps_type ps = Some "List" /\ ps_duplicates ps = Some false.
Proof. exact no_duplicates_iff. Qed.
Print Assumptions duplicates_forbidden_iff.

(** ... and I3037 for lists of texts or integers that it allows duplicates in. *)
Theorem duplicates_discouraged_iff_ : forall ps,
  duplicates_discouraged ps = true <->
  ps_type ps = Some "List" /\ ps_duplicates ps = Some true /\ (ps_primitive_item ps = Some "String" \/ ps_primitive_item ps = Some "Integer").
Proof. exact duplicates_discouraged_iff. Qed.
Print Assumptions duplicates_discouraged_iff_.

(** Conditions on the items of a list are not looked at: a list that has the same item twice in a deployment is not reported. *)
Theorem conditional_items_refuted : exists l c l', 
  resolved_items (fun n => if String.eqb n c then Some true else None) l l' /\ repeats l' 1 /\
  forall order cs sha1 float_text p, no_collision sha1 (map (dumps float_text) l) -> check_duplicates order cs sha1 float_text (VList l) p = Ok [].
Proof. exact c30_items_refuted. Qed.
Print Assumptions conditional_items_refuted.

Example duplicate_example_ : let l := [VDict [("a", VInt 1); ("b", VInt 2)]; VStr "x"; VDict [("b", VInt 2); ("a", VInt 1)]] in
  float_texts sample_float /\ Forall wf l /\ no_collision (fun s => s) (map (dumps sample_float) l) /\ repeats l 2 /\
  check_duplicates (fun l => l) (load toy_hash 9 env) (fun s => s) sample_float (VList l) [PKey "P"] = Ok [mkRM [PKey "P"; PIdx 2] "List has a duplicate value at P/2"].
Proof. exact duplicate_example. Qed.

Example conditional_duplicate_example_ : conditional_list sample_lists /\ (forall n, In n ["IsProd"] <-> chosen_by sample_lists n) /\ gives env_defs env_values ["IsProd"] env_bools /\
  (exists l, resolved (known ["IsProd"] env_bools) sample_lists (Some (VList l)) /\ Forall wf l /\ repeats l 2) /\
  check_duplicates (fun l => l) (load toy_hash 9 env) (fun s => s) sample_float sample_lists [PKey "P"] =
    Ok [mkRM [PKey "P"] "List has a duplicate value at P when condition ""IsProd"" is True"].
Proof. exact conditional_duplicate_example. Qed.
