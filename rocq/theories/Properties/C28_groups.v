(** C28 Mutually exclusive and jointly required properties. *)
From Coq Require Import List Permutation.
Import ListNotations.
From Verif.Model Require Import Base Locate Conditions Rules Relationship PropertyRules.
From Verif.Spec Require Import Paths Branches Walk Required Truth Resolved Groups.
From Verif.Proofs Require Import ConditionWitness Samples PropertyWitness GroupMain GroupWitness.
Import Verif.Model.Rules.
Local Open Scope string_scope.

(** Without conditions: an object is reported exactly when it does not have exactly one property of the group. *)
Theorem only_one_reported : forall order c props groups p,
  (forall l, Permutation (order l) l) ->
  all_objects (VDict props) p -> (forall group, In group groups -> proper_group group) ->
  (forall d q, branch (VDict props) p (VDict d) q -> plain_object d /\ VDict d <> no_value /\ forall group n, In group groups -> ~ group_looks_at d group n) ->
  exists ms, only_one_check order c (VDict props) groups p = Ok ms /\
    forall m, In m ms <-> exists d q group, branch (VDict props) p (VDict d) q /\ In group groups /\ ~ exactly_one group (keys d) /\
      m = mkRM p ("Only one of [" ++ join_str ", " group ++ "] should be specified for " ++ path_text q).
Proof. exact c28_only_one_plain_stated. Qed.
Print Assumptions only_one_reported.

(** With conditions: an object that does not have exactly one property of the group in a deployment is reported for the values the conditions have in it.  Missing for the full property: more than four conditions that are unrelated, and objects of which nothing is left (refuted below). *)
Theorem only_one_found_partial : forall hash order template defs parameters fuel w b props p d q groups group names d' ms,
  (forall v, digest (hash v)) -> (forall l, Permutation (order l) l) ->
  section_of "Conditions" template defs -> section_of "Parameters" template parameters ->
  branch (VDict props) p (VDict d) q -> plain_object d -> In group groups -> proper_group group ->
  NoDup names -> names <> [] -> (forall n, In n names <-> group_looks_at d group n) ->
  (forall n, In n names -> mem_assoc n (cs_conditions (load hash fuel template)) = true) ->
  (List.length names <= 4 \/ some_related defs names) ->
  deployment hash parameters w -> gives defs w names b ->
  deployed b d d' -> d' <> [] -> ~ exactly_one group (keys d') ->
  only_one_check order (load hash fuel template) (VDict props) groups p = Ok ms ->
  exists sc, Permutation sc (scenario_of names b) /\
    In (mkRM p ("Only one of [" ++ join_str ", " group ++ "] should be specified " ++ scenario_text sc ++ " at " ++ path_text q)) ms.
Proof. exact c28_only_one_found_stated. Qed.
Print Assumptions only_one_found_partial.

(** Whatever is reported is the case for some values of the conditions, and these are possible if two of the conditions are related or each value is possible by itself. *)
Theorem only_one_real_partial : forall hash order template defs parameters props p groups w0 b0,
  (forall v, digest (hash v)) -> (forall l, Permutation (order l) l) ->
  section_of "Conditions" template defs -> section_of "Parameters" template parameters ->
  NoDup (keys defs) -> (forall n v, In (n, v) defs -> well_formed defs v) ->
  NoDup (keys parameters) -> (forall n p, In (n, p) parameters -> plain_parameter p) -> told_apart hash parameters ->
  all_objects (VDict props) p -> (forall group, In group groups -> proper_group group) ->
  deployment hash parameters w0 -> gives defs w0 (keys defs) b0 ->
  (forall d q, branch (VDict props) p (VDict d) q -> plain_object d /\ VDict d <> no_value /\
     forall group, In group groups -> exists names, NoDup names /\ (forall n, In n names <-> group_looks_at d group n) /\
       (forall n, In n names -> In n (keys defs)) /\ (List.length names <= 4 \/ some_related defs names)) ->
  exists limit, forall fuel, limit <= fuel ->
  exists ms, only_one_check order (load hash fuel template) (VDict props) groups p = Ok ms /\
    forall m, In m ms -> exists d q group, branch (VDict props) p (VDict d) q /\ In group groups /\
      ((forall n, ~ group_looks_at d group n) /\ ~ exactly_one group (keys d) /\
         m = mkRM p ("Only one of [" ++ join_str ", " group ++ "] should be specified for " ++ path_text q) \/
       exists names b sc, NoDup names /\ names <> [] /\ (forall n, In n names <-> group_looks_at d group n) /\ Permutation sc (scenario_of names b) /\
         (forall d', deployed b d d' -> ~ exactly_one group (keys d')) /\
         m = mkRM p ("Only one of [" ++ join_str ", " group ++ "] should be specified " ++ scenario_text sc ++ " at " ++ path_text q) /\
         ((some_related defs names \/ forall n, In n names -> exists w, deployment hash parameters w /\ gives defs w [n] b) ->
          exists w, deployment hash parameters w /\ gives defs w names b)).
Proof. exact c28_only_one_real_stated. Qed.
Print Assumptions only_one_real_partial.

(** Without conditions: an object is reported exactly when it has no property of the group. *)
Theorem at_least_one_reported : forall order c props groups p,
  (forall l, Permutation (order l) l) ->
  all_objects (VDict props) p -> (forall group, In group groups -> proper_group group) ->
  (forall d q, branch (VDict props) p (VDict d) q -> plain_object d /\ VDict d <> no_value /\ forall group n, In group groups -> ~ group_looks_at d group n) ->
  exists ms, at_least_one_check order c (VDict props) groups p = Ok ms /\
    forall m, In m ms <-> exists d q group, branch (VDict props) p (VDict d) q /\ In group groups /\ none_of group (keys d) /\
      m = mkRM p ("At least one of [" ++ join_str ", " group ++ "] should be specified for " ++ path_text q).
Proof. exact c28_at_least_plain_stated. Qed.
Print Assumptions at_least_one_reported.

(** With conditions: an object that has no property of the group in a deployment is reported for the values the conditions have in it.  Missing for the full property: more than four conditions that are unrelated, and objects of which nothing is left (refuted below). *)
Theorem at_least_one_found_partial : forall hash order template defs parameters fuel w b props p d q groups group names d' ms,
  (forall v, digest (hash v)) -> (forall l, Permutation (order l) l) ->
  section_of "Conditions" template defs -> section_of "Parameters" template parameters ->
  branch (VDict props) p (VDict d) q -> plain_object d -> In group groups -> proper_group group ->
  NoDup names -> names <> [] -> (forall n, In n names <-> group_looks_at d group n) ->
  (forall n, In n names -> mem_assoc n (cs_conditions (load hash fuel template)) = true) ->
  (List.length names <= 4 \/ some_related defs names) ->
  deployment hash parameters w -> gives defs w names b ->
  deployed b d d' -> d' <> [] -> none_of group (keys d') ->
  at_least_one_check order (load hash fuel template) (VDict props) groups p = Ok ms ->
  exists sc, Permutation sc (scenario_of names b) /\
    In (mkRM p ("At least one of [" ++ join_str ", " group ++ "] should be specified " ++ scenario_text sc ++ " at " ++ path_text q)) ms.
Proof. exact c28_at_least_found_stated. Qed.
Print Assumptions at_least_one_found_partial.

(** Whatever is reported is the case for some values of the conditions. *)
Theorem at_least_one_real_partial : forall hash order template defs parameters props p groups w0 b0,
  (forall v, digest (hash v)) -> (forall l, Permutation (order l) l) ->
  section_of "Conditions" template defs -> section_of "Parameters" template parameters ->
  NoDup (keys defs) -> (forall n v, In (n, v) defs -> well_formed defs v) ->
  NoDup (keys parameters) -> (forall n p, In (n, p) parameters -> plain_parameter p) -> told_apart hash parameters ->
  all_objects (VDict props) p -> (forall group, In group groups -> proper_group group) ->
  deployment hash parameters w0 -> gives defs w0 (keys defs) b0 ->
  (forall d q, branch (VDict props) p (VDict d) q -> plain_object d /\ VDict d <> no_value /\
     forall group, In group groups -> exists names, NoDup names /\ (forall n, In n names <-> group_looks_at d group n) /\
       (forall n, In n names -> In n (keys defs)) /\ (List.length names <= 4 \/ some_related defs names)) ->
  exists limit, forall fuel, limit <= fuel ->
  exists ms, at_least_one_check order (load hash fuel template) (VDict props) groups p = Ok ms /\
    forall m, In m ms -> exists d q group, branch (VDict props) p (VDict d) q /\ In group groups /\
      ((forall n, ~ group_looks_at d group n) /\ none_of group (keys d) /\
         m = mkRM p ("At least one of [" ++ join_str ", " group ++ "] should be specified for " ++ path_text q) \/
       exists names b sc, NoDup names /\ names <> [] /\ (forall n, In n names <-> group_looks_at d group n) /\ Permutation sc (scenario_of names b) /\
         (forall d', deployed b d d' -> none_of group (keys d')) /\
         m = mkRM p ("At least one of [" ++ join_str ", " group ++ "] should be specified " ++ scenario_text sc ++ " at " ++ path_text q) /\
         ((some_related defs names \/ forall n, In n names -> exists w, deployment hash parameters w /\ gives defs w [n] b) ->
          exists w, deployment hash parameters w /\ gives defs w names b)).
Proof. exact c28_at_least_real_stated. Qed.
Print Assumptions at_least_one_real_partial.

(** Without conditions: a property is reported exactly when it is there together with one that it excludes. *)
Theorem exclusive_reported : forall order c d d' table p,
  (forall l, Permutation (order l) l) ->
  plain_object d -> VDict d <> no_value -> (forall n, ~ members_look_at d n) -> pruned d d' ->
  exists ms, exclusive_check order c (VDict d) table p = Ok ms /\
    forall m, In m ms <-> exists k e, lists table k e /\ both (keys d') k e /\ m = mkRM (p ++ [PKey k])%list ("Property " ++ e ++ " should NOT exist with " ++ k ++ " for " ++ path_text p).
Proof. exact c28_exclusive_plain. Qed.
Print Assumptions exclusive_reported.

(** With conditions: two properties that exclude each other and are both there in a deployment are reported for the values the conditions have in it.  Missing for the full property: more than four conditions that are unrelated, and objects that are an Fn::If themselves. *)
Theorem exclusive_found_partial : forall hash order template defs parameters fuel w b d names table p d' k e ms,
  (forall v, digest (hash v)) -> (forall l, Permutation (order l) l) ->
  section_of "Conditions" template defs -> section_of "Parameters" template parameters ->
  plain_object d -> NoDup names -> names <> [] -> (forall n, In n names <-> members_look_at d n) ->
  (forall n, In n names -> mem_assoc n (cs_conditions (load hash fuel template)) = true) ->
  (List.length names <= 4 \/ some_related defs names) ->
  deployment hash parameters w -> gives defs w names b ->
  deployed b d d' -> lists table k e -> both (keys d') k e ->
  exclusive_check order (load hash fuel template) (VDict d) table p = Ok ms ->
  exists sc, Permutation sc (scenario_of names b) /\ In (mkRM (p ++ [PKey k])%list ("Property " ++ e ++ " should NOT exist with " ++ k ++ " " ++ scenario_text sc ++ " for " ++ path_text p)) ms.
Proof. exact c28_exclusive_found. Qed.
Print Assumptions exclusive_found_partial.

(** Whatever is reported is the case for some values of the conditions. *)
Theorem exclusive_real_partial : forall hash order template defs parameters d names table p w0 b0,
  (forall v, digest (hash v)) -> (forall l, Permutation (order l) l) ->
  section_of "Conditions" template defs -> section_of "Parameters" template parameters ->
  NoDup (keys defs) -> (forall n v, In (n, v) defs -> well_formed defs v) ->
  NoDup (keys parameters) -> (forall n p, In (n, p) parameters -> plain_parameter p) -> told_apart hash parameters ->
  plain_object d -> NoDup names -> names <> [] -> (forall n, In n names <-> members_look_at d n) -> (forall n, In n names -> In n (keys defs)) ->
  (List.length names <= 4 \/ some_related defs names) -> deployment hash parameters w0 -> gives defs w0 names b0 ->
  exists limit, forall fuel, limit <= fuel ->
  exists ms, exclusive_check order (load hash fuel template) (VDict d) table p = Ok ms /\
    forall m, In m ms -> exists sc b k e, Permutation sc (scenario_of names b) /\ lists table k e /\
      (forall d', deployed b d d' -> both (keys d') k e) /\ m = mkRM (p ++ [PKey k])%list ("Property " ++ e ++ " should NOT exist with " ++ k ++ " " ++ scenario_text sc ++ " for " ++ path_text p) /\
      ((some_related defs names \/ forall n, In n names -> exists w, deployment hash parameters w /\ gives defs w [n] b) ->
       exists w, deployment hash parameters w /\ gives defs w names b).
Proof. exact c28_exclusive_real. Qed.
Print Assumptions exclusive_real_partial.

(** Without conditions: a property is reported exactly when it is there without one that it requires. *)
Theorem inclusive_reported : forall order c d d' table p,
  (forall l, Permutation (order l) l) ->
  plain_object d -> VDict d <> no_value -> (forall n, ~ members_look_at d n) -> pruned d d' ->
  exists ms, inclusive_check order c (VDict d) table p = Ok ms /\
    forall m, In m ms <-> exists k e, lists table k e /\ only_first (keys d') k e /\ m = mkRM p ("Property " ++ e ++ " should exist with " ++ k ++ " for " ++ path_text p).
Proof. exact c28_inclusive_plain. Qed.
Print Assumptions inclusive_reported.

(** With conditions: a property that is there in a deployment without one that it requires is reported for the values the conditions have in it.  Missing for the full property: more than four conditions that are unrelated, and objects that are an Fn::If themselves. *)
Theorem inclusive_found_partial : forall hash order template defs parameters fuel w b d names table p d' k e ms,
  (forall v, digest (hash v)) -> (forall l, Permutation (order l) l) ->
  section_of "Conditions" template defs -> section_of "Parameters" template parameters ->
  plain_object d -> NoDup names -> names <> [] -> (forall n, In n names <-> members_look_at d n) ->
  (forall n, In n names -> mem_assoc n (cs_conditions (load hash fuel template)) = true) ->
  (List.length names <= 4 \/ some_related defs names) ->
  deployment hash parameters w -> gives defs w names b ->
  deployed b d d' -> lists table k e -> only_first (keys d') k e ->
  inclusive_check order (load hash fuel template) (VDict d) table p = Ok ms ->
  exists sc, Permutation sc (scenario_of names b) /\ In (mkRM p ("Property " ++ e ++ " should exist with " ++ k ++ " " ++ scenario_text sc ++ " for " ++ path_text p)) ms.
Proof. exact c28_inclusive_found. Qed.
Print Assumptions inclusive_found_partial.

(** Whatever is reported is the case for some values of the conditions. *)
Theorem inclusive_real_partial : forall hash order template defs parameters d names table p w0 b0,
  (forall v, digest (hash v)) -> (forall l, Permutation (order l) l) ->
  section_of "Conditions" template defs -> section_of "Parameters" template parameters ->
  NoDup (keys defs) -> (forall n v, In (n, v) defs -> well_formed defs v) ->
  NoDup (keys parameters) -> (forall n p, In (n, p) parameters -> plain_parameter p) -> told_apart hash parameters ->
  plain_object d -> NoDup names -> names <> [] -> (forall n, In n names <-> members_look_at d n) -> (forall n, In n names -> In n (keys defs)) ->
  (List.length names <= 4 \/ some_related defs names) -> deployment hash parameters w0 -> gives defs w0 names b0 ->
  exists limit, forall fuel, limit <= fuel ->
  exists ms, inclusive_check order (load hash fuel template) (VDict d) table p = Ok ms /\
    forall m, In m ms -> exists sc b k e, Permutation sc (scenario_of names b) /\ lists table k e /\
      (forall d', deployed b d d' -> only_first (keys d') k e) /\ m = mkRM p ("Property " ++ e ++ " should exist with " ++ k ++ " " ++ scenario_text sc ++ " for " ++ path_text p) /\
      ((some_related defs names \/ forall n, In n names -> exists w, deployment hash parameters w /\ gives defs w [n] b) ->
       exists w, deployment hash parameters w /\ gives defs w names b).
Proof. exact c28_inclusive_real. Qed.
Print Assumptions inclusive_real_partial.

(** In a run with E2520 enabled what the check reports for the properties of a resource is among the findings ... *)
Theorem exclusive_is_in_the_findings : forall hash order fuel rts pts sp k c raw name rt attrs pd m0 d0 ms m,
  snd (coll_run sp k c) = Ok raw -> In (exclusive_rule hash order fuel rts pts) (k_all k) -> enabled (k_set k) (exclusive_rule hash order fuel rts pts) = true ->
  wf (template c) -> c_tmpl c = MDict m0 d0 -> resource_of (template c) name rt attrs -> assoc "Properties" attrs = Some (VDict pd) -> plain_object pd -> In rt (keys rts) ->
  exclusive_check order (load hash fuel (template c)) (VDict pd) (table_of rt rts) [PKey "Resources"; PKey name; PKey "Properties"] = Ok ms -> In m ms ->
  exists f, locate_match c "E2520" m = Ok f /\ In f raw.
Proof. exact exclusive_in_run. Qed.
Print Assumptions exclusive_is_in_the_findings.

(** ... and so is what it reports for nested objects. *)
Theorem exclusive_nested_is_in_the_findings : forall hash order fuel rts pts sp k c raw name rt attrs pd n d q m0 d0 ms m,
  snd (coll_run sp k c) = Ok raw -> In (exclusive_rule hash order fuel rts pts) (k_all k) -> enabled (k_set k) (exclusive_rule hash order fuel rts pts) = true ->
  wf (template c) -> c_tmpl c = MDict m0 d0 -> resource_of (template c) name rt attrs -> assoc "Properties" attrs = Some (VDict pd) ->
  resource_nested sp rt (VDict pd) [PKey "Resources"; PKey name; PKey "Properties"] n (VDict d) q -> plain_object d -> In n (keys pts) ->
  exclusive_check order (load hash fuel (template c)) (VDict d) (table_of n pts) q = Ok ms -> In m ms ->
  exists f, locate_match c "E2520" m = Ok f /\ In f raw.
Proof. exact exclusive_nested_in_run. Qed.
Print Assumptions exclusive_nested_is_in_the_findings.

(** In a run with E2521 enabled what the check reports for the properties of a resource is among the findings ... *)
Theorem inclusive_is_in_the_findings : forall hash order fuel rts pts sp k c raw name rt attrs pd m0 d0 ms m,
  snd (coll_run sp k c) = Ok raw -> In (inclusive_rule hash order fuel rts pts) (k_all k) -> enabled (k_set k) (inclusive_rule hash order fuel rts pts) = true ->
  wf (template c) -> c_tmpl c = MDict m0 d0 -> resource_of (template c) name rt attrs -> assoc "Properties" attrs = Some (VDict pd) -> plain_object pd -> In rt (keys rts) ->
  inclusive_check order (load hash fuel (template c)) (VDict pd) (table_of rt rts) [PKey "Resources"; PKey name; PKey "Properties"] = Ok ms -> In m ms ->
  exists f, locate_match c "E2521" m = Ok f /\ In f raw.
Proof. exact inclusive_in_run. Qed.
Print Assumptions inclusive_is_in_the_findings.

(** ... and so is what it reports for nested objects. *)
Theorem inclusive_nested_is_in_the_findings : forall hash order fuel rts pts sp k c raw name rt attrs pd n d q m0 d0 ms m,
  snd (coll_run sp k c) = Ok raw -> In (inclusive_rule hash order fuel rts pts) (k_all k) -> enabled (k_set k) (inclusive_rule hash order fuel rts pts) = true ->
  wf (template c) -> c_tmpl c = MDict m0 d0 -> resource_of (template c) name rt attrs -> assoc "Properties" attrs = Some (VDict pd) ->
  resource_nested sp rt (VDict pd) [PKey "Resources"; PKey name; PKey "Properties"] n (VDict d) q -> plain_object d -> In n (keys pts) ->
  inclusive_check order (load hash fuel (template c)) (VDict d) (table_of n pts) q = Ok ms -> In m ms ->
  exists f, locate_match c "E2521" m = Ok f /\ In f raw.
Proof. exact inclusive_nested_in_run. Qed.
Print Assumptions inclusive_nested_is_in_the_findings.

(** In a run with E2522 enabled what the check reports for the properties of a resource is among the findings ... *)
Theorem at_least_one_is_in_the_findings : forall hash order fuel rts pts sp k c raw name rt attrs pd m0 d0 ms m,
  snd (coll_run sp k c) = Ok raw -> In (at_least_one_rule hash order fuel rts pts) (k_all k) -> enabled (k_set k) (at_least_one_rule hash order fuel rts pts) = true ->
  wf (template c) -> c_tmpl c = MDict m0 d0 -> resource_of (template c) name rt attrs -> assoc "Properties" attrs = Some (VDict pd) -> plain_object pd -> In rt (keys rts) ->
  at_least_one_check order (load hash fuel (template c)) (VDict pd) (table_of rt rts) [PKey "Resources"; PKey name; PKey "Properties"] = Ok ms -> In m ms ->
  exists f, locate_match c "E2522" m = Ok f /\ In f raw.
Proof. exact at_least_one_in_run. Qed.
Print Assumptions at_least_one_is_in_the_findings.

(** ... and so is what it reports for nested objects. *)
Theorem at_least_one_nested_is_in_the_findings : forall hash order fuel rts pts sp k c raw name rt attrs pd n d q m0 d0 ms m,
  snd (coll_run sp k c) = Ok raw -> In (at_least_one_rule hash order fuel rts pts) (k_all k) -> enabled (k_set k) (at_least_one_rule hash order fuel rts pts) = true ->
  wf (template c) -> c_tmpl c = MDict m0 d0 -> resource_of (template c) name rt attrs -> assoc "Properties" attrs = Some (VDict pd) ->
  resource_nested sp rt (VDict pd) [PKey "Resources"; PKey name; PKey "Properties"] n (VDict d) q -> plain_object d -> In n (keys pts) ->
  at_least_one_check order (load hash fuel (template c)) (VDict d) (table_of n pts) q = Ok ms -> In m ms ->
  exists f, locate_match c "E2522" m = Ok f /\ In f raw.
Proof. exact at_least_one_nested_in_run. Qed.
Print Assumptions at_least_one_nested_is_in_the_findings.

(** In a run with E2523 enabled what the check reports for the properties of a resource is among the findings ... *)
Theorem only_one_is_in_the_findings : forall hash order fuel rts pts sp k c raw name rt attrs pd m0 d0 ms m,
  snd (coll_run sp k c) = Ok raw -> In (only_one_rule hash order fuel rts pts) (k_all k) -> enabled (k_set k) (only_one_rule hash order fuel rts pts) = true ->
  wf (template c) -> c_tmpl c = MDict m0 d0 -> resource_of (template c) name rt attrs -> assoc "Properties" attrs = Some (VDict pd) -> plain_object pd -> In rt (keys rts) ->
  only_one_check order (load hash fuel (template c)) (VDict pd) (table_of rt rts) [PKey "Resources"; PKey name; PKey "Properties"] = Ok ms -> In m ms ->
  exists f, locate_match c "E2523" m = Ok f /\ In f raw.
Proof. exact only_one_in_run. Qed.
Print Assumptions only_one_is_in_the_findings.

(** ... and so is what it reports for nested objects. *)
Theorem only_one_nested_is_in_the_findings : forall hash order fuel rts pts sp k c raw name rt attrs pd n d q m0 d0 ms m,
  snd (coll_run sp k c) = Ok raw -> In (only_one_rule hash order fuel rts pts) (k_all k) -> enabled (k_set k) (only_one_rule hash order fuel rts pts) = true ->
  wf (template c) -> c_tmpl c = MDict m0 d0 -> resource_of (template c) name rt attrs -> assoc "Properties" attrs = Some (VDict pd) ->
  resource_nested sp rt (VDict pd) [PKey "Resources"; PKey name; PKey "Properties"] n (VDict d) q -> plain_object d -> In n (keys pts) ->
  only_one_check order (load hash fuel (template c)) (VDict d) (table_of n pts) q = Ok ms -> In m ms ->
  exists f, locate_match c "E2523" m = Ok f /\ In f raw.
Proof. exact only_one_nested_in_run. Qed.
Print Assumptions only_one_nested_is_in_the_findings.

(** An object of which nothing is left in a deployment is not reported for it, although it lacks all properties of the group. *)
Theorem emptied_object_refuted : exists hash order template defs parameters fuel w b d group p,
  (forall v, digest (hash v)) /\ (forall l, Permutation (order l) l) /\ section_of "Conditions" template defs /\ section_of "Parameters" template parameters /\
  plain_object d /\ proper_group group /\ deployment hash parameters w /\ gives defs w (keys defs) b /\
  (exists d', deployed b d d' /\ none_of group (keys d') /\ ~ exactly_one group (keys d')) /\
  at_least_one_check order (load hash fuel template) (VDict d) [group] p = Ok [] /\
  only_one_check order (load hash fuel template) (VDict d) [group] p = Ok [].
Proof. exact c28_empty_refuted. Qed.
Print Assumptions emptied_object_refuted.

Example together_example_ : section_of "Conditions" env env_defs /\ section_of "Parameters" env env_params /\ plain_object (two_props "IsProd") /\ proper_group ["A"; "B"] /\
  (forall n, In n ["IsProd"] <-> group_looks_at (two_props "IsProd") ["A"; "B"] n) /\ (forall n, In n ["IsProd"] <-> members_look_at (two_props "IsProd") n) /\
  mem_assoc "IsProd" (cs_conditions (load toy_hash 9 env)) = true /\ deployment toy_hash env_params env_values /\ gives env_defs env_values ["IsProd"] env_bools /\
  (exists d', deployed env_bools (two_props "IsProd") d' /\ d' <> [] /\ ~ exactly_one ["A"; "B"] (keys d') /\ both (keys d') "A" "B") /\
  only_one_check (fun l => l) (load toy_hash 9 env) (VDict (two_props "IsProd")) [["A"; "B"]] group_p =
    Ok [mkRM group_p "Only one of [A, B] should be specified when condition ""IsProd"" is True at Resources/T/Properties"] /\
  exclusive_check (fun l => l) (load toy_hash 9 env) (VDict (two_props "IsProd")) [("A", ["B"])] group_p =
    Ok [mkRM (group_p ++ [PKey "A"])%list "Property B should NOT exist with A when condition ""IsProd"" is True for Resources/T/Properties"].
Proof. exact together_example. Qed.

Example alone_example_ : plain_object (two_props "IsDev") /\ (forall n, In n ["IsDev"] <-> group_looks_at (two_props "IsDev") ["A"; "C"] n) /\ (forall n, In n ["IsDev"] <-> members_look_at (two_props "IsDev") n) /\
  mem_assoc "IsDev" (cs_conditions (load toy_hash 9 env)) = true /\ gives env_defs env_values ["IsDev"] env_bools /\
  (exists d', deployed env_bools (two_props "IsDev") d' /\ d' <> [] /\ none_of ["A"; "C"] (keys d') /\ only_first (keys d') "B" "A") /\
  at_least_one_check (fun l => l) (load toy_hash 9 env) (VDict (two_props "IsDev")) [["A"; "C"]] group_p =
    Ok [mkRM group_p "At least one of [A, C] should be specified when condition ""IsDev"" is False at Resources/T/Properties"] /\
  inclusive_check (fun l => l) (load toy_hash 9 env) (VDict (two_props "IsDev")) [("B", ["A"])] group_p =
    Ok [mkRM group_p "Property A should exist with B when condition ""IsDev"" is False for Resources/T/Properties"].
Proof. exact alone_example. Qed.

Example unconditional_example_ : let d := [("A", VStr "x"); ("B", VStr "y"); ("C", no_value)] in
  plain_object d /\ VDict d <> no_value /\ (forall n, ~ members_look_at d n) /\ (forall group n, ~ group_looks_at d group n) /\ pruned d [("A", VStr "x"); ("B", VStr "y")] /\
  both ["A"; "B"] "A" "B" /\ only_first ["A"; "B"] "A" "C" /\
  only_one_check (fun l => l) (load toy_hash 9 env) (VDict d) [["A"; "B"]; ["A"; "C"]] group_p = Ok [mkRM group_p "Only one of [A, B] should be specified for Resources/T/Properties"].
Proof. exact unconditional_example. Qed.

Example group_run_example_ : let k := mkColl [only_one_rule toy_hash (fun l => l) 9 [("AWS::X::Table", [["A"; "B"]])] [];
                                         exclusive_rule toy_hash (fun l => l) 9 [("AWS::X::Table", [("B", ["A"])])] []] default_settings in
  let c := mkCfn "t.yaml" "us-east-1" (marked (group_template (two_props "IsProd"))) in
  wf (template c) /\ resource_of (template c) "T" "AWS::X::Table" [("Type", VStr "AWS::X::Table"); ("Properties", VDict (two_props "IsProd"))] /\
  exists raw, snd (coll_run sample_sp k c) = Ok raw /\
    map f_msg raw = ["Only one of [A, B] should be specified when condition ""IsProd"" is True at Resources/T/Properties";
                     "Property A should NOT exist with B when condition ""IsProd"" is True for Resources/T/Properties"].
Proof. exact group_run_example. Qed.
