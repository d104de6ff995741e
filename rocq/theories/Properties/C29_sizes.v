(** C29 Sizes of lists, texts and numbers. *)
From Coq Require Import List ZArith QArith Permutation.
Import ListNotations.
From Verif.Model Require Import Base Helpers Locate Node Conditions Rules Relationship Resolve PropertyRules.
From Verif.Spec Require Import Paths Branches Walk Required Truth Resolved Groups Sizes.
From Verif.Proofs Require Import ConditionWitness Samples PropertyWitness PropertyRuleProofs SizeProofs SizeWitness.
Import Verif.Model.Rules.
Local Open Scope string_scope.

(** Without conditions: exactly the lists whose length is not between the bounds of the specification are reported, in each choice of branches of the properties. *)
Theorem list_sizes_reported : forall order c rs props specs p,
  (forall l, Permutation (order l) l) -> ~ In "" (keys (rs_value_types rs)) -> all_objects (VDict props) p ->
  (forall d q, branch (VDict props) p (VDict d) q -> plain_object d /\ VDict d <> no_value /\ forall n, ~ members_look_at d n) ->
  exists ms, list_size_check order c rs (VDict props) specs p = Ok ms /\
    forall m, In m ms <-> exists d q prop ps lo hi l, branch (VDict props) p (VDict d) q /\ assoc prop specs = Some ps /\ list_bounds rs ps lo hi /\
      assoc prop d = Some (VList l) /\ ~ within lo hi (List.length l) /\
      m = mkRM (q ++ [PKey prop])%list (prop ++ " has to have between " ++ str_of_Z lo ++ " and " ++ str_of_Z hi ++ " items specified").
Proof. exact c29_list_plain. Qed.
Print Assumptions list_sizes_reported.

(** With conditions: the list of each deployment is looked at.  Missing for the full property: more than four conditions that are unrelated. *)
Theorem conditional_list_sizes_found_partial : forall hash order template defs parameters fuel w b rs props specs p d q names d' prop ps lo hi l ms,
  (forall v, digest (hash v)) -> (forall l, Permutation (order l) l) ->
  section_of "Conditions" template defs -> section_of "Parameters" template parameters ->
  ~ In "" (keys (rs_value_types rs)) -> all_objects (VDict props) p -> (forall d q, branch (VDict props) p (VDict d) q -> plain_object d) ->
  branch (VDict props) p (VDict d) q ->
  NoDup names -> names <> [] -> (forall n, In n names <-> members_look_at d n) ->
  (forall n, In n names -> mem_assoc n (cs_conditions (load hash fuel template)) = true) ->
  (List.length names <= 4 \/ some_related defs names) ->
  deployment hash parameters w -> gives defs w names b ->
  deployed b d d' -> assoc prop specs = Some ps -> list_bounds rs ps lo hi -> assoc prop d' = Some (VList l) -> ~ within lo hi (List.length l) ->
  list_size_check order (load hash fuel template) rs (VDict props) specs p = Ok ms ->
  exists sc, Permutation sc (scenario_of names b) /\
    In (mkRM (q ++ [PKey prop])%list (prop ++ " has to have between " ++ str_of_Z lo ++ " and " ++ str_of_Z hi ++ " items specified when " ++ scenario_text sc)) ms.
Proof. exact c29_list_found. Qed.
Print Assumptions conditional_list_sizes_found_partial.

(** What is reported is the case in the deployments that the finding names. *)
Theorem conditional_list_sizes_are_real : forall hash order template defs parameters rs props specs p w0 b0,
  (forall v, digest (hash v)) -> (forall l, Permutation (order l) l) ->
  section_of "Conditions" template defs -> section_of "Parameters" template parameters ->
  NoDup (keys defs) -> (forall n v, In (n, v) defs -> well_formed defs v) ->
  NoDup (keys parameters) -> (forall n p, In (n, p) parameters -> plain_parameter p) -> told_apart hash parameters ->
  ~ In "" (keys (rs_value_types rs)) -> all_objects (VDict props) p ->
  deployment hash parameters w0 -> gives defs w0 (keys defs) b0 ->
  (forall d q, branch (VDict props) p (VDict d) q -> plain_object d /\ VDict d <> no_value /\
     exists names, NoDup names /\ (forall n, In n names <-> members_look_at d n) /\
       (forall n, In n names -> In n (keys defs)) /\ (List.length names <= 4 \/ some_related defs names)) ->
  exists limit, forall fuel, limit <= fuel ->
  exists ms, list_size_check order (load hash fuel template) rs (VDict props) specs p = Ok ms /\
    forall m, In m ms -> exists d q prop ps lo hi, branch (VDict props) p (VDict d) q /\ assoc prop specs = Some ps /\ list_bounds rs ps lo hi /\
      ((forall n, ~ members_look_at d n) /\ (exists l, assoc prop d = Some (VList l) /\ ~ within lo hi (List.length l)) /\
         m = mkRM (q ++ [PKey prop])%list (prop ++ " has to have between " ++ str_of_Z lo ++ " and " ++ str_of_Z hi ++ " items specified") \/
       exists names b sc, NoDup names /\ names <> [] /\ (forall n, In n names <-> members_look_at d n) /\ Permutation sc (scenario_of names b) /\
         (forall d', deployed b d d' -> exists l, assoc prop d' = Some (VList l) /\ ~ within lo hi (List.length l)) /\
         m = mkRM (q ++ [PKey prop])%list (prop ++ " has to have between " ++ str_of_Z lo ++ " and " ++ str_of_Z hi ++ " items specified when " ++ scenario_text sc) /\
         ((some_related defs names \/ forall n, In n names -> exists w, deployment hash parameters w /\ gives defs w [n] b) ->
          exists w, deployment hash parameters w /\ gives defs w names b)).
Proof. exact c29_list_real. Qed.
Print Assumptions conditional_list_sizes_are_real.

(** Exactly the texts whose length is not between the bounds are reported.  Missing for the full property: bounds that are 0, and properties that are a condition; both are refuted below. *)
Theorem text_sizes_reported_partial : forall rs props specs p,
  ~ In "" (keys (rs_value_types rs)) -> ~ is_if (VDict props) -> VDict props <> NoValue -> NoDup (keys props) ->
  (forall prop x q, assoc prop props = Some x -> ~ alternative x (p ++ [PKey prop])%list VNull q) ->
  exists ms, string_size_check rs (VDict props) specs p = Ok ms /\
    forall m, In m ms <-> exists prop ps x lo hi s r, assoc prop props = Some x /\ assoc prop specs = Some ps /\ string_bounds rs ps lo hi /\ lo <> 0%Z /\ hi <> 0%Z /\
      single x (p ++ [PKey prop])%list (VStr s) r /\ ~ within lo hi (String.length s) /\
      m = mkRM r ("String has to have length between " ++ str_of_Z lo ++ " and " ++ str_of_Z hi ++ " at " ++ path_text r).
Proof. exact c29_string. Qed.
Print Assumptions text_sizes_reported_partial.

(** Exactly the values that are no number between the bounds are reported, with the same exception for properties that are a condition. *)
Theorem number_sizes_reported_partial : forall (reads : string -> option (option QArith_base.Q)), forall rs props specs p,
  ~ In "" (keys (rs_value_types rs)) -> ~ is_if (VDict props) -> VDict props <> NoValue -> NoDup (keys props) ->
  (forall prop x q, assoc prop props = Some x -> ~ alternative x (p ++ [PKey prop])%list VNull q) ->
  exists ms, number_size_check reads rs (VDict props) specs p = Ok ms /\
    forall m, In m ms <-> exists prop ps x lo hi w r, assoc prop props = Some x /\ assoc prop specs = Some ps /\ number_bounds rs ps lo hi /\
      single x (p ++ [PKey prop])%list w r /\ out_of_range reads (fst lo) (fst hi) w /\
      m = mkRM r ("Value has to be between " ++ snd lo ++ " and " ++ snd hi ++ " at " ++ path_text r).
Proof. exact c29_number. Qed.
Print Assumptions number_sizes_reported_partial.

(** In a run, each of these texts leads to a finding of E3033 ... *)
Theorem text_size_findings : forall hash fuel sp k c raw rs name rt attrs pd specs m0 d0 prop ps x lo hi s r,
  snd (coll_run sp k c) = Ok raw -> In (string_size_rule hash fuel rs) (k_all k) -> enabled (k_set k) (string_size_rule hash fuel rs) = true ->
  wf (template c) -> c_tmpl c = MDict m0 d0 -> resource_of (template c) name rt attrs -> assoc "Properties" attrs = Some (VDict pd) -> assoc rt (rs_resource_types rs) = Some specs ->
  ~ In "" (keys (rs_value_types rs)) -> ~ is_if (VDict pd) -> VDict pd <> NoValue -> NoDup (keys pd) ->
  (forall prop x q, assoc prop pd = Some x -> ~ alternative x (props_path name ++ [PKey prop])%list VNull q) ->
  assoc prop pd = Some x -> assoc prop specs = Some ps -> string_bounds rs ps lo hi -> lo <> 0%Z -> hi <> 0%Z ->
  single x (props_path name ++ [PKey prop])%list (VStr s) r -> ~ within lo hi (String.length s) ->
  exists f, locate_match c "E3033" (mkRM r ("String has to have length between " ++ str_of_Z lo ++ " and " ++ str_of_Z hi ++ " at " ++ path_text r)) = Ok f /\ In f raw.
Proof. exact c29_string_run. Qed.
Print Assumptions text_size_findings.

(** ... and each of these values to a finding of E3034. *)
Theorem number_size_findings : forall hash fuel reads sp k c raw rs name rt attrs pd specs m0 d0 prop ps x lo hi w r,
  snd (coll_run sp k c) = Ok raw -> In (number_size_rule hash fuel reads rs) (k_all k) -> enabled (k_set k) (number_size_rule hash fuel reads rs) = true ->
  wf (template c) -> c_tmpl c = MDict m0 d0 -> resource_of (template c) name rt attrs -> assoc "Properties" attrs = Some (VDict pd) -> assoc rt (rs_resource_types rs) = Some specs ->
  ~ In "" (keys (rs_value_types rs)) -> ~ is_if (VDict pd) -> VDict pd <> NoValue -> NoDup (keys pd) ->
  (forall prop x q, assoc prop pd = Some x -> ~ alternative x (props_path name ++ [PKey prop])%list VNull q) ->
  assoc prop pd = Some x -> assoc prop specs = Some ps -> number_bounds rs ps lo hi ->
  single x (props_path name ++ [PKey prop])%list w r -> out_of_range reads (fst lo) (fst hi) w ->
  exists f, locate_match c "E3034" (mkRM r ("Value has to be between " ++ snd lo ++ " and " ++ snd hi ++ " at " ++ path_text r)) = Ok f /\ In f raw.
Proof. exact c29_number_run. Qed.
Print Assumptions number_size_findings.

(** The same for the texts of the nested objects of a resource ... *)
Theorem nested_text_size_findings : forall hash fuel sp k c raw rs name rt attrs pd n d q specs m0 d0 prop ps x lo hi s r,
  snd (coll_run sp k c) = Ok raw -> In (string_size_rule hash fuel rs) (k_all k) -> enabled (k_set k) (string_size_rule hash fuel rs) = true ->
  wf (template c) -> c_tmpl c = MDict m0 d0 -> resource_of (template c) name rt attrs -> assoc "Properties" attrs = Some (VDict pd) ->
  resource_nested sp rt (VDict pd) (props_path name) n (VDict d) q -> assoc n (rs_property_types rs) = Some specs ->
  ~ In "" (keys (rs_value_types rs)) -> ~ is_if (VDict d) -> VDict d <> NoValue -> NoDup (keys d) ->
  (forall prop x r, assoc prop d = Some x -> ~ alternative x (q ++ [PKey prop])%list VNull r) ->
  assoc prop d = Some x -> assoc prop specs = Some ps -> string_bounds rs ps lo hi -> lo <> 0%Z -> hi <> 0%Z ->
  single x (q ++ [PKey prop])%list (VStr s) r -> ~ within lo hi (String.length s) ->
  exists f, locate_match c "E3033" (mkRM r ("String has to have length between " ++ str_of_Z lo ++ " and " ++ str_of_Z hi ++ " at " ++ path_text r)) = Ok f /\ In f raw.
Proof. exact c29_string_nested_run. Qed.
Print Assumptions nested_text_size_findings.

(** ... and their numbers. *)
Theorem nested_number_size_findings : forall hash fuel reads sp k c raw rs name rt attrs pd n d q specs m0 d0 prop ps x lo hi w r,
  snd (coll_run sp k c) = Ok raw -> In (number_size_rule hash fuel reads rs) (k_all k) -> enabled (k_set k) (number_size_rule hash fuel reads rs) = true ->
  wf (template c) -> c_tmpl c = MDict m0 d0 -> resource_of (template c) name rt attrs -> assoc "Properties" attrs = Some (VDict pd) ->
  resource_nested sp rt (VDict pd) (props_path name) n (VDict d) q -> assoc n (rs_property_types rs) = Some specs ->
  ~ In "" (keys (rs_value_types rs)) -> ~ is_if (VDict d) -> VDict d <> NoValue -> NoDup (keys d) ->
  (forall prop x r, assoc prop d = Some x -> ~ alternative x (q ++ [PKey prop])%list VNull r) ->
  assoc prop d = Some x -> assoc prop specs = Some ps -> number_bounds rs ps lo hi ->
  single x (q ++ [PKey prop])%list w r -> out_of_range reads (fst lo) (fst hi) w ->
  exists f, locate_match c "E3034" (mkRM r ("Value has to be between " ++ snd lo ++ " and " ++ snd hi ++ " at " ++ path_text r)) = Ok f /\ In f raw.
Proof. exact c29_number_nested_run. Qed.
Print Assumptions nested_number_size_findings.

(** A lower bound of 0 switches the check of texts off. *)
Theorem zero_bound_refuted : exists rs specs ps prop s, assoc prop specs = Some ps /\ string_bounds rs ps 0%Z 3%Z /\ ~ within 0%Z 3%Z (String.length s) /\
  forall p, string_size_check rs (VDict [(prop, VStr s)]) specs p = Ok [].
Proof. exact c29_zero_refuted. Qed.
Print Assumptions zero_bound_refuted.

(** The texts and numbers of properties that are a condition are not looked at. *)
Theorem conditional_properties_refuted : exists rs specs ps prop s reads x, assoc prop specs = Some ps /\ string_bounds rs ps 2%Z 4%Z /\ ~ within 2%Z 4%Z (String.length s) /\
  (forall p, exists q, branch (If_of x) p (VDict [(prop, VStr s)]) q) /\
  forall p, string_size_check rs (If_of x) specs p = Ok [] /\ number_size_check reads rs (If_of x) specs p = Ok [].
Proof. exact c29_if_refuted. Qed.
Print Assumptions conditional_properties_refuted.

Example size_hypotheses_ : ~ In "" (keys (rs_value_types size_rs)) /\ ~ is_if (VDict size_props) /\ VDict size_props <> NoValue /\ NoDup (keys size_props) /\
  (forall prop x q p, assoc prop size_props = Some x -> ~ alternative x p VNull q) /\
  wf (template size_cfn) /\ (exists m d, c_tmpl size_cfn = MDict m d) /\ resource_of (template size_cfn) "T" "AWS::X::Table" size_attrs /\
  enabled default_settings (string_size_rule toy_hash 9 size_rs) = true /\ enabled default_settings (number_size_rule toy_hash 9 size_reads size_rs) = true.
Proof. exact size_hypotheses. Qed.

Example size_single_ : single (VList [VStr "abcde"; if_ "IsProd" (VStr "x") (VStr "xy")]) [PKey "Names"] (VStr "x") [PKey "Names"; PIdx 1; PKey "Fn::If"; PIdx 1] /\ ~ within 2%Z 4%Z (String.length "x") /\
  single (if_ "IsProd" (VInt 0%Z) (VStr "3.5")) [PKey "Size"] (VInt 0%Z) [PKey "Size"; PKey "Fn::If"; PIdx 1] /\ out_of_range size_reads (1#1) (10#1) (VInt 0%Z).
Proof. exact size_single. Qed.

Example size_example_ : let k := mkColl [string_size_rule toy_hash 9 size_rs; number_size_rule toy_hash 9 size_reads size_rs; list_size_rule toy_hash (fun l => l) 9 size_rs] default_settings in
  exists raw, snd (coll_run sample_sp k size_cfn) = Ok raw /\
    map f_msg raw = ["String has to have length between 2 and 4 at Resources/T/Properties/Names/0";
                     "String has to have length between 2 and 4 at Resources/T/Properties/Names/1/Fn::If/1";
                     "Value has to be between 1 and 10 at Resources/T/Properties/Size/Fn::If/1"].
Proof. exact size_example. Qed.

Example nested_size_example_ : let k := mkColl [string_size_rule toy_hash 9 nested_rs; number_size_rule toy_hash 9 size_reads nested_rs] default_settings in
  exists raw, snd (coll_run sample_sp k sample_cfn) = Ok raw /\
    map f_msg raw = ["Value has to be between 2 and 10 at Resources/T/Properties/Fn::If/1/Rules/0/Id";
                     "String has to have length between 2 and 4 at Resources/T/Properties/Fn::If/1/Rules/1/Text"].
Proof. exact nested_size_example. Qed.

Example nested_size_hypotheses_ : exists d q ps, resource_nested sample_sp "AWS::X::Table" (VDict sample_props) [PKey "Resources"; PKey "T"; PKey "Properties"] "AWS::X::Table.Rule" (VDict d) q /\
     ~ is_if (VDict d) /\ VDict d <> NoValue /\ NoDup (keys d) /\ (forall prop x r, assoc prop d = Some x -> ~ alternative x (q ++ [PKey prop])%list VNull r) /\
     assoc "Text" d = Some (VStr "x") /\ assoc "Text" (specs_of "AWS::X::Table.Rule" (rs_property_types nested_rs)) = Some ps /\ string_bounds nested_rs ps 2%Z 4%Z /\ ~ within 2%Z 4%Z (String.length "x").
Proof. exact nested_size_hypotheses. Qed.

Example list_example_ : all_objects (VDict list_props) [PKey "P"] /\ branch (VDict list_props) [PKey "P"] (VDict list_props) [PKey "P"] /\ plain_object list_props /\
  (forall n, In n ["IsProd"] <-> members_look_at list_props n) /\ gives env_defs env_values ["IsProd"] env_bools /\
  deployed env_bools list_props [("Names", VList [VStr "a"; VStr "b"; VStr "c"])] /\
  list_bounds size_rs (mkPS false (Some "List") None (Some "String") [("ListValueType", "Two"); ("ValueType", "Name")] None) 1%Z 2%Z /\ ~ within 1%Z 2%Z 3 /\
  list_size_check (fun l => l) (load toy_hash 9 env) size_rs (VDict list_props) size_specs [PKey "P"] =
    Ok [mkRM [PKey "P"; PKey "Names"] "Names has to have between 1 and 2 items specified when when condition ""IsProd"" is True"] /\
  list_size_check (fun l => l) (load toy_hash 9 env) size_rs (VDict [("Names", VList [])]) size_specs [PKey "P"] =
    Ok [mkRM [PKey "P"; PKey "Names"] "Names has to have between 1 and 2 items specified"].
Proof. exact list_example. Qed.

Example string_bounds_example : string_bounds size_rs (mkPS false (Some "List") None (Some "String") [("ListValueType", "Two"); ("ValueType", "Name")] None) 2%Z 4%Z.
Proof. exact string_bounds_sample. Qed.

Example number_bounds_example : number_bounds size_rs (mkPS false None (Some "Integer") None [("ValueType", "Size")] None) (1#1, "1")%Q (10#1, "10")%Q.
Proof. exact number_bounds_sample. Qed.
