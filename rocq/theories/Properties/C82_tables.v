(** C82 The attributes that tables define are those that their keys use. *)
From Coq Require Import List Permutation.
Import ListNotations.
From Verif.Model Require Import Base Helpers Locate Node Conditions Search Resolve Rules Relationship PropertyRules DynamoDb.
From Verif.Spec Require Import Paths Branches References Required Walk Values Truth Resolved Groups Files Tables.
From Verif.Proofs Require Import Samples PropertyWitness PropertyRuleProofs IamWitness ConditionWitness GroupWitness TableProofs TableWitness.
Import Verif.Model.Rules.
Local Open Scope string_scope.

(** Without conditions, E3039 reports a table exactly when the attributes that it defines are not those that its keys and indexes use. *)
Theorem table_judged_partial : forall show_names,forall order c d p,
  (forall l, Permutation (order l) l) -> plain_object d -> VDict d <> no_value -> (forall n, ~ group_looks_at d table_part n) -> table_shaped d ->
  exists ms, table_match show_names order c (VDict d) p = Ok ms /\
    forall m, In m ms <-> exists defined used, table_fault d (defined, used) /\
      m = mkRM p ("The set of Attributes in AttributeDefinitions: " ++ show_names defined ++ " and KeySchemas: " ++ show_names used ++ " must match at " ++ path_text p).
Proof. exact c82_table. Qed.
Print Assumptions table_judged_partial.

(** With conditions, each report is about a deployment that has this fault, and each deployment that has it is reported. *)
Theorem tables_in_deployments_partial : forall show_names,forall order hash template defs parameters d names w0 b0 p,
  (forall v, digest (hash v)) -> (forall l, Permutation (order l) l) ->
  section_of "Conditions" template defs -> section_of "Parameters" template parameters ->
  NoDup (keys defs) -> (forall n v, In (n, v) defs -> well_formed defs v) ->
  NoDup (keys parameters) -> (forall n p, In (n, p) parameters -> plain_parameter p) -> told_apart hash parameters ->
  plain_object d -> NoDup names -> names <> [] -> (forall n, In n names <-> group_looks_at d table_part n) -> (forall n, In n names -> In n (keys defs)) ->
  (List.length names <= 4 \/ some_related defs names) -> deployment hash parameters w0 -> gives defs w0 names b0 ->
  (forall b d', deployed b d d' -> table_shaped d') ->
  exists limit, forall fuel, limit <= fuel ->
  exists ms, table_match show_names order (load hash fuel template) (VDict d) p = Ok ms /\
    (forall w b d' defined used, deployment hash parameters w -> gives defs w names b -> deployed b d d' -> table_fault d' (defined, used) ->
       In (mkRM p ("The set of Attributes in AttributeDefinitions: " ++ show_names defined ++ " and KeySchemas: " ++ show_names used ++ " must match at " ++ path_text p)) ms) /\
    (forall m, In m ms -> exists b defined used, (forall d', deployed b d d' -> table_fault d' (defined, used)) /\
       m = mkRM p ("The set of Attributes in AttributeDefinitions: " ++ show_names defined ++ " and KeySchemas: " ++ show_names used ++ " must match at " ++ path_text p) /\
       ((some_related defs names \/ forall n, In n names -> exists w, deployment hash parameters w /\ gives defs w [n] b) ->
        exists w, deployment hash parameters w /\ gives defs w names b)).
Proof. exact c82_table_conditional. Qed.
Print Assumptions tables_in_deployments_partial.

(** In a run, each of these tables leads to a finding of E3039. *)
Theorem table_findings : forall show_names,forall hash order fuel sp k c raw name attrs pd m0 d0 defined used,
  (forall l, Permutation (order l) l) ->
  snd (coll_run sp k c) = Ok raw -> In (table_rule show_names hash order fuel) (k_all k) -> enabled (k_set k) (table_rule show_names hash order fuel) = true ->
  wf (template c) -> c_tmpl c = MDict m0 d0 -> resource_of (template c) name "AWS::DynamoDB::Table" attrs -> assoc "Properties" attrs = Some (VDict pd) ->
  plain_object pd -> VDict pd <> no_value -> (forall n, ~ group_looks_at pd table_part n) -> table_shaped pd ->
  table_fault pd (defined, used) ->
  exists f, locate_match c "E3039" (mkRM (props_path name) ("The set of Attributes in AttributeDefinitions: " ++ show_names defined ++ " and KeySchemas: " ++ show_names used ++ " must match at " ++ path_text (props_path name))) = Ok f /\ In f raw.
Proof. exact c82_table_run. Qed.
Print Assumptions table_findings.

(** A conditional key of an index is left out when attributes are compared, whatever its conditions say. *)
Theorem index_key_refuted : let key := if_ "IsProd" (named (VStr "a")) (named (VStr "b")) in
  table_messages (indexed_by [named (VStr "a")] [named (VStr "a")]) = Ok [] /\ table_messages (indexed_by [named (VStr "b")] [named (VStr "b")]) = Ok [] /\
  table_messages (indexed_by [key] [key]) =
    Ok ["The set of Attributes in AttributeDefinitions: [a] and KeySchemas: [] must match at Resources/R/Properties"; "The set of Attributes in AttributeDefinitions: [b] and KeySchemas: [] must match at Resources/R/Properties"].
Proof. exact index_key_witness. Qed.
Print Assumptions index_key_refuted.

(** An attribute whose name is chosen by Fn::If. *)
Theorem name_if_refuted : table_messages (indexed_by [named (VStr "a")] [named (if_ "IsProd" (VStr "a") (VStr "a"))]) = Err ETypeErr.
Proof. exact name_if_witness. Qed.
Print Assumptions name_if_refuted.

(** A name that is a reference. *)
Theorem name_ref_refuted : let r := named (VDict [("Ref", VStr "P")]) in
  table_messages (indexed_by [named (VStr "a")] [r]) = Ok ["The set of Attributes in AttributeDefinitions: [a] and KeySchemas: [] must match at Resources/R/Properties"] /\
  table_messages (indexed_by [named (VStr "a"); r] [named (VStr "b")]) = Ok [].
Proof. exact name_ref_witness. Qed.
Print Assumptions name_ref_refuted.

Example table_example_ : let t := with_resource table_type sample_table in
  wf (template (cfn_of t)) /\ plain_object sample_table /\ VDict sample_table <> no_value /\ (forall n, ~ group_looks_at sample_table table_part n) /\ table_shaped sample_table /\
  table_fault sample_table (["a"; "b"], ["a"; "c"]) /\
  table_run sample_table = Ok ["The set of Attributes in AttributeDefinitions: [a, b] and KeySchemas: [a, c] must match at Resources/R/Properties"] /\
  table_run [("AttributeDefinitions", VList [named (VStr "b"); named (VStr "a")]); ("KeySchema", VList [named (VStr "a")]); ("LocalSecondaryIndexes", VList [VDict [("KeySchema", VList [named (VStr "b")])]])] = Ok [].
Proof. exact table_example. Qed.

Example conditional_table_example : section_of "Conditions" env env_defs /\ section_of "Parameters" env env_params /\ plain_object conditional_table /\
  (forall n, In n ["IsProd"] <-> group_looks_at conditional_table table_part n) /\ deployment toy_hash env_params env_values /\ gives env_defs env_values ["IsProd"] env_bools /\
  (forall b d', deployed b conditional_table d' -> table_shaped d') /\
  (exists d', deployed env_bools conditional_table d' /\ table_fault d' (["a"], ["b"])) /\
  table_messages conditional_table = Ok ["The set of Attributes in AttributeDefinitions: [a] and KeySchemas: [b] must match at Resources/R/Properties"].
Proof. exact conditional_example. Qed.
