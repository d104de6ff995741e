(** C66 Properties needed or unwanted because of the value of another property. *)
From Coq Require Import List Permutation.
Import ListNotations.
From Verif.Model Require Import Base Helpers Locate Node Conditions Rules Relationship PropertyRules BasedOn.
From Verif.Spec Require Import Paths Branches Walk Required Truth Resolved Groups Based.
From Verif.Proofs Require Import ConditionWitness Samples PropertyWitness PropertyRuleProofs GroupWitness BasedMain BasedWitness.
Import Verif.Model.Rules.
Local Open Scope string_scope.

(** Without conditions: exactly the properties that the value of another one makes necessary, and that are not there, are reported. *)
Theorem needed_properties_reported : forall matches template order c d specs p,
  (forall l, Permutation (order l) l) -> plain_object d -> VDict d <> no_value ->
  (forall k s, entry specs k s -> ~ In "Fn::If" (k :: bs_required s) /\ (forall n, ~ group_looks_at d (k :: bs_required s) n) /\ forall x, assoc k d = Some x -> judged template x) ->
  exists ms, based_check matches template order c bs_required negb "should be specified" (VDict d) specs p = Ok ms /\
    forall m, In m ms <-> exists k s prop, entry specs k s /\ asks matches template s (bs_required s) k prop d /\ ~ In prop (keys d) /\
      m = mkRM p ("When property '" ++ k ++ "' has its current value property '" ++ prop ++ "' should be specified at " ++ path_text p).
Proof. exact c66_needed_plain. Qed.
Print Assumptions needed_properties_reported.

(** With conditions: a property that is missing in a deployment although the value another has in it makes it necessary is reported for the values the conditions have.  Missing for the full property: more than four conditions that are unrelated, and properties that are a condition (refuted below). *)
Theorem needed_properties_found_partial : forall matches order hash template defs parameters fuel w b d names specs p k s prop d' ms,
  (forall v, digest (hash v)) -> (forall l, Permutation (order l) l) ->
  section_of "Conditions" template defs -> section_of "Parameters" template parameters ->
  plain_object d -> entry specs k s -> ~ In "Fn::If" (k :: bs_required s) ->
  NoDup names -> names <> [] -> (forall n, In n names <-> group_looks_at d (k :: bs_required s) n) ->
  (forall n, In n names -> mem_assoc n (cs_conditions (load hash fuel template)) = true) ->
  (List.length names <= 4 \/ some_related defs names) ->
  deployment hash parameters w -> gives defs w names b ->
  deployed b d d' -> asks matches template s (bs_required s) k prop d' -> ~ In prop (keys d') ->
  based_check matches template order (load hash fuel template) bs_required negb "should be specified" (VDict d) specs p = Ok ms ->
  exists sc, Permutation sc (scenario_of names b) /\
    In (mkRM p ("When property '" ++ k ++ "' has its current value property '" ++ prop ++ "' should be specified when " ++ scenario_text sc)) ms.
Proof. exact c66_needed_found. Qed.
Print Assumptions needed_properties_found_partial.

(** Whatever is reported is the case for some values of the conditions, and these are possible if two of the conditions are related or each value is possible by itself. *)
Theorem needed_properties_real_partial : forall matches order hash template defs parameters d specs p w0 b0,
  (forall v, digest (hash v)) -> (forall l, Permutation (order l) l) ->
  section_of "Conditions" template defs -> section_of "Parameters" template parameters ->
  NoDup (keys defs) -> (forall n v, In (n, v) defs -> well_formed defs v) ->
  NoDup (keys parameters) -> (forall n p, In (n, p) parameters -> plain_parameter p) -> told_apart hash parameters ->
  plain_object d -> VDict d <> no_value -> deployment hash parameters w0 -> gives defs w0 (keys defs) b0 ->
  (forall k s, entry specs k s -> ~ In "Fn::If" (k :: bs_required s) /\
     (forall x, assoc k d = Some x -> judged template x) /\ (forall b d' x, deployed b d d' -> assoc k d' = Some x -> judged template x) /\
     exists names, NoDup names /\ (forall n, In n names <-> group_looks_at d (k :: bs_required s) n) /\
       (forall n, In n names -> In n (keys defs)) /\ (List.length names <= 4 \/ some_related defs names)) ->
  exists limit, forall fuel, limit <= fuel ->
  exists ms, based_check matches template order (load hash fuel template) bs_required negb "should be specified" (VDict d) specs p = Ok ms /\
    forall m, In m ms -> exists k s prop, entry specs k s /\
      ((forall n, ~ group_looks_at d (k :: bs_required s) n) /\ asks matches template s (bs_required s) k prop d /\ ~ In prop (keys d) /\
         m = mkRM p ("When property '" ++ k ++ "' has its current value property '" ++ prop ++ "' should be specified at " ++ path_text p) \/
       exists names b sc, NoDup names /\ names <> [] /\ (forall n, In n names <-> group_looks_at d (k :: bs_required s) n) /\ Permutation sc (scenario_of names b) /\
         (forall d', deployed b d d' -> asks matches template s (bs_required s) k prop d' /\ ~ In prop (keys d')) /\
         m = mkRM p ("When property '" ++ k ++ "' has its current value property '" ++ prop ++ "' should be specified when " ++ scenario_text sc) /\
         ((some_related defs names \/ forall n, In n names -> exists w, deployment hash parameters w /\ gives defs w [n] b) ->
          exists w, deployment hash parameters w /\ gives defs w names b)).
Proof. exact c66_needed_real. Qed.
Print Assumptions needed_properties_real_partial.

(** In a run, each of these leads to a finding of E3017 ... *)
Theorem needed_property_findings : forall matches hash order fuel rts pts sp cl c raw name rt attrs pd m0 d0 k s prop,
  (forall l, Permutation (order l) l) ->
  snd (coll_run sp cl c) = Ok raw -> In (required_based_rule matches hash order fuel rts pts) (k_all cl) -> enabled (k_set cl) (required_based_rule matches hash order fuel rts pts) = true ->
  wf (template c) -> c_tmpl c = MDict m0 d0 -> resource_of (template c) name rt attrs -> assoc "Properties" attrs = Some (VDict pd) ->
  plain_object pd -> VDict pd <> no_value ->
  (forall k s, entry (table_of rt rts) k s -> ~ In "Fn::If" (k :: bs_required s) /\ (forall n, ~ group_looks_at pd (k :: bs_required s) n) /\ forall x, assoc k pd = Some x -> judged (template c) x) ->
  entry (table_of rt rts) k s -> asks matches (template c) s (bs_required s) k prop pd -> ~ In prop (keys pd) ->
  exists f, locate_match c "E3017" (mkRM (props_path name) ("When property '" ++ k ++ "' has its current value property '" ++ prop ++ "' should be specified at " ++ path_text (props_path name))) = Ok f /\ In f raw.
Proof. exact c66_needed_run. Qed.
Print Assumptions needed_property_findings.

(** ... also in the nested objects of a resource. *)
Theorem nested_needed_property_findings : forall matches hash order fuel rts pts sp cl c raw name rt attrs pd n d q m0 d0 k s prop,
  (forall l, Permutation (order l) l) ->
  snd (coll_run sp cl c) = Ok raw -> In (required_based_rule matches hash order fuel rts pts) (k_all cl) -> enabled (k_set cl) (required_based_rule matches hash order fuel rts pts) = true ->
  wf (template c) -> c_tmpl c = MDict m0 d0 -> resource_of (template c) name rt attrs -> assoc "Properties" attrs = Some (VDict pd) ->
  resource_nested sp rt (VDict pd) (props_path name) n (VDict d) q -> plain_object d -> VDict d <> no_value ->
  (forall k s, entry (table_of n pts) k s -> ~ In "Fn::If" (k :: bs_required s) /\ (forall n, ~ group_looks_at d (k :: bs_required s) n) /\ forall x, assoc k d = Some x -> judged (template c) x) ->
  entry (table_of n pts) k s -> asks matches (template c) s (bs_required s) k prop d -> ~ In prop (keys d) ->
  exists f, locate_match c "E3017" (mkRM q ("When property '" ++ k ++ "' has its current value property '" ++ prop ++ "' should be specified at " ++ path_text q)) = Ok f /\ In f raw.
Proof. exact c66_needed_nested_run. Qed.
Print Assumptions nested_needed_property_findings.

(** Without conditions: exactly the properties that are there although the value of another one makes them unwanted are reported. *)
Theorem unwanted_properties_reported : forall matches template order c d specs p,
  (forall l, Permutation (order l) l) -> plain_object d -> VDict d <> no_value ->
  (forall k s, entry specs k s -> ~ In "Fn::If" (k :: bs_unwanted s) /\ (forall n, ~ group_looks_at d (k :: bs_unwanted s) n) /\ forall x, assoc k d = Some x -> judged template x) ->
  exists ms, based_check matches template order c bs_unwanted (fun b => b) "should not be specified" (VDict d) specs p = Ok ms /\
    forall m, In m ms <-> exists k s prop, entry specs k s /\ asks matches template s (bs_unwanted s) k prop d /\ In prop (keys d) /\
      m = mkRM p ("When property '" ++ k ++ "' has its current value property '" ++ prop ++ "' should not be specified at " ++ path_text p).
Proof. exact c66_unwanted_plain. Qed.
Print Assumptions unwanted_properties_reported.

(** With conditions, in each deployment; with the same exceptions. *)
Theorem unwanted_properties_found_partial : forall matches order hash template defs parameters fuel w b d names specs p k s prop d' ms,
  (forall v, digest (hash v)) -> (forall l, Permutation (order l) l) ->
  section_of "Conditions" template defs -> section_of "Parameters" template parameters ->
  plain_object d -> entry specs k s -> ~ In "Fn::If" (k :: bs_unwanted s) ->
  NoDup names -> names <> [] -> (forall n, In n names <-> group_looks_at d (k :: bs_unwanted s) n) ->
  (forall n, In n names -> mem_assoc n (cs_conditions (load hash fuel template)) = true) ->
  (List.length names <= 4 \/ some_related defs names) ->
  deployment hash parameters w -> gives defs w names b ->
  deployed b d d' -> asks matches template s (bs_unwanted s) k prop d' -> In prop (keys d') ->
  based_check matches template order (load hash fuel template) bs_unwanted (fun b => b) "should not be specified" (VDict d) specs p = Ok ms ->
  exists sc, Permutation sc (scenario_of names b) /\
    In (mkRM p ("When property '" ++ k ++ "' has its current value property '" ++ prop ++ "' should not be specified when " ++ scenario_text sc)) ms.
Proof. exact c66_unwanted_found. Qed.
Print Assumptions unwanted_properties_found_partial.

(** Whatever is reported is the case for some values of the conditions. *)
Theorem unwanted_properties_real_partial : forall matches order hash template defs parameters d specs p w0 b0,
  (forall v, digest (hash v)) -> (forall l, Permutation (order l) l) ->
  section_of "Conditions" template defs -> section_of "Parameters" template parameters ->
  NoDup (keys defs) -> (forall n v, In (n, v) defs -> well_formed defs v) ->
  NoDup (keys parameters) -> (forall n p, In (n, p) parameters -> plain_parameter p) -> told_apart hash parameters ->
  plain_object d -> VDict d <> no_value -> deployment hash parameters w0 -> gives defs w0 (keys defs) b0 ->
  (forall k s, entry specs k s -> ~ In "Fn::If" (k :: bs_unwanted s) /\
     (forall x, assoc k d = Some x -> judged template x) /\ (forall b d' x, deployed b d d' -> assoc k d' = Some x -> judged template x) /\
     exists names, NoDup names /\ (forall n, In n names <-> group_looks_at d (k :: bs_unwanted s) n) /\
       (forall n, In n names -> In n (keys defs)) /\ (List.length names <= 4 \/ some_related defs names)) ->
  exists limit, forall fuel, limit <= fuel ->
  exists ms, based_check matches template order (load hash fuel template) bs_unwanted (fun b => b) "should not be specified" (VDict d) specs p = Ok ms /\
    forall m, In m ms -> exists k s prop, entry specs k s /\
      ((forall n, ~ group_looks_at d (k :: bs_unwanted s) n) /\ asks matches template s (bs_unwanted s) k prop d /\ In prop (keys d) /\
         m = mkRM p ("When property '" ++ k ++ "' has its current value property '" ++ prop ++ "' should not be specified at " ++ path_text p) \/
       exists names b sc, NoDup names /\ names <> [] /\ (forall n, In n names <-> group_looks_at d (k :: bs_unwanted s) n) /\ Permutation sc (scenario_of names b) /\
         (forall d', deployed b d d' -> asks matches template s (bs_unwanted s) k prop d' /\ In prop (keys d')) /\
         m = mkRM p ("When property '" ++ k ++ "' has its current value property '" ++ prop ++ "' should not be specified when " ++ scenario_text sc) /\
         ((some_related defs names \/ forall n, In n names -> exists w, deployment hash parameters w /\ gives defs w [n] b) ->
          exists w, deployment hash parameters w /\ gives defs w names b)).
Proof. exact c66_unwanted_real. Qed.
Print Assumptions unwanted_properties_real_partial.

(** In a run, each of these leads to a finding of E3018 ... *)
Theorem unwanted_property_findings : forall matches hash order fuel rts pts sp cl c raw name rt attrs pd m0 d0 k s prop,
  (forall l, Permutation (order l) l) ->
  snd (coll_run sp cl c) = Ok raw -> In (unwanted_based_rule matches hash order fuel rts pts) (k_all cl) -> enabled (k_set cl) (unwanted_based_rule matches hash order fuel rts pts) = true ->
  wf (template c) -> c_tmpl c = MDict m0 d0 -> resource_of (template c) name rt attrs -> assoc "Properties" attrs = Some (VDict pd) ->
  plain_object pd -> VDict pd <> no_value ->
  (forall k s, entry (table_of rt rts) k s -> ~ In "Fn::If" (k :: bs_unwanted s) /\ (forall n, ~ group_looks_at pd (k :: bs_unwanted s) n) /\ forall x, assoc k pd = Some x -> judged (template c) x) ->
  entry (table_of rt rts) k s -> asks matches (template c) s (bs_unwanted s) k prop pd -> In prop (keys pd) ->
  exists f, locate_match c "E3018" (mkRM (props_path name) ("When property '" ++ k ++ "' has its current value property '" ++ prop ++ "' should not be specified at " ++ path_text (props_path name))) = Ok f /\ In f raw.
Proof. exact c66_unwanted_run. Qed.
Print Assumptions unwanted_property_findings.

(** ... also in the nested objects of a resource. *)
Theorem nested_unwanted_property_findings : forall matches hash order fuel rts pts sp cl c raw name rt attrs pd n d q m0 d0 k s prop,
  (forall l, Permutation (order l) l) ->
  snd (coll_run sp cl c) = Ok raw -> In (unwanted_based_rule matches hash order fuel rts pts) (k_all cl) -> enabled (k_set cl) (unwanted_based_rule matches hash order fuel rts pts) = true ->
  wf (template c) -> c_tmpl c = MDict m0 d0 -> resource_of (template c) name rt attrs -> assoc "Properties" attrs = Some (VDict pd) ->
  resource_nested sp rt (VDict pd) (props_path name) n (VDict d) q -> plain_object d -> VDict d <> no_value ->
  (forall k s, entry (table_of n pts) k s -> ~ In "Fn::If" (k :: bs_unwanted s) /\ (forall n, ~ group_looks_at d (k :: bs_unwanted s) n) /\ forall x, assoc k d = Some x -> judged (template c) x) ->
  entry (table_of n pts) k s -> asks matches (template c) s (bs_unwanted s) k prop d -> In prop (keys d) ->
  exists f, locate_match c "E3018" (mkRM q ("When property '" ++ k ++ "' has its current value property '" ++ prop ++ "' should not be specified at " ++ path_text q)) = Ok f /\ In f raw.
Proof. exact c66_unwanted_nested_run. Qed.
Print Assumptions nested_unwanted_property_findings.

(** A property whose value is AWS::NoValue is in no deployment, yet it counts as specified when no condition is involved: it is not missed, and it is reported as unwanted. *)
Theorem removed_property_refuted : exists matches template d specs k s prop,
  plain_object d /\ (forall group n, ~ group_looks_at d group n) /\ entry specs k s /\
  (forall b d', deployed b d d' -> asks matches template s (bs_required s) k prop d' /\ ~ In prop (keys d')) /\
  forall order c p, (forall l, Permutation (order l) l) ->
    based_check matches template order c bs_required negb "should be specified" (VDict d) specs p = Ok [] /\
    exists ms, based_check matches template order c bs_unwanted (fun b => b) "should not be specified" (VDict d) specs p = Ok ms /\
      In (mkRM p ("When property '" ++ k ++ "' has its current value property '" ++ prop ++ "' should not be specified at " ++ path_text p)) ms.
Proof. exact c66_novalue_refuted. Qed.
Print Assumptions removed_property_refuted.

(** A GetAtt of a resource that does not exist ends the rule with an exception. *)
Theorem getatt_of_missing_resource_refuted : exists specs, forall matches d rs order c p n a,
  (forall l, Permutation (order l) l) -> assoc "Resources" d = Some (VDict rs) -> assoc n rs = None ->
  based_check matches (VDict d) order c bs_required negb "should be specified" (VDict [("Source", VDict [("Fn::GetAtt", VList [VStr n; a])])]) specs p = Err EAttribute.
Proof. exact c66_missing_refuted. Qed.
Print Assumptions getatt_of_missing_resource_refuted.

(** A GetAtt written as one text is not looked at, whatever it refers to. *)
Theorem getatt_text_refuted : exists specs, forall matches d rs r order c p n t,
  (forall l, Permutation (order l) l) -> assoc "Resources" d = Some (VDict rs) -> assoc n rs = Some (VDict r) -> assoc "Type" r = Some (VStr t) ->
  based_check matches (VDict d) order c bs_required negb "should be specified" (VDict [("Source", VDict [("Fn::GetAtt", VStr (n ++ ".Arn"))])]) specs p = Ok [].
Proof. exact c66_getatt_text_refuted. Qed.
Print Assumptions getatt_text_refuted.

(** Properties that are a condition are not looked at. *)
Theorem conditional_object_refuted : exists matches template specs k s prop,  entry specs k s /\
  forall cond order c p, (forall l, Permutation (order l) l) ->
    (exists d q, branch (if_ cond (VDict d) no_value) p (VDict d) q /\ asks matches template s (bs_required s) k prop d /\ ~ In prop (keys d) /\
       based_check matches template order c bs_required negb "should be specified" (if_ cond (VDict d) no_value) specs p = Ok []).
Proof. exact c66_if_refuted. Qed.
Print Assumptions conditional_object_refuted.

Example conditional_example_ : plain_object (two_props "IsDev") /\ VDict (two_props "IsDev") <> no_value /\ entry y_specs "B" when_y /\ ~ In "Fn::If" ("B" :: bs_required when_y) /\
  (forall n, In n ["IsDev"] <-> group_looks_at (two_props "IsDev") ("B" :: bs_required when_y) n) /\
  mem_assoc "IsDev" (cs_conditions (load toy_hash 9 env)) = true /\ gives env_defs env_values ["IsDev"] env_bools /\
  (exists d', deployed env_bools (two_props "IsDev") d' /\ asks toy_matches env when_y (bs_required when_y) "B" "A" d' /\ ~ In "A" (keys d')) /\
  (exists d', deployed (fun _ => true) (two_props "IsDev") d' /\ asks toy_matches env when_y (bs_unwanted when_y) "B" "A" d' /\ In "A" (keys d')) /\
  (forall b d' x, deployed b (two_props "IsDev") d' -> assoc "B" d' = Some x -> judged env x) /\
  based_check toy_matches env (fun l => l) (load toy_hash 9 env) bs_required negb "should be specified" (VDict (two_props "IsDev")) y_specs group_p =
    Ok [mkRM group_p "When property 'B' has its current value property 'A' should be specified when when condition ""IsDev"" is False"] /\
  based_check toy_matches env (fun l => l) (load toy_hash 9 env) bs_unwanted (fun b => b) "should not be specified" (VDict (two_props "IsDev")) y_specs group_p =
    Ok [mkRM group_p "When property 'B' has its current value property 'A' should not be specified when when condition ""IsDev"" is True"].
Proof. exact conditional_example. Qed.

Example based_run_example_ : let k := mkColl [required_based_rule toy_matches toy_hash (fun l => l) 9 [("AWS::X::Table", queue_specs)] [("AWS::X::Table.Rule", queue_specs)];
                   unwanted_based_rule toy_matches toy_hash (fun l => l) 9 [("AWS::X::Table", queue_specs)] [("AWS::X::Table.Rule", queue_specs)]] default_settings in
  wf (template based_cfn) /\ (exists m d, c_tmpl based_cfn = MDict m d) /\
  resource_of (template based_cfn) "T" "AWS::X::Table" [("Type", VStr "AWS::X::Table"); ("Properties", VDict queue_props)] /\
  plain_object queue_props /\ VDict queue_props <> no_value /\ (forall group n, ~ group_looks_at queue_props group n) /\
  entry queue_specs "Source" when_queue /\ (forall k s, entry queue_specs k s -> k = "Source" /\ s = when_queue) /\
  (forall x, assoc "Source" queue_props = Some x -> judged (template based_cfn) x) /\
  asks toy_matches (template based_cfn) when_queue (bs_required when_queue) "Source" "Batch" queue_props /\ ~ In "Batch" (keys queue_props) /\
  asks toy_matches (template based_cfn) when_queue (bs_unwanted when_queue) "Source" "Start" queue_props /\ In "Start" (keys queue_props) /\
  asks toy_matches (template based_cfn) when_queue (bs_required when_queue) "Source" "Batch" topic_props /\
  exists raw, snd (coll_run sample_sp k based_cfn) = Ok raw /\
    map f_msg raw = ["When property 'Source' has its current value property 'Batch' should be specified at Resources/T/Properties";
                     "When property 'Source' has its current value property 'Start' should not be specified at Resources/T/Properties";
                     "When property 'Source' has its current value property 'Batch' should be specified at Resources/U/Properties";
                     "When property 'Source' has its current value property 'Batch' should be specified at Resources/U/Properties/Rules/0"].
Proof. exact based_run_example. Qed.
