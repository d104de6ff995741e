(** C86 JSON documents in properties are no longer than their limit. *)
From Coq Require Import List String Permutation ZArith QArith.
Import ListNotations.
From Verif.Model Require Import Base Helpers Locate Node Conditions Search Resolve Rules Relationship Parameters JsonDump PropertyRules JsonSize.
From Verif.Spec Require Import Paths Branches ConditionUse References Required Walk Values Truth Resolved Groups Nested JsonSize.
From Verif.Proofs Require Import Samples PropertyWitness ConditionWitness GroupWitness PropertyRuleProofs JsonSizeProofs JsonSizeMain JsonSizeWitness.
Import Verif.Model.Rules.
Local Open Scope string_scope.
Local Open Scope nat_scope.

(** Without conditions in the properties, E3502 reports exactly the documents that are too long. *)
Theorem json_sizes_partial : forall (float_text : Q -> string) (template globals : val) (json_max : string -> option Z) (props : list (string * val)) (specs : pspecs) (p : path),
  wf template -> wf globals -> at_path p template = Some (VDict props) -> plain_path p -> at_path p globals = None ->
  tidy (VDict props) -> ~ is_if (VDict props) -> ~ In "Ref" (keys specs) -> limits_known json_max specs ->
  forall order c,
  (forall n, ~ rests_on (VDict props) n) ->
  (forall prop ps limit x, assoc prop specs = Some ps -> json_limit json_max ps limit -> assoc prop props = Some x -> subs_written x) ->
  exists ms, json_check float_text order c template globals json_max (VDict props) specs p = Ok ms /\
    forall m, In m ms <-> exists prop ps limit x, assoc prop specs = Some ps /\ json_limit json_max ps limit /\ assoc prop props = Some x /\ x <> no_value /\
      too_long (fun q => String.length (float_text q)) limit x /\ m = mkRM (p ++ [PKey prop])%list (json_words limit).
Proof. exact c86_plain. Qed.
Print Assumptions json_sizes_partial.

(** With conditions, it reports each document that is too long in some deployment, and nothing that is short enough for each value of the conditions. *)
Theorem json_sizes_in_deployments_partial : forall (float_text : Q -> string) (template globals : val) (json_max : string -> option Z) (props : list (string * val)) (specs : pspecs) (p : path),
  wf template -> wf globals -> at_path p template = Some (VDict props) -> plain_path p -> at_path p globals = None ->
  tidy (VDict props) -> ~ is_if (VDict props) -> ~ In "Ref" (keys specs) -> limits_known json_max specs ->
  forall hash order defs parameters names w0 b0,
  (forall v, digest (hash v)) -> (forall l, Permutation (order l) l) ->
  section_of "Conditions" template defs -> section_of "Parameters" template parameters ->
  NoDup (keys defs) -> (forall n v, In (n, v) defs -> well_formed defs v) ->
  NoDup (keys parameters) -> (forall n p, In (n, p) parameters -> plain_parameter p) -> told_apart hash parameters ->
  NoDup names -> names <> [] -> (forall n, In n names <-> rests_on (VDict props) n) -> (forall n, In n names -> In n (keys defs)) ->
  (List.length names <= 4 \/ some_related defs names) -> deployment hash parameters w0 -> gives defs w0 names b0 ->
  (forall prop ps limit x b r, assoc prop specs = Some ps -> json_limit json_max ps limit -> assoc prop props = Some x -> deep (known names b) x r -> subs_written (member_left r)) ->
  exists bound, forall fuel, bound <= fuel ->
  exists ms, json_check float_text order (load hash fuel template) template globals json_max (VDict props) specs p = Ok ms /\
    (forall w b prop ps limit x r, deployment hash parameters w -> gives defs w names b -> assoc prop specs = Some ps -> json_limit json_max ps limit -> assoc prop props = Some x -> x <> no_value ->
       deep (known names b) x r -> too_long (fun q => String.length (float_text q)) limit (member_left r) ->
       exists sc, Permutation sc (scenario_of names b) /\ In (mkRM (p ++ [PKey prop])%list (json_words limit ++ " when " ++ scenario_text sc)) ms) /\
    (forall m, In m ms -> exists prop ps limit x sc b r, assoc prop specs = Some ps /\ json_limit json_max ps limit /\ assoc prop props = Some x /\
       Permutation sc (scenario_of names b) /\ deep (known names b) x r /\ too_long (fun q => String.length (float_text q)) limit (member_left r) /\
       m = mkRM (p ++ [PKey prop])%list (json_words limit ++ " when " ++ scenario_text sc) /\
       ((some_related defs names \/ forall n, In n names -> exists w, deployment hash parameters w /\ gives defs w [n] b) ->
        exists w, deployment hash parameters w /\ gives defs w names b)).
Proof. exact c86_conditional. Qed.
Print Assumptions json_sizes_in_deployments_partial.

(** In a run, each document that is too long leads to a finding of E3502. *)
Theorem json_size_findings_partial : forall float_text hash order fuel globals rs json_max sp k c raw m0 d0 name rt attrs pd prop ps limit x,
  wf (template c) -> wf globals ->
  snd (coll_run sp k c) = Ok raw -> In (json_rule float_text hash order fuel globals rs json_max) (k_all k) -> enabled (k_set k) (json_rule float_text hash order fuel globals rs json_max) = true -> c_tmpl c = MDict m0 d0 ->
  resource_of (template c) name rt attrs -> assoc "Properties" attrs = Some (VDict pd) -> ~ In name FUNCTIONS -> at_path (props_path name) globals = None ->
  tidy (VDict pd) -> (forall n, ~ rests_on (VDict pd) n) -> In rt (keys (rs_resource_types rs)) -> ~ In "Ref" (keys (specs_of rt (rs_resource_types rs))) -> limits_known json_max (specs_of rt (rs_resource_types rs)) ->
  (forall prop ps limit x, assoc prop (specs_of rt (rs_resource_types rs)) = Some ps -> json_limit json_max ps limit -> assoc prop pd = Some x -> subs_written x) ->
  assoc prop (specs_of rt (rs_resource_types rs)) = Some ps -> json_limit json_max ps limit -> assoc prop pd = Some x -> x <> no_value -> too_long (fun q => String.length (float_text q)) limit x ->
  exists f, locate_match c "E3502" (mkRM (props_path name ++ [PKey prop])%list (json_words limit)) = Ok f /\ In f raw.
Proof. exact c86_run. Qed.
Print Assumptions json_size_findings_partial.

(** Text between two placeholders of Fn::Sub is not counted, so that a document that is always too long is not reported. *)
Theorem between_placeholders_refuted : let v := sub_ "${A}0123456789012345678901234567890123456789${B}" in
  doc_checked [("Doc", VDict [("a", v)])] = Ok [] /\ forall a b, (30 < Z.of_nat (json_size (fun _ => 0%nat) (VDict [("a", VStr (a ++ "0123456789012345678901234567890123456789" ++ b))])))%Z.
Proof. exact between_placeholders_witness. Qed.
Print Assumptions between_placeholders_refuted.

(** A reference is counted with its name, so that a document that is short enough for some value is reported. *)
Theorem reference_counted_refuted : rmap (map rm_msg) (doc_checked [("Doc", VDict [("a", VDict [("Ref", VStr "AParameterWithALongName")])])]) = Ok ["Role trust policy JSON text cannot be longer than 30 characters"] /\
  json_size (fun _ => 0) (VDict [("a", VStr "*")]) = 9.
Proof. exact reference_counted_witness. Qed.
Print Assumptions reference_counted_refuted.

(** Quotes in a document given as text are counted twice. *)
Theorem text_document_refuted : let s := "{""a"":""b"",""c"":""d"",""e"":""f""}" in
  rmap (map rm_msg) (doc_checked [("Doc", VStr s)]) = Ok ["Role trust policy JSON text cannot be longer than 30 characters"] /\ String.length s = 25.
Proof. exact text_document_witness. Qed.
Print Assumptions text_document_refuted.

(** What AWS::NoValue leaves out is counted as null. *)
Theorem null_counted_refuted : rmap (map rm_msg) (doc_checked [("Doc", VDict [("abc", if_ "IsProd" (VStr "0") no_value); ("b", VStr "012345678901")])]) =
    Ok ["Role trust policy JSON text cannot be longer than 30 characters when when condition ""IsProd"" is False"] /\
  json_size (fun _ => 0) (VDict [("b", VStr "012345678901")]) = 20.
Proof. exact null_counted_witness. Qed.
Print Assumptions null_counted_refuted.

(** A condition elsewhere in the properties repeats the report for each of its values. *)
Theorem repeated_size_refuted : doc_run [("Doc", long_doc); ("Other", if_ "IsProd" (VStr "x") (VStr "y"))] =
    Ok ["Role trust policy JSON text cannot be longer than 30 characters when when condition ""IsProd"" is True";
        "Role trust policy JSON text cannot be longer than 30 characters when when condition ""IsProd"" is False"].
Proof. exact repeated_witness. Qed.
Print Assumptions repeated_size_refuted.

(** An Fn::Sub of an empty list ends the check with an exception. *)
Theorem empty_sub_refuted : doc_checked [("Doc", VDict [("a", VDict [("Fn::Sub", VList [])])])] = Err EIndex.
Proof. exact empty_sub_witness. Qed.
Print Assumptions empty_sub_refuted.

Example json_size_example_ : let t := group_template [("Doc", long_doc)] in let c := mkCfn "t.yaml" "us-east-1" (marked t) in
  wf (template c) /\ (exists m d, c_tmpl c = MDict m d) /\ resource_of (template c) "T" "AWS::X::Table" [("Type", VStr "AWS::X::Table"); ("Properties", VDict [("Doc", long_doc)])] /\
  at_path (props_path "T") (template c) = Some (VDict [("Doc", long_doc)]) /\ plain_path (props_path "T") /\ at_path (props_path "T") (VDict []) = None /\
  tidy (VDict [("Doc", long_doc)]) /\ (forall n, ~ rests_on (VDict [("Doc", long_doc)]) n) /\ ~ is_if (VDict [("Doc", long_doc)]) /\
  limits_known doc_max [("Doc", doc_spec)] /\ json_limit doc_max doc_spec 30 /\ subs_written long_doc /\ too_long (fun q => String.length (float_dots q)) 30 long_doc /\
  doc_run [("Doc", long_doc)] = Ok ["Role trust policy JSON text cannot be longer than 30 characters"] /\
  doc_run [("Doc", VDict [("a", sub_ "01234${A}56${B}"); ("b", VStr "01234567")])] = Ok [].
Proof. exact json_size_example. Qed.

Example json_condition_example_ : let t := group_template [("Doc", prod_doc)] in let props := [("Doc", prod_doc)] in
  section_of "Conditions" t env_defs /\ section_of "Parameters" t env_params /\ wf t /\ tidy (VDict props) /\ ~ is_if (VDict props) /\ NoDup ["IsProd"] /\
  (forall n, In n ["IsProd"] <-> rests_on (VDict props) n) /\ deployment toy_hash env_params env_values /\ gives env_defs env_values ["IsProd"] env_bools /\
  (forall prop ps limit x b r, assoc prop [("Doc", doc_spec)] = Some ps -> json_limit doc_max ps limit -> assoc prop props = Some x -> deep (known ["IsProd"] b) x r -> subs_written (member_left r)) /\
  deep (known ["IsProd"] env_bools) prod_doc (Some (VDict [("a", VStr "0123456789"); ("b", VStr "0123456789")])) /\
  too_long (fun q => String.length (float_dots q)) 30 (VDict [("a", VStr "0123456789"); ("b", VStr "0123456789")]) /\
  doc_run props = Ok ["Role trust policy JSON text cannot be longer than 30 characters when when condition ""IsProd"" is True"].
Proof. exact json_condition_example. Qed.
