(** C77 The records of Route 53 are judged by the grammar of their type. *)
From Coq Require Import List Permutation.
Import ListNotations.
From Verif.Model Require Import Base Helpers Locate Node Conditions Search Resolve Rules Relationship PropertyRules SubProps Route53.
From Verif.Spec Require Import Paths Branches References Required Walk Values Permissions Truth Resolved Groups Nested Records.
From Verif.Proofs Require Import ConditionWitness Samples PropertyWitness PropertyRuleProofs GroupWitness IamWitness SubPropsWitness RecordTexts RecordProofs RecordMain RecordWitness.
Import Verif.Model.Rules.
Local Open Scope string_scope.

(** E3020 reports exactly the records that do not have the form of their type (four small numbers for A, visible characters for NS, PTR and CNAME, three settings for CAA, two for MX, quoted texts for TXT), at the record, and the CNAMEs with more than one record.  Missing for the full property: the grammar of IPv6 addresses, which is an argument, records of other shapes, and the MX records whose priority is good and whose name is not (refuted below). *)
Theorem records_judged_partial : forall ipv6 order c globals t,
  wf t -> wf globals -> records_shaped t -> unconditional_names t globals ->
  exists ms, recordsets_match ipv6 order c globals t = Ok ms /\
    forall m, In m ms <-> exists d p ty x, record_set t d p /\ records_of d ty x /\
      ((exists s r words, single x (p ++ [PKey "ResourceRecords"])%list (VStr s) r /\ record_fault ipv6 r ty s words /\ m = mkRM r words) \/
       (ty = "CNAME" /\ exists l, x = VList l /\ 1 < List.length l /\ m = mkRM (p ++ [PKey "ResourceRecords"])%list "A CNAME recordset can only contain 1 value")).
Proof. exact c77_records. Qed.
Print Assumptions records_judged_partial.

(** When the records of a CNAME rest on conditions, they are counted for each outcome: more than one for a deployment is reported with the outcome, and what is reported is more than one for an outcome.  Missing for the full property: more than four unrelated conditions, and records that are no list in some outcome (refuted below). *)
Theorem conditional_names_counted_partial : forall template globals p v hash order defs parameters names w0 b0,
  wf template -> wf globals -> at_path p template = Some v -> plain_path p -> at_path p globals = None -> tidy v -> is_dict v || is_list v = true -> v <> no_value ->
  (forall v, digest (hash v)) -> (forall l, Permutation (order l) l) ->
  section_of "Conditions" template defs -> section_of "Parameters" template parameters ->
  NoDup (keys defs) -> (forall n v, In (n, v) defs -> well_formed defs v) ->
  NoDup (keys parameters) -> (forall n p, In (n, p) parameters -> plain_parameter p) -> told_apart hash parameters ->
  NoDup names -> names <> [] -> (forall n, In n names <-> rests_on v n) -> (forall n, In n names -> In n (keys defs)) ->
  (List.length names <= 4 \/ some_related defs names) -> deployment hash parameters w0 -> gives defs w0 names b0 ->
  (forall b r, deep (known names b) v r -> exists l, r = Some (VList l)) ->
  exists limit, forall fuel, limit <= fuel ->
  exists ms, count_names order (load hash fuel template) template globals v p = Ok ms /\
    (forall m, In m ms -> exists b sc l, Permutation sc (scenario_of names b) /\ deep (known names b) v (Some (VList l)) /\ 1 < List.length l /\
      m = mkRM p ("A CNAME recordset can only contain 1 value " ++ scenario_text sc ++ " at " ++ path_text p) /\
      ((some_related defs names \/ forall n, In n names -> exists w, deployment hash parameters w /\ gives defs w [n] b) ->
       exists w, deployment hash parameters w /\ gives defs w names b)) /\
    (forall w b l, deployment hash parameters w -> gives defs w names b -> deep (known names b) v (Some (VList l)) -> 1 < List.length l ->
      exists sc, Permutation sc (scenario_of names b) /\ In (mkRM p ("A CNAME recordset can only contain 1 value " ++ scenario_text sc ++ " at " ++ path_text p)) ms).
Proof. exact c77_names. Qed.
Print Assumptions conditional_names_counted_partial.

(** In a run, each record without the form of its type leads to a finding of E3020. *)
Theorem record_findings : forall ipv6 hash order fuel globals sp k c raw m0 d0 d p ty x s r words,
  let rule := recordset_rule ipv6 hash order fuel globals in
  snd (coll_run sp k c) = Ok raw -> In rule (k_all k) -> enabled (k_set k) rule = true -> c_tmpl c = MDict m0 d0 -> wf (template c) -> wf globals ->
  records_shaped (template c) -> unconditional_names (template c) globals ->
  record_set (template c) d p -> records_of d ty x -> single x (p ++ [PKey "ResourceRecords"])%list (VStr s) r -> record_fault ipv6 r ty s words ->
  exists f, locate_match c "E3020" (mkRM r words) = Ok f /\ In f raw.
Proof. exact c77_run. Qed.
Print Assumptions record_findings.

(** A bad name in an MX record with a good priority ends the check with an exception; after a bad priority it is called a bad priority. *)
Theorem mx_name_refuted : records_checked (one_set "MX" ["10 "]) = Err (EOther "UnboundLocalError") /\
  records_checked (one_set "MX" ["x "]) = Ok ["MX record priority setting (x) should be of type Integer."; "MX record priority setting () should be of type Integer."].
Proof. exact mx_name_witness. Qed.
Print Assumptions mx_name_refuted.

(** Records of CNAME and TXT that are numbers end the check with an exception; those of A are not looked at. *)
Theorem number_record_refuted : let d ty := [("Type", VStr ty); ("ResourceRecords", VList [VInt 5])] in
  records_checked (d "TXT") = Err ETypeErr /\ records_checked (d "CNAME") = Err ETypeErr /\ records_checked (d "A") = Ok [].
Proof. exact number_record_witness. Qed.
Print Assumptions number_record_refuted.

(** An empty tag and a value that is one quotation mark are accepted in a CAA record. *)
Theorem caa_refuted : records_checked (one_set "CAA" ["0  """]) = Ok [].
Proof. exact caa_witness. Qed.
Print Assumptions caa_refuted.

(** A host may have any name without spaces. *)
Theorem host_refuted : records_checked (one_set "NS" ["..""!;$(rm)"]) = Ok [].
Proof. exact host_witness. Qed.
Print Assumptions host_refuted.

(** A record set of a group that is no object ends the check with an exception, and one in a condition is not looked at. *)
Theorem group_item_refuted : let check x := let t := with_resource group_name [("RecordSets", VList [x])] in recordsets_match (fun _ => false) (fun l => l) (load toy_hash 9 t) (VDict []) t in
  check (VStr "x") = Err ETemplateAttribute /\ check (if_ "IsDev" (VDict (one_set "A" ["x"])) (VDict (one_set "A" ["y"]))) = Ok [] /\ check (VDict (one_set "A" ["x"])) <> Ok [].
Proof. exact group_item_witness. Qed.
Print Assumptions group_item_refuted.

(** Records of a CNAME that are gone for some outcome end the check with an exception. *)
Theorem names_gone_refuted : let t := VDict [("Parameters", VDict env_params); ("Conditions", VDict env_defs); ("Resources", VDict [("R", VDict [("Type", VStr set_name);
    ("Properties", VDict [("Type", VStr "CNAME"); ("ResourceRecords", if_ "IsDev" (VList [VStr "a"]) no_value)])])])] in
  recordsets_match (fun _ => false) (fun l => l) (load toy_hash 9 t) (VDict []) t = Err ETypeErr.
Proof. exact names_gone_witness. Qed.
Print Assumptions names_gone_refuted.

(** Record sets whose type is a condition are not looked at. *)
Theorem conditional_type_refuted : records_checked [("Type", if_ "IsDev" (VStr "A") (VStr "A")); ("ResourceRecords", texts ["x"])] = Ok [].
Proof. exact conditional_type_witness. Qed.
Print Assumptions conditional_type_refuted.

Example records_example_ : let t := with_resource group_name bad_records in
  wf (template (cfn_of t)) /\ records_shaped (template (cfn_of t)) /\ unconditional_names (template (cfn_of t)) (VDict []) /\
  (exists p d x r, record_set (template (cfn_of t)) d p /\ records_of d "A" x /\ single x (p ++ [PKey "ResourceRecords"])%list (VStr "1.2.3.256") r) /\
  (forall ipv6 q, record_fault ipv6 q "A" "1.2.3.256" "A record (1.2.3.256) is not a valid IPv4 address") /\ (forall ipv6 q words, ~ record_fault ipv6 q "A" "010.1.1.1" words) /\
  (forall ipv6 q words, ~ record_fault ipv6 q "TXT" """a"" ""b""" words) /\
  records_run t = Ok ["A record (1.2.3.256) is not a valid IPv4 address"; "A CNAME recordset can only contain 1 value"; "CNAME record (b c) does not contain a valid domain name";
    "TXT record is not structured as one or more items up to 255 characters enclosed in double quotation marks at Resources/R/Properties/RecordSets/2/ResourceRecords/1"].
Proof. exact records_example. Qed.

Example words_example_ : (forall ipv6 q, record_fault ipv6 q "CAA" "0 issue" "CAA record must contain 3 settings (flags tag ""value""), record contains 2 settings.") /\
  (forall ipv6 q, record_fault ipv6 q "CAA" "7 issue ""ca""" "Invalid CAA record flag setting (7) given, must be 0 or 128.") /\
  (forall ipv6 q, record_fault ipv6 q "MX" "70000 mail" "Invalid MX record priority setting (70000) given, must be between 0 and 65535.") /\
  (forall ipv6 q, record_fault ipv6 q "MX" "mail" "MX record must contain 2 settings (priority domainname), record contains 1 settings.") /\
  number "70000" 70000 /\ small_number "007" /\ ~ small_number "0007" /\ ~ small_number "256".
Proof. exact words_example. Qed.

Example names_example_ : wf names_template /\ at_path (place_of "ResourceRecords") names_template = Some some_names /\ plain_path (place_of "ResourceRecords") /\ tidy some_names /\ some_names <> no_value /\
  section_of "Conditions" names_template env_defs /\ section_of "Parameters" names_template env_params /\
  (forall n, In n ["IsDev"] <-> rests_on some_names n) /\ In "IsDev" (keys env_defs) /\ deployment toy_hash env_params env_values /\ gives env_defs env_values ["IsDev"] env_bools /\
  (forall b r, deep (known ["IsDev"] b) some_names r -> exists l, r = Some (VList l)) /\
  (forall b, b "IsDev" = true -> deep (known ["IsDev"] b) some_names (Some (VList [VStr "a"; VStr "b"]))) /\
  records_run names_template = Ok ["A CNAME recordset can only contain 1 value when condition ""IsDev"" is True at Resources/R/Properties/ResourceRecords"].
Proof. exact names_example. Qed.
