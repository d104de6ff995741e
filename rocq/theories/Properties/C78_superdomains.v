(** C78 A record is named below its zone, and a certificate is validated by a domain above its name. *)
From Coq Require Import List Permutation.
Import ListNotations.
From Verif.Model Require Import Base Helpers Locate Node Conditions Search Resolve Rules Relationship PropertyRules SubProps Route53 Domains.
From Verif.Spec Require Import Paths Branches References Required Walk Values Truth Resolved Groups Domains.
From Verif.Proofs Require Import ConditionWitness Samples PropertyWitness PropertyRuleProofs GroupWitness IamWitness SubPropsWitness DomainProofs DomainWitness.
Import Verif.Model.Rules.
Local Open Scope string_scope.

(** E3041 reports exactly the record sets whose zone does not end in a dot, and those whose name does not end in the zone.  Missing for the full property: names that end in the letters of the zone only, the root zone and empty texts (refuted below). *)
Theorem zone_judged_partial : forall order c d p,
  (forall l, Permutation (order l) l) -> plain_object d -> VDict d <> no_value -> (forall n, ~ group_looks_at d ["Name"; "HostedZoneName"] n) -> zone_shaped d ->
  exists ms, zones_match order c (VDict d) p = Ok ms /\
    forall m, In m ms <-> exists key words, zone_fault d key words /\ m = mkRM (p ++ [PKey key])%list (words ++ path_text p).
Proof. exact c78_zone. Qed.
Print Assumptions zone_judged_partial.

(** When the name or the zone rests on conditions, they are judged for each outcome: a fault of a deployment is reported with the outcome, and what is reported is a fault for an outcome.  Missing for the full property: more than four unrelated conditions. *)
Theorem zone_conditional_partial : forall order hash template defs parameters d names w0 b0 p,
  (forall v, digest (hash v)) -> (forall l, Permutation (order l) l) ->
  section_of "Conditions" template defs -> section_of "Parameters" template parameters ->
  NoDup (keys defs) -> (forall n v, In (n, v) defs -> well_formed defs v) ->
  NoDup (keys parameters) -> (forall n p, In (n, p) parameters -> plain_parameter p) -> told_apart hash parameters ->
  plain_object d -> NoDup names -> names <> [] -> (forall n, In n names <-> group_looks_at d ["Name"; "HostedZoneName"] n) -> (forall n, In n names -> In n (keys defs)) ->
  (List.length names <= 4 \/ some_related defs names) -> deployment hash parameters w0 -> gives defs w0 names b0 ->
  (forall b d', deployed b d d' -> zone_shaped d') ->
  exists limit, forall fuel, limit <= fuel ->
  exists ms, zones_match order (load hash fuel template) (VDict d) p = Ok ms /\
    (forall w b d' key words, deployment hash parameters w -> gives defs w names b -> deployed b d d' -> zone_fault d' key words ->
       exists sc, Permutation sc (scenario_of names b) /\ In (mkRM (p ++ [PKey key])%list (words ++ path_text p ++ " " ++ scenario_text sc)) ms) /\
    (forall m, In m ms -> exists b sc key words, Permutation sc (scenario_of names b) /\ (forall d', deployed b d d' -> zone_fault d' key words) /\
       m = mkRM (p ++ [PKey key])%list (words ++ path_text p ++ " " ++ scenario_text sc) /\
       ((some_related defs names \/ forall n, In n names -> exists w, deployment hash parameters w /\ gives defs w [n] b) ->
        exists w, deployment hash parameters w /\ gives defs w names b)).
Proof. exact c78_zone_conditional. Qed.
Print Assumptions zone_conditional_partial.

(** In a run, each of these faults leads to a finding of E3041. *)
Theorem zone_findings : forall hash order fuel sp k c raw name attrs pd m0 d0 key words,
  (forall l, Permutation (order l) l) ->
  snd (coll_run sp k c) = Ok raw -> In (zone_rule hash order fuel) (k_all k) -> enabled (k_set k) (zone_rule hash order fuel) = true ->
  wf (template c) -> c_tmpl c = MDict m0 d0 -> resource_of (template c) name "AWS::Route53::RecordSet" attrs -> assoc "Properties" attrs = Some (VDict pd) ->
  plain_object pd -> VDict pd <> no_value -> (forall n, ~ group_looks_at pd ["Name"; "HostedZoneName"] n) -> zone_shaped pd ->
  zone_fault pd key words ->
  exists f, locate_match c "E3041" (mkRM (props_path name ++ [PKey key])%list (words ++ path_text (props_path name))) = Ok f /\ In f raw.
Proof. exact c78_zone_run. Qed.
Print Assumptions zone_findings.

(** E3503 reports exactly the options whose validation domain is neither the name nor a domain above it. *)
Theorem validation_judged : forall order c pd p,
  (forall l, Permutation (order l) l) ->
  (forall x, assoc "DomainValidationOptions" pd = Some x -> (forall q, ~ alternative x (p ++ [PKey "DomainValidationOptions"])%list VNull q) /\
     forall e q, single x (p ++ [PKey "DomainValidationOptions"])%list (VDict e) q -> ~ is_call (VDict e) -> plain_object e /\ forall n, ~ members_look_at e n) ->
  exists ms, options_match order c (VDict pd) p = Ok ms /\
    forall m, In m ms <-> exists x e q key words, assoc "DomainValidationOptions" pd = Some x /\ single x (p ++ [PKey "DomainValidationOptions"])%list (VDict e) q /\ ~ is_call (VDict e) /\
      option_fault e key words /\ m = mkRM (q ++ [PKey key])%list (words ++ path_text q).
Proof. exact c78_option. Qed.
Print Assumptions validation_judged.

(** When an option rests on conditions, it is judged for each outcome.  Missing for the full property: more than four unrelated conditions. *)
Theorem validation_conditional_partial : forall order hash template defs parameters d names w0 b0 p,
  (forall v, digest (hash v)) -> (forall l, Permutation (order l) l) ->
  section_of "Conditions" template defs -> section_of "Parameters" template parameters ->
  NoDup (keys defs) -> (forall n v, In (n, v) defs -> well_formed defs v) ->
  NoDup (keys parameters) -> (forall n p, In (n, p) parameters -> plain_parameter p) -> told_apart hash parameters ->
  plain_object d -> NoDup names -> names <> [] -> (forall n, In n names <-> members_look_at d n) -> (forall n, In n names -> In n (keys defs)) ->
  (List.length names <= 4 \/ some_related defs names) -> deployment hash parameters w0 -> gives defs w0 names b0 ->
  exists limit, forall fuel, limit <= fuel ->
  exists ms, check_option order (load hash fuel template) (VDict d) p = Ok ms /\
    (forall w b d' key words, deployment hash parameters w -> gives defs w names b -> deployed b d d' -> option_fault d' key words ->
       exists sc, Permutation sc (scenario_of names b) /\ In (mkRM (p ++ [PKey key])%list (words ++ path_text p ++ " " ++ scenario_text sc)) ms) /\
    (forall m, In m ms -> exists b sc key words, Permutation sc (scenario_of names b) /\ (forall d', deployed b d d' -> option_fault d' key words) /\
       m = mkRM (p ++ [PKey key])%list (words ++ path_text p ++ " " ++ scenario_text sc) /\
       ((some_related defs names \/ forall n, In n names -> exists w, deployment hash parameters w /\ gives defs w [n] b) ->
        exists w, deployment hash parameters w /\ gives defs w names b)).
Proof. exact c78_option_conditional. Qed.
Print Assumptions validation_conditional_partial.

(** In a run, each of these options leads to a finding of E3503. *)
Theorem validation_findings : forall hash order fuel sp k c raw name attrs pd m0 d0 x e q key words,
  (forall l, Permutation (order l) l) ->
  snd (coll_run sp k c) = Ok raw -> In (option_rule hash order fuel) (k_all k) -> enabled (k_set k) (option_rule hash order fuel) = true ->
  wf (template c) -> c_tmpl c = MDict m0 d0 -> resource_of (template c) name "AWS::CertificateManager::Certificate" attrs -> assoc "Properties" attrs = Some (VDict pd) ->
  (forall x, assoc "DomainValidationOptions" pd = Some x -> (forall q, ~ alternative x (props_path name ++ [PKey "DomainValidationOptions"])%list VNull q) /\
     forall e q, single x (props_path name ++ [PKey "DomainValidationOptions"])%list (VDict e) q -> ~ is_call (VDict e) -> plain_object e /\ forall n, ~ members_look_at e n) ->
  assoc "DomainValidationOptions" pd = Some x -> single x (props_path name ++ [PKey "DomainValidationOptions"])%list (VDict e) q -> ~ is_call (VDict e) -> option_fault e key words ->
  exists f, locate_match c "E3503" (mkRM (q ++ [PKey key])%list (words ++ path_text q)) = Ok f /\ In f raw.
Proof. exact c78_option_run. Qed.
Print Assumptions validation_findings.

(** E3041 accepts a name that ends in the letters of the zone without being below it. *)
Theorem zone_boundary_refuted : ~ below_domain "example.com" "notexample.com" /\
  zones_match (fun l => l) (load toy_hash 9 env) (VDict (zoned (VStr "notexample.com.") (VStr "example.com."))) (props_path "R") = Ok [].
Proof. exact zone_boundary_witness. Qed.
Print Assumptions zone_boundary_refuted.

(** E3041 reports names in the root zone. *)
Theorem root_zone_refuted : rmap (map rm_msg) (zones_match (fun l => l) (load toy_hash 9 env) (VDict (zoned (VStr "com.") (VStr "."))) (props_path "R")) =
  Ok ["Name must be a superdomain of HostedZoneName at Resources/R/Properties"].
Proof. exact root_zone_witness. Qed.
Print Assumptions root_zone_refuted.

(** An empty name or zone ends E3041 with an exception. *)
Theorem empty_name_refuted : forall n z, n = "" \/ z = "" -> zones_match (fun l => l) (load toy_hash 9 env) (VDict (zoned (VStr n) (VStr z))) (props_path "R") = Err EIndex.
Proof. exact empty_name_witness. Qed.
Print Assumptions empty_name_refuted.

Example zone_example_ : let pd := zoned (VStr "www.example.org.") (VStr "example.com") in let t := with_resource zone_type_name pd in
  wf (template (cfn_of t)) /\ plain_object pd /\ VDict pd <> no_value /\ (forall n, ~ group_looks_at pd ["Name"; "HostedZoneName"] n) /\ zone_shaped pd /\
  zone_fault pd "HostedZoneName" "HostedZoneName must end in a dot at " /\ zone_fault pd "Name" "Name must be a superdomain of HostedZoneName at " /\
  (forall key words, ~ zone_fault (zoned (VStr "www.example.com") (VStr "example.com.")) key words) /\
  domains_run t = Ok ["HostedZoneName must end in a dot at Resources/R/Properties"; "Name must be a superdomain of HostedZoneName at Resources/R/Properties"].
Proof. exact zone_example. Qed.

Example zone_conditional_example_ : section_of "Conditions" env env_defs /\ section_of "Parameters" env env_params /\ plain_object zoned_by /\
  (forall n, In n ["IsProd"] <-> group_looks_at zoned_by ["Name"; "HostedZoneName"] n) /\ deployment toy_hash env_params env_values /\ gives env_defs env_values ["IsProd"] env_bools /\
  (forall b d', deployed b zoned_by d' -> zone_shaped d') /\
  (exists d', deployed env_bools zoned_by d' /\ zone_fault d' "Name" "Name must be a superdomain of HostedZoneName at ") /\
  rmap (map rm_msg) (zones_match (fun l => l) (load toy_hash 9 env) (VDict zoned_by) (props_path "R")) =
    Ok ["Name must be a superdomain of HostedZoneName at Resources/R/Properties when condition ""IsProd"" is True"].
Proof. exact zone_conditional_example. Qed.

Example option_example_ : let t := with_resource certificate_name bad_options in let here := (props_path "R" ++ [PKey "DomainValidationOptions"])%list in
  wf (template (cfn_of t)) /\
  (forall x, assoc "DomainValidationOptions" bad_options = Some x -> (forall q, ~ alternative x here VNull q) /\
     forall e q, single x here (VDict e) q -> ~ is_call (VDict e) -> plain_object e /\ forall n, ~ members_look_at e n) /\
  (exists x q, assoc "DomainValidationOptions" bad_options = Some x /\ single x here (VDict (optioned (VStr "www.example.com") (VStr "example.org"))) q /\ ~ is_call (VDict (optioned (VStr "www.example.com") (VStr "example.org")))) /\
  option_fault (optioned (VStr "www.example.com") (VStr "example.org")) "DomainName" "ValidationDomain must be a superdomain of DomainName at " /\
  (forall key words, ~ option_fault (optioned (VStr "www.example.com") (VStr "example.com")) key words) /\
  option_fault (optioned (VStr "notexample.com") (VStr "example.com")) "DomainName" "ValidationDomain must be a superdomain of DomainName at " /\
  domains_run t = Ok ["ValidationDomain must be a superdomain of DomainName at Resources/R/Properties/DomainValidationOptions/0"].
Proof. exact option_example. Qed.

Example option_conditional_example_ : plain_object optioned_by /\ (forall n, In n ["IsProd"] <-> members_look_at optioned_by n) /\
  (exists d', deployed env_bools optioned_by d' /\ option_fault d' "DomainName" "ValidationDomain must be a superdomain of DomainName at ") /\
  rmap (map rm_msg) (check_option (fun l => l) (load toy_hash 9 env) (VDict optioned_by) (props_path "R")) =
    Ok ["ValidationDomain must be a superdomain of DomainName at Resources/R/Properties when condition ""IsProd"" is True"].
Proof. exact option_conditional_example. Qed.
