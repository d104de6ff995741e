(** C76 What objects are for each outcome of their conditions at every depth, and the load balancers judged that way. *)
From Coq Require Import List Permutation.
Import ListNotations.
From Verif.Model Require Import Base Helpers Locate Node Conditions Search Resolve Rules Relationship PropertyRules SubProps Elb.
From Verif.Spec Require Import Paths Branches References Required Walk Values Truth Resolved Groups Nested.
From Verif.Proofs Require Import ConditionWitness Samples PropertyWitness PropertyRuleProofs GroupWitness IamWitness SubPropsWitness ElbProofs ElbMain ElbWitness.
Import Verif.Model.Rules.
Local Open Scope string_scope.

(** Whatever the conditions are, a value has a remainder (or nothing is left of it). *)
Theorem always_something_left : forall decide v,
  tidy v -> exists r, deep decide v r.
Proof. exact c76_total. Qed.
Print Assumptions always_something_left.

(** An object or list that rests on no condition is given as it is, for no scenario. *)
Theorem unconditional_objects : forall template globals p v order c,
  wf template -> wf globals -> at_path p template = Some v -> plain_path p -> at_path p globals = None -> tidy v -> is_dict v || is_list v = true -> v <> no_value ->
  (forall n, ~ rests_on v n) -> get_object_without_nested_conditions order c template globals v p = Ok [(None, v)].
Proof. exact c76_nested_plain. Qed.
Print Assumptions unconditional_objects.

(** An object or list that rests on conditions is given once for each outcome of them, with what is left of it then: every outcome that a deployment can have is there, and what is there is an outcome, one that a deployment can have if two of the conditions are related or each is possible by itself.  Missing for the full property: more than four conditions that are unrelated, Fn::Ifs of other shapes, and places below functions. *)
Theorem conditional_objects_partial : forall template globals p v hash order defs parameters names w0 b0,
  wf template -> wf globals -> at_path p template = Some v -> plain_path p -> at_path p globals = None -> tidy v -> is_dict v || is_list v = true -> v <> no_value ->
  (forall v, digest (hash v)) -> (forall l, Permutation (order l) l) ->
  section_of "Conditions" template defs -> section_of "Parameters" template parameters ->
  NoDup (keys defs) -> (forall n v, In (n, v) defs -> well_formed defs v) ->
  NoDup (keys parameters) -> (forall n p, In (n, p) parameters -> plain_parameter p) -> told_apart hash parameters ->
  NoDup names -> names <> [] -> (forall n, In n names <-> rests_on v n) -> (forall n, In n names -> In n (keys defs)) ->
  (List.length names <= 4 \/ some_related defs names) -> deployment hash parameters w0 -> gives defs w0 names b0 ->
  exists limit, forall fuel, limit <= fuel ->
  exists out, get_object_without_nested_conditions order (load hash fuel template) template globals v p = Ok out /\
    (forall s o, In (s, o) out -> exists sc b r, s = Some sc /\ Permutation sc (scenario_of names b) /\ deep (known names b) v r /\ o = match r with Some x => x | None => VNull end /\
      ((some_related defs names \/ forall n, In n names -> exists w, deployment hash parameters w /\ gives defs w [n] b) ->
       exists w, deployment hash parameters w /\ gives defs w names b)) /\
    (forall w b r, deployment hash parameters w -> gives defs w names b -> deep (known names b) v r ->
       exists sc, In (Some sc, match r with Some x => x | None => VNull end) out /\ Permutation sc (scenario_of names b)).
Proof. exact c76_nested. Qed.
Print Assumptions conditional_objects_partial.

(** E2503 reports exactly the protocols of listeners that are not known, in any mixture of small and capital letters, and those that need a certificate when there is none.  Missing for the full property: listeners in conditions and of other shapes. *)
Theorem listeners_judged_partial : forall t,
  wf t -> listeners_shaped t ->
  exists ms, listeners_match t = Ok ms /\
    forall m, In m ms <-> exists d p known secure cert x s r words, listener t d p known secure cert /\ assoc "Protocol" d = Some x /\ single x (p ++ [PKey "Protocol"])%list (VStr s) r /\
      protocol_fault known secure (match assoc cert d with Some y => truthy y | None => false end) s words /\ m = mkRM r (words ++ path_text r).
Proof. exact c76_listeners. Qed.
Print Assumptions listeners_judged_partial.

(** In a run, each of them leads to a finding of E2503. *)
Theorem listener_findings : forall hash order fuel globals sp k c raw m0 d0 d p known secure cert x s r words,
  let rule := elb_rule hash order fuel globals in
  snd (coll_run sp k c) = Ok raw -> In rule (k_all k) -> enabled (k_set k) rule = true -> c_tmpl c = MDict m0 d0 -> wf (template c) -> listeners_shaped (template c) ->
  listener (template c) d p known secure cert -> assoc "Protocol" d = Some x -> single x (p ++ [PKey "Protocol"])%list (VStr s) r ->
  protocol_fault known secure (match assoc cert d with Some y => truthy y | None => false end) s words ->
  exists f, locate_match c "E2503" (mkRM r (words ++ path_text r)) = Ok f /\ In f raw.
Proof. exact c76_listeners_run. Qed.
Print Assumptions listener_findings.

(** Without conditions, E2503 reports exactly the security groups of network load balancers, fewer than two subnets or mappings of application load balancers, and the attributes that the type of load balancer does not have. *)
Theorem balancers_judged : forall template globals p d order c,
  wf template -> wf globals -> at_path p template = Some (VDict d) -> plain_path p -> at_path p globals = None -> tidy (VDict d) -> ~ In "Fn::If" (keys d) -> VDict d <> no_value ->
  (forall n, ~ rests_on (VDict d) n) -> balancer_shaped d ->
  exists ms, balancer_check order c template globals (VDict d) p = Ok ms /\ forall m, In m ms <-> exists q words, balancer_fault d q words /\ m = mkRM (p ++ q)%list words.
Proof. exact c76_balancers_plain. Qed.
Print Assumptions balancers_judged.

(** With conditions, each of these faults in a deployment is reported for the outcome of the conditions, and what is reported is a fault for an outcome.  Missing for the full property: as for the objects, and properties that are themselves a condition. *)
Theorem conditional_balancers_judged_partial : forall template globals p d hash order defs parameters names w0 b0,
  wf template -> wf globals -> at_path p template = Some (VDict d) -> plain_path p -> at_path p globals = None -> tidy (VDict d) -> ~ In "Fn::If" (keys d) -> VDict d <> no_value ->
  (forall v, digest (hash v)) -> (forall l, Permutation (order l) l) ->
  section_of "Conditions" template defs -> section_of "Parameters" template parameters ->
  NoDup (keys defs) -> (forall n v, In (n, v) defs -> well_formed defs v) ->
  NoDup (keys parameters) -> (forall n p, In (n, p) parameters -> plain_parameter p) -> told_apart hash parameters ->
  NoDup names -> names <> [] -> (forall n, In n names <-> rests_on (VDict d) n) -> (forall n, In n names -> In n (keys defs)) ->
  (List.length names <= 4 \/ some_related defs names) -> deployment hash parameters w0 -> gives defs w0 names b0 ->
  (forall b d', deep (known names b) (VDict d) (Some (VDict d')) -> balancer_shaped d') ->
  exists limit, forall fuel, limit <= fuel ->
  exists ms, balancer_check order (load hash fuel template) template globals (VDict d) p = Ok ms /\
    (forall m, In m ms -> exists b sc d' q words, Permutation sc (scenario_of names b) /\ deep (known names b) (VDict d) (Some (VDict d')) /\ balancer_fault d' q words /\
      m = mkRM p (words ++ " " ++ scenario_text sc) /\
      ((some_related defs names \/ forall n, In n names -> exists w, deployment hash parameters w /\ gives defs w [n] b) ->
       exists w, deployment hash parameters w /\ gives defs w names b)) /\
    (forall w b d' q words, deployment hash parameters w -> gives defs w names b -> deep (known names b) (VDict d) (Some (VDict d')) -> balancer_fault d' q words ->
      exists sc, Permutation sc (scenario_of names b) /\ In (mkRM p (words ++ " " ++ scenario_text sc)) ms).
Proof. exact c76_balancers. Qed.
Print Assumptions conditional_balancers_judged_partial.

(** In a run, each fault of a load balancer without conditions leads to a finding of E2503. *)
Theorem balancer_findings : forall hash order fuel globals sp k c raw m0 d0 name attrs d q words,
  let rule := elb_rule hash order fuel globals in
  snd (coll_run sp k c) = Ok raw -> In rule (k_all k) -> enabled (k_set k) rule = true -> c_tmpl c = MDict m0 d0 -> wf (template c) -> wf globals ->
  resource_of (template c) name "AWS::ElasticLoadBalancingV2::LoadBalancer" attrs -> assoc "Properties" attrs = Some (VDict d) -> ~ In name FUNCTIONS -> at_path (props_path name) globals = None ->
  tidy (VDict d) -> ~ In "Fn::If" (keys d) -> VDict d <> no_value -> (forall n, ~ rests_on (VDict d) n) -> balancer_shaped d -> balancer_fault d q words ->
  exists f, locate_match c "E2503" (mkRM (props_path name ++ q)%list words) = Ok f /\ In f raw.
Proof. exact c76_balancers_run. Qed.
Print Assumptions balancer_findings.

(** A certificate that is given AWS::NoValue counts as one. *)
Theorem certificate_gone_refuted : listeners_match (with_resource listener_type_name [("Protocol", VStr "HTTPS"); ("Certificates", no_value)]) = Ok [].
Proof. exact certificate_gone_witness. Qed.
Print Assumptions certificate_gone_refuted.

(** Listeners in conditions are not looked at. *)
Theorem conditional_listener_refuted : let bad := VDict [("Protocol", VStr "NONE")] in
  listeners_match (with_resource classic_type_name [("Listeners", VList [If_of (VList [VStr "IsDev"; bad; bad])])]) = Ok [] /\
  listeners_match (with_resource listener_type_name [("Fn::If", VList [VStr "IsDev"; bad; bad])]) = Ok [].
Proof. exact conditional_listener_witness. Qed.
Print Assumptions conditional_listener_refuted.

(** A listener that is no object ends the check with an exception. *)
Theorem listener_text_refuted : listeners_match (with_resource classic_type_name [("Listeners", VList [VStr "HTTP"])]) = Err ETemplateAttribute.
Proof. exact listener_text_witness. Qed.
Print Assumptions listener_text_refuted.

(** The attributes of a network load balancer with security groups are reported at the security groups. *)
Theorem misplaced_refuted : checked (VDict bad_network) = Ok [
    mkRM (props_path "R" ++ [PKey "SecurityGroups"])%list "Security groups are not supported for load balancers with type ""network""";
    mkRM (props_path "R" ++ [PKey "SecurityGroups"])%list "Attribute ""idle_timeout.timeout_seconds"" not allowed for load balancers with type ""network"""].
Proof. exact misplaced_witness. Qed.
Print Assumptions misplaced_refuted.

(** A type that is given AWS::NoValue in a scenario does not stand for application, so nothing is reported for it. *)
Theorem type_gone_refuted : checked (VDict [("Type", if_ "IsDev" (VStr "network") no_value); ("Subnets", VList [VStr "a"])]) = Ok [] /\
  checked (VDict [("Subnets", VList [VStr "a"])]) <> Ok [].
Proof. exact type_gone_witness. Qed.
Print Assumptions type_gone_refuted.

(** Every type but application is taken for network. *)
Theorem gateway_refuted : checked (VDict [("Type", VStr "gateway"); ("SecurityGroups", VList [VStr "sg-1"])]) =
  Ok [mkRM (props_path "R" ++ [PKey "SecurityGroups"])%list "Security groups are not supported for load balancers with type ""network"""].
Proof. exact gateway_witness. Qed.
Print Assumptions gateway_refuted.

(** Attributes that are no objects end the check with an exception. *)
Theorem attribute_text_refuted : exists e, checked (VDict [("LoadBalancerAttributes", VList [VStr "x"])]) = Err e.
Proof. exact attribute_text_witness. Qed.
Print Assumptions attribute_text_refuted.

(** So do properties that are gone in a scenario. *)
Theorem properties_gone_refuted : exists e, checked (if_ "IsDev" (VDict [("Type", VStr "network")]) no_value) = Err e.
Proof. exact properties_gone_witness. Qed.
Print Assumptions properties_gone_refuted.

Example listener_example_ : let t := with_resource classic_type_name bad_listeners in
  wf (template (cfn_of t)) /\ listeners_shaped (template (cfn_of t)) /\
  listener (template (cfn_of t)) [("Protocol", VStr "UDP")] (place_of "Listeners" ++ [PIdx 2])%list ["HTTP"; "HTTPS"; "TCP"; "SSL"] ["HTTPS"; "SSL"] "SSLCertificateId" /\
  protocol_fault ["HTTP"; "HTTPS"; "TCP"; "SSL"] ["HTTPS"; "SSL"] false "UDP" "Protocol must be HTTP, HTTPS, TCP, SSL is invalid at " /\
  protocol_fault ["HTTP"; "HTTPS"; "TCP"; "SSL"] ["HTTPS"; "SSL"] false "Ssl" "Certificates should be specified when using HTTPS for " /\
  (forall cert words, ~ protocol_fault ["HTTP"; "HTTPS"; "TCP"; "SSL"] ["HTTPS"; "SSL"] cert "http" words) /\
  run_of t = Ok ["Certificates should be specified when using HTTPS for Resources/R/Properties/Listeners/1/Protocol/Fn::If/1";
                 "Protocol must be HTTP, HTTPS, TCP, SSL is invalid at Resources/R/Properties/Listeners/2/Protocol"].
Proof. exact listener_example. Qed.

Example balancer_example_ : let t := with_resource balancer_type_name bad_application in
  wf (template (cfn_of t)) /\ wf (VDict []) /\ (exists m d, c_tmpl (cfn_of t) = MDict m d) /\ ~ In "R" FUNCTIONS /\ plain_path (props_path "R") /\ at_path (props_path "R") (VDict []) = None /\
  tidy (VDict bad_application) /\ ~ In "Fn::If" (keys bad_application) /\ VDict bad_application <> no_value /\ (forall n, ~ rests_on (VDict bad_application) n) /\ balancer_shaped bad_application /\
  balancer_fault bad_application [] "Attribute ""load_balancing.cross_zone.enabled"" not allowed for load balancers with type ""application""" /\
  balancer_fault bad_network [PKey "SecurityGroups"] "Security groups are not supported for load balancers with type ""network""" /\
  run_of t = Ok ["You must specify at least two Subnets for load balancers with type ""application"""; "You must specify at least two SubnetMappings for load balancers with type ""application""";
                 "Attribute ""load_balancing.cross_zone.enabled"" not allowed for load balancers with type ""application"""].
Proof. exact balancer_example. Qed.

Example sometimes_example_ : wf sometimes_template /\ at_path (props_path "R") sometimes_template = Some (VDict sometimes) /\ tidy (VDict sometimes) /\ ~ In "Fn::If" (keys sometimes) /\ VDict sometimes <> no_value /\
  section_of "Conditions" sometimes_template env_defs /\ section_of "Parameters" sometimes_template env_params /\
  (forall n, In n ["IsDev"] <-> rests_on (VDict sometimes) n) /\ In "IsDev" (keys env_defs) /\ deployment toy_hash env_params env_values /\ gives env_defs env_values ["IsDev"] env_bools /\
  (forall b d', deep (known ["IsDev"] b) (VDict sometimes) (Some (VDict d')) -> balancer_shaped d') /\
  deep (known ["IsDev"] env_bools) (VDict sometimes) (Some (VDict [("Subnets", VList [VStr "a"])])) /\
  balancer_fault [("Subnets", VList [VStr "a"])] [PKey "Subnets"] "You must specify at least two Subnets for load balancers with type ""application""" /\
  run_of sometimes_template = Ok ["You must specify at least two Subnets for load balancers with type ""application"" when condition ""IsDev"" is False"].
Proof. exact sometimes_example. Qed.
