(** C33 References to conditional resources. *)
From Coq Require Import Permutation.
From Verif.Model Require Import Base Helpers Conditions Search Resolve Relationship.
From Verif.Spec Require Import Truth Resolved Paths.
From Verif.Proofs Require Import ConditionWitness ScenarioMain RelationProofs RelationRule ConditionMore.

(** A place that exists in a deployment in which the resource it refers to does not is found, together with the values of
    the conditions.  Missing: places inside a branch for the resource's own condition (refuted below), and five or more
    unrelated conditions (C16). *)
Theorem missing_resource_found_partial : forall hash order template defs parameters,
  (forall v, digest (hash v)) -> (forall l, Permutation (order l) l) ->
  section_of "Conditions" template defs -> section_of "Parameters" template parameters -> plain_conditions template ->
  forall p resource rc names,
  place template p -> p <> [] -> condition_of "Resources" resource template rc ->
  NoDup names -> (forall n, In n names <-> n = rc \/ exists x, needs template p n x) ->
  (forall x, ~ needs template p rc x) ->
  forall fuel w b,
  (forall n, In n names -> mem_assoc n (cs_conditions (load hash fuel template)) = true) ->
  (List.length names <= 4 \/ some_related defs names) ->
  deployment hash parameters w -> gives defs w names b -> place_exists b template p -> b rc = false ->
  exists out, is_resource_available order (load hash fuel template) template p resource = Ok out /\
    exists sc, In sc out /\ Permutation sc (scenario_of names b).
Proof. exact c33_reported. Qed.

(** Whatever is found describes a case in which the place exists and the resource does not; and that case is a deployment
    if two of the conditions look at the same function call or each condition can take its value (C17). *)
Theorem found_cases_are_real_partial : forall hash order template defs parameters,
  (forall v, digest (hash v)) -> (forall l, Permutation (order l) l) ->
  section_of "Conditions" template defs -> section_of "Parameters" template parameters -> plain_conditions template ->
  forall p resource rc names,
  place template p -> p <> [] -> condition_of "Resources" resource template rc ->
  NoDup names -> (forall n, In n names <-> n = rc \/ exists x, needs template p n x) ->
  (forall x, ~ needs template p rc x) ->
  NoDup (keys defs) -> (forall n v, In (n, v) defs -> well_formed defs v) ->
  NoDup (keys parameters) -> (forall n q, In (n, q) parameters -> plain_parameter q) -> told_apart hash parameters ->
  (forall n, In n names -> In n (keys defs)) -> (exists b0, place_exists b0 template p) ->
  exists limit, forall fuel, limit <= fuel ->
  exists out, is_resource_available order (load hash fuel template) template p resource = Ok out /\
    forall sc, In sc out -> exists b, Permutation sc (scenario_of names b) /\ b rc = false /\ place_exists b template p /\
      ((some_related defs names \/ forall n, In n names -> exists w, deployment hash parameters w /\ gives defs w [n] b) ->
       exists w, deployment hash parameters w /\ gives defs w names b).
Proof. exact c33_possible. Qed.

(** Nothing is found for a resource without condition, or at a place that needs the resource's condition. *)
Theorem unconditional_resource : forall order c template p resource d s o,
  plain_conditions template -> place template p -> p <> [] ->
  template = VDict d -> assoc "Resources" d = Some (VDict s) -> assoc resource s = Some (VDict o) -> assoc "Condition" o = None ->
  is_resource_available order c template p resource = Ok [].
Proof. exact c33_no_condition. Qed.
Theorem same_condition : forall order c template p resource rc x,
  plain_conditions template -> place template p -> p <> [] ->
  condition_of "Resources" resource template rc -> needs template p rc x ->
  is_resource_available order c template p resource = Ok [].
Proof. exact c33_needed. Qed.

(** The latter holds even if the place needs the condition to be false: the resource never exists there, and this is not
    noticed. *)
Theorem never_available_refuted : exists hash order template defs parameters fuel p resource rc names w b,
  (forall v, digest (hash v)) /\ (forall l, Permutation (order l) l) /\
  section_of "Conditions" template defs /\ section_of "Parameters" template parameters /\ plain_conditions template /\
  place template p /\ condition_of "Resources" resource template rc /\
  NoDup names /\ (forall n, In n names <-> n = rc \/ exists x, needs template p n x) /\
  (forall n, In n names -> mem_assoc n (cs_conditions (load hash fuel template)) = true) /\ List.length names <= 4 /\
  deployment hash parameters w /\ gives defs w names b /\ place_exists b template p /\ b rc = false /\
  is_resource_available order (load hash fuel template) template p resource = Ok [].
Proof. exact c33_refuted. Qed.

(** A place in two branches that exclude each other exists in no deployment, but cases are found for it. *)
Theorem impossible_place_refuted : exists hash order template defs parameters fuel p resource rc,
  (forall v, digest (hash v)) /\ (forall l, Permutation (order l) l) /\
  section_of "Conditions" template defs /\ section_of "Parameters" template parameters /\ plain_conditions template /\ condition_of "Resources" resource template rc /\
  at_path p template = Some (VStr resource) /\ (forall b, ~ place_exists b template p) /\
  exists sc out, is_resource_available order (load hash fuel template) template p resource = Ok (sc :: out).
Proof. exact never_reported. Qed.

(** The rule W1001 reports every case found for a Ref or an Fn::GetAtt of the template, and nothing else. *)
Theorem ref_is_reported : forall order c template globals p target sc out ms,
  wf template -> wf globals -> place template (p ++ [PKey "Ref"]) -> at_path (p ++ [PKey "Ref"]) template = Some (VStr target) ->
  ~ In target PSEUDOPARAMS -> target <> "Fn::If" ->
  is_resource_available order c template (p ++ [PKey "Ref"]) target = Ok out -> In sc out ->
  relationship_match order c template globals = Ok ms ->
  In (mkRM (p ++ [PKey "Ref"]) ("Ref to resource """ ++ target ++ """ that may not be available " ++ scenario_text sc ++
                                " at " ++ path_text (p ++ [PKey "Ref"])%list)%string) ms.
Proof. exact ref_reported. Qed.
Theorem getatt_is_reported : forall order c template globals p target rest sc out ms,
  wf template -> wf globals -> place template (p ++ [PKey "Fn::GetAtt"]) ->
  at_path (p ++ [PKey "Fn::GetAtt"]) template = Some (VList (VStr target :: rest)) ->
  ~ In target PSEUDOPARAMS -> target <> "" ->
  is_resource_available order c template (p ++ [PKey "Fn::GetAtt"]) target = Ok out -> In sc out ->
  relationship_match order c template globals = Ok ms ->
  exists m, In m ms /\ rm_path m = p ++ [PKey "Fn::GetAtt"].
Proof. exact getatt_reported. Qed.
Theorem reports_are_found : forall order c template globals ms m,
  relationship_match order c template globals = Ok ms -> In m ms ->
  exists f v target sc out, In (rm_path m, v) (search_deep_keys f template globals) /\
    (f = "Ref" /\ v = target \/ f = "Fn::GetAtt" /\ getatt_target v = Ok target) /\
    available_at order c template (rm_path m) v target = Ok out /\ In sc out.
Proof. exact relationship_sound. Qed.

Example conditional_example :
  plain_conditions shop /\ place shop place_V /\ condition_of "Resources" "R" shop "IsProd" /\
  (forall n, In n ["IsDev"; "IsProd"] <-> n = "IsProd" \/ exists x, needs shop place_V n x) /\
  (forall x, ~ needs shop place_V "IsProd" x) /\ place_exists dev_bools shop place_V /\
  deployment toy_hash env_params dev_values /\ gives env_defs dev_values ["IsDev"; "IsProd"] dev_bools /\
  is_resource_available (fun l => l) (load toy_hash 9 shop) shop place_V "R" = Ok [[("IsDev", Some true); ("IsProd", Some false)]].
Proof.
  split; [exact shop_plain|]. split; [exact shop_place_V|]. split; [exact shop_condition|].
  split; [intros n; cbn [In]; split; [intros [<-|[<-|[]]]; [right; exists true; now apply shop_needs_V | now left] | intros [->|[x Hx]]; [auto|]; apply shop_needs_V in Hx as [-> _]; auto]|].
  split; [intros x Hx; apply shop_needs_V in Hx as [H _]; discriminate|].
  split; [intros c x Hn; apply shop_needs_V in Hn as [-> ->]; reflexivity|]. split; [exact dev_deployment|].
  split; [intros n [<-|[<-|[]]]; apply dev_gives; cbn; auto|]. vm_compute. reflexivity.
Qed.

Print Assumptions missing_resource_found_partial.
Print Assumptions found_cases_are_real_partial.
Print Assumptions unconditional_resource.
Print Assumptions same_condition.
Print Assumptions never_available_refuted.
Print Assumptions impossible_place_refuted.
Print Assumptions ref_is_reported.
Print Assumptions getatt_is_reported.
Print Assumptions reports_are_found.
