(** Findings of single shipped rules that look at the properties of resources, in whole runs (C95). *)
From Coq Require Import Permutation.
From Verif.Model Require Import Base Node Locate Helpers Rules Runner Config Core Conditions Relationship Shape Resolve Events Lambda Iam StateMachine Domains DynamoDb ParameterValues ValueRules Standard.
From Verif.Spec Require Import Pipeline Paths Branches Walk References Values Sensitive Groups Resolved Required Events Lambda Iam Permissions StateMachine Domains Tables ParameterValues Shipped.
From Verif.Proofs Require Import BaseFacts SearchProofs PropertyRuleProofs Places SizeProofs Says EventProofs LambdaProofs IamProofs PermissionProofs StateMachineProofs DomainProofs TableProofs ParameterValueProofs SensitiveProofs StandardProofs StandardRules StandardChecks StandardObjects.
Import Verif.Model.Rules.
Local Open Scope string_scope.

Lemma member_at t p d k x : at_path p t = Some (VDict d) -> assoc k d = Some x -> at_path (p ++ [PKey k])%list t = Some x.
Proof. intros H1 H2. rewrite at_path_app, H1. cbn [at_path]. now rewrite H2. Qed.
Lemma single_fine c p d k x w r : at_path p (template c) = Some (VDict d) -> assoc k d = Some x -> single x (p ++ [PKey k])%list w r -> fine_place c r.
Proof.
  intros H1 H2 H3. apply (fine_at c r w); [|exact (single_at _ _ _ _ _ H3 (member_at _ _ _ _ _ H1 H2))].
  apply (single_nonempty _ _ _ _ H3). now destruct p.
Qed.
(** A rule on the properties of resources of one type. *)
Lemma tells_type w sp tr k rg man c ds l id r f ty P (R : list (string * val) -> path -> path -> string -> Prop) :
  lints w sp tr k rg man c ds id l -> rule_is w id r -> r_match r = None -> r_match_props r = Some f -> r_match_subs r = None ->
  (forall t, types_seen r c t <-> t = ty) -> (forall t, ~ subtypes_seen r c t) -> wf (template c) ->
  (forall pd p, properties_of (template c) ty pd p -> says (f [] c (VDict pd) ty p) (P pd p)) ->
  (forall pd p q words, P pd p (mkRM q words) <-> R pd p q words) ->
  (forall pd p q words, properties_of (template c) ty pd p -> at_path p (template c) = Some (VDict pd) -> p <> [] -> R pd p q words -> fine_place c q) ->
  tells_exactly c man ds l id (fun q words => exists pd p, properties_of (template c) ty pd p /\ R pd p q words).
Proof.
  intros Hl Hr E1 E2 E3 HT HU Hw HP HR Hpath.
  apply (tells_ext _ _ _ _ _ (fun q words => exists rt pd p, properties_of (template c) rt pd p /\ rt = ty /\ R pd p q words)).
  - intros q words. split; [intros (rt & pd & p & H1 & -> & H2); eauto | intros (pd & p & H1 & H2); exists ty, pd, p; auto].
  - apply (tells_props w sp tr k rg man c ds l id r f (fun t => t = ty) (fun _ => P) (fun _ => R)); auto.
    + intros rt pd p H1 ->. now apply HP.
    + intros rt pd p q words H1 ->. now apply Hpath.
Qed.
Ltac one_type := let t_ := fresh "t" in intros t_; unfold types_seen, subtypes_seen; simpl; intuition congruence.

(** * Events *)
Lemma prop_schedule w sp tr k rg man c ds l : lints w sp tr k rg man c ds "E3027" l -> wf (template c) ->
  (forall pd p, properties_of (template c) "AWS::Events::Rule" pd p -> texts_given pd p "ScheduleExpression") ->
  tells_exactly c man ds l "E3027" (fun q words => exists pd p, properties_of (template c) "AWS::Events::Rule" pd p /\
    exists x s, assoc "ScheduleExpression" pd = Some x /\ single x (p ++ [PKey "ScheduleExpression"])%list (VStr s) q /\ schedule_fault s words).
Proof.
  intros Hl Hw Hs. eapply (tells_type w sp tr k rg man c ds l "E3027" schedule_rule _ "AWS::Events::Rule" (fun pd p m => exists x s r words, assoc "ScheduleExpression" pd = Some x /\ single x (p ++ [PKey "ScheduleExpression"])%list (VStr s) r /\ schedule_fault s words /\ m = mkRM r words)); try reflexivity; auto.
  - is_rule.
  - one_type.
  - one_type.
  - intros pd p H. exact (c73_schedule pd p (Hs pd p H)).
  - intros pd p q words. setoid_rewrite mk_rm. split; [intros (x & s & r & ws & H1 & H2 & H3 & -> & ->); eauto | intros (x & s & H1 & H2 & H3); exists x, s, q, words; auto].
  - intros pd p q words _ Ha _ (x & s & H1 & H2 & _). exact (single_fine c p pd _ x _ q Ha H1 H2).
Qed.

(** * Functions *)
Lemma prop_retired w sp tr k rg man c ds l : lints w sp tr k rg man c ds "E2531" l -> wf (template c) -> assoc "" (w_runtimes w) = None ->
  (forall pd p, properties_of (template c) "AWS::Lambda::Function" pd p -> runtimes_shaped (template c) pd p) ->
  tells_exactly c man ds l "E2531" (fun q words => exists pd p, properties_of (template c) "AWS::Lambda::Function" pd p /\
    exists s, runtime_given (template c) pd p s q /\ retired (w_runtimes w) (w_instant w) (w_now w) s words).
Proof.
  intros Hl Hw He Hs. eapply (tells_type w sp tr k rg man c ds l "E2531" (end_rule (w_runtimes w) (w_instant w) (w_now w)) _ "AWS::Lambda::Function" (fun pd p m => exists s q words, runtime_given (template c) pd p s q /\ retired (w_runtimes w) (w_instant w) (w_now w) s words /\ m = mkRM q words)); try reflexivity; auto.
  - is_rule.
  - one_type.
  - one_type.
  - intros pd p H. exact (c74_retired _ _ _ _ _ _ He (Hs pd p H)).
  - intros pd p q words. setoid_rewrite mk_rm. split; [intros (s & r & ws & H1 & H2 & -> & ->); eauto | intros (s & H1 & H2); exists s, q, words; auto].
  - intros pd p q words (name & attrs & H1 & H2 & ->) _ _ (s & H3 & _). destruct (given_at c name attrs pd s q Hw H1 H2 H3) as [H4 [x H5]]. exact (fine_at c q x H4 H5).
Qed.
Lemma prop_retiring w sp tr k rg man c ds l : lints w sp tr k rg man c ds "W2531" l -> wf (template c) -> assoc "" (w_runtimes w) = None ->
  (forall pd p, properties_of (template c) "AWS::Lambda::Function" pd p -> runtimes_shaped (template c) pd p) ->
  tells_exactly c man ds l "W2531" (fun q words => exists pd p, properties_of (template c) "AWS::Lambda::Function" pd p /\
    exists s, runtime_given (template c) pd p s q /\ retiring (w_runtimes w) (w_instant w) (w_now w) s words).
Proof.
  intros Hl Hw He Hs. eapply (tells_type w sp tr k rg man c ds l "W2531" (eol_rule (w_runtimes w) (w_instant w) (w_now w)) _ "AWS::Lambda::Function" (fun pd p m => exists s q words, runtime_given (template c) pd p s q /\ retiring (w_runtimes w) (w_instant w) (w_now w) s words /\ m = mkRM q words)); try reflexivity; auto.
  - is_rule.
  - one_type.
  - one_type.
  - intros pd p H. exact (c74_retiring _ _ _ _ _ _ He (Hs pd p H)).
  - intros pd p q words. setoid_rewrite mk_rm. split; [intros (s & r & ws & H1 & H2 & -> & ->); eauto | intros (s & H1 & H2); exists s, q, words; auto].
  - intros pd p q words (name & attrs & H1 & H2 & ->) _ _ (s & H3 & _). destruct (given_at c name attrs pd s q Hw H1 H2 H3) as [H4 [x H5]]. exact (fine_at c q x H4 H5).
Qed.
Lemma prop_memory w sp tr k rg man c ds l : lints w sp tr k rg man c ds "W2510" l -> wf (template c) -> plain_sections (template c) ->
  (forall pd p, properties_of (template c) "AWS::Lambda::Function" pd p -> exists x, assoc "MemorySize" pd = Some x /\
     (forall q, ~ alternative x (p ++ [PKey "MemorySize"])%list VNull q) /\
     (forall y r, single x (p ++ [PKey "MemorySize"])%list (VDict [("Ref", y)]) r -> exists n, y = VStr n)) ->
  tells_exactly c man ds l "W2510" (fun q words => exists pd p, properties_of (template c) "AWS::Lambda::Function" pd p /\
    exists x n r, assoc "MemorySize" pd = Some x /\ single x (p ++ [PKey "MemorySize"])%list (VDict [("Ref", VStr n)]) r /\ unbounded (template c) n /\ mkRM q words = memory_finding n).
Proof.
  intros Hl Hw Hpl Hs. eapply (tells_type w sp tr k rg man c ds l "W2510" memory_rule _ "AWS::Lambda::Function" (fun pd p m => exists x n r, assoc "MemorySize" pd = Some x /\ single x (p ++ [PKey "MemorySize"])%list (VDict [("Ref", VStr n)]) r /\ unbounded (template c) n /\ m = memory_finding n)); try reflexivity; auto.
  - is_rule.
  - one_type.
  - one_type.
  - intros pd p H. destruct (Hs pd p H) as (x & Hx & H1 & H2). eapply says_ext; [exact (c69_memory _ _ x _ Hpl Hx H1 H2)|]. intros m. cbn beta. split.
    + intros (n & r & H3 & H4 & H5). exists x, n, r. auto.
    + intros (x' & n & r & H0 & H3 & H4 & H5). rewrite Hx in H0. injection H0 as <-. eauto.
  - intros pd p q words _ _ _ (x & n & r & _ & _ & [o [Hd _]] & [= -> _]). apply (fine_at c _ (VDict o)); [discriminate|]. now apply parameter_there with o.
Qed.

(** * Policies, roles and state machines *)
Lemma prop_versions w sp tr k rg man c ds l : lints w sp tr k rg man c ds "W2511" l -> wf (template c) ->
  (forall rt pd p, properties_of (template c) rt pd p -> version_type rt -> versions_shaped rt pd p) ->
  tells_exactly c man ds l "W2511" (fun q words => exists rt pd p, properties_of (template c) rt pd p /\ version_type rt /\
    exists x q0 w r d s, versioned rt pd p x q0 /\ single x q0 w r /\ ~ is_call w /\ is_dict w = true /\ branch w r (VDict d) s /\ assoc "Version" d = Some (VStr "2008-10-17") /\
      q = (s ++ [PKey "Version"])%list /\ words = version_words).
Proof.
  intros Hl Hw Hs. eapply (tells_props w sp tr k rg man c ds l "W2511" version_rule _ version_type (fun rt pd p m => exists x q0 w r d s, versioned rt pd p x q0 /\ single x q0 w r /\ ~ is_call w /\ is_dict w = true /\ branch w r (VDict d) s /\ assoc "Version" d = Some (VStr "2008-10-17") /\ m = mkRM (s ++ [PKey "Version"])%list version_words)); try reflexivity; auto.
  - is_rule.
  - intros t. unfold types_seen, version_type, with_policies, versioned_properties. simpl. split; [intros [H|[]] | intros H; left].
    + repeat destruct H as [<-|H]; try (left; tauto); try (right; eexists; tauto); destruct H.
    + destruct H as [H|[key H]]; [|repeat destruct H as [[= <- <-]|H]; tauto]. tauto.
  - one_type.
  - intros rt pd p H1 H2. exact (c71_versions rt pd p H2 (Hs rt pd p H1 H2)).
  - intros rt pd p q words. setoid_rewrite mk_rm. reflexivity.
  - intros rt pd p q words _ _ Ha Hne (x & q0 & v & r & d & s & H1 & H2 & _ & _ & H3 & H4 & -> & _). apply (fine_at c _ (VStr "2008-10-17")); [now destruct s|].
    exact (branch_member_at _ _ _ _ _ _ _ Hw H3 (single_at _ _ _ _ _ H2 (versioned_place _ _ _ _ _ _ Ha H1)) (assoc_In _ _ _ H4)).
Qed.
Lemma prop_documents w sp tr k rg man c ds l : lints w sp tr k rg man c ds "E2507" l -> wf (template c) ->
  (forall rt pd p, properties_of (template c) rt pd p -> In rt (resource_policy_types ++ identity_types)%list -> documents_shaped (w_json w) all_document_names pd p /\
     forall x q d r, document_at all_document_names pd p x q -> single x q (VDict d) r -> assoc "Resources" d = None) ->
  tells_exactly c man ds l "E2507" (fun q words => exists rt pd p, properties_of (template c) rt pd p /\ In rt (resource_policy_types ++ identity_types)%list /\
    exists x q0 v r place, document_at all_document_names pd p x q0 /\ single x q0 v r /\ ~ is_call v /\ document_fault (w_json w) (of_identity rt) (of_repository rt) v r place q words).
Proof.
  intros Hl Hw Hs. eapply (tells_props w sp tr k rg man c ds l "E2507" (policy_rule (w_json w)) _ (fun rt => In rt (resource_policy_types ++ identity_types)%list) (fun rt pd p m => exists x q0 v r place shown words, document_at all_document_names pd p x q0 /\ single x q0 v r /\ ~ is_call v /\ document_fault (w_json w) (of_identity rt) (of_repository rt) v r place shown words /\ m = mkRM shown words)
    (fun rt pd p q words => exists x q0 v r place, document_at all_document_names pd p x q0 /\ single x q0 v r /\ ~ is_call v /\ document_fault (w_json w) (of_identity rt) (of_repository rt) v r place q words)); try reflexivity; auto.
  - is_rule.
  - one_type.
  - one_type.
  - intros rt pd p H1 H2. destruct (properties_at c rt pd p Hw H1) as [Ha _]. pose proof (at_path_wf _ _ _ Hw Ha) as H'. apply wf_dict in H' as [H' _]. exact (c71_documents (w_json w) rt pd p H' (proj1 (Hs rt pd p H1 H2))).
  - intros rt pd p q words. setoid_rewrite mk_rm. split.
    + intros (x & q0 & v & r & pl & sh & wo & H1 & H2 & H3 & H4 & -> & ->). exists x, q0, v, r, pl. auto.
    + intros (x & q0 & v & r & pl & H1 & H2 & H3 & H4). exists x, q0, v, r, pl, q, words. auto 8.
  - intros rt pd p q words H1 H2 Ha Hne (x & q0 & v & r & pl & Hx & Hv & Hc & Hf).
    pose proof (document_place _ _ _ _ _ Hw Ha Hx) as Hq. pose proof (single_at _ _ _ _ _ Hv Hq) as Hr. destruct (Hs rt pd p H1 H2) as [_ Hno].
    assert (Er : exists rest, r = PKey "Resources" :: rest).
    { destruct H1 as (name & attrs & _ & _ & ->). destruct (single_below _ _ _ _ Hv) as [l0 ->]. destruct Hx; eexists; cbn [app]; reflexivity. }
    assert (Hne' : r <> []) by (destruct Er as [rest ->]; discriminate).
    destruct v as [|b0|z0|f0|s|l0|d].
    1,2,3,4,6: apply (fault_in_other (w_json w) c _ _ _ _ _ _ _ Hne' Hr eq_refl ltac:(discriminate) Hf).
    + exact (fault_in_text (w_json w) c _ _ _ _ _ _ _ Hne' Er Hr Hf).
    + refine (fault_in_template (w_json w) c _ _ d r pl q words Hw Hne' Hr _ Hf _ Er).
      * intros [y Hy]. apply Hc. exists "Fn::If", y. split; [exact Hy|]. apply smem_iff. reflexivity.
      * intros rest _. exact (Hno _ _ _ _ Hx Hv).
Qed.
Lemma prop_roles w sp tr k rg man c ds l : lints w sp tr k rg man c ds "E3050" l -> wf (template c) ->
  (forall pd p, properties_of (template c) "AWS::CodeBuild::Project" pd p -> role_refs_shaped (template c) pd p) ->
  tells_exactly c man ds l "E3050" (fun q words => exists pd p, properties_of (template c) "AWS::CodeBuild::Project" pd p /\
    exists x n r y, assoc "ServiceRole" pd = Some x /\ single x (p ++ [PKey "ServiceRole"])%list (VDict [("Ref", VStr n)]) r /\ pathed (template c) n y /\
      q = (r ++ [PKey "Ref"])%list /\ words = path_words (w_str w) y).
Proof.
  intros Hl Hw Hs. assert (Ht : is_dict (template c) = true) by (destruct Hl as (_ & _ & _ & _ & _ & (m & d & E) & _); unfold template; now rewrite E).
  eapply (tells_type w sp tr k rg man c ds l "E3050" (path_rule (w_str w)) _ "AWS::CodeBuild::Project" (fun pd p m => exists x n r y, assoc "ServiceRole" pd = Some x /\ single x (p ++ [PKey "ServiceRole"])%list (VDict [("Ref", VStr n)]) r /\ pathed (template c) n y /\ m = mkRM (r ++ [PKey "Ref"])%list (path_words (w_str w) y))); try reflexivity; auto.
  - is_rule.
  - one_type.
  - one_type.
  - intros pd p H. exact (c72_roles (w_str w) _ pd p Hw Ht (Hs pd p H)).
  - intros pd p q words. setoid_rewrite mk_rm. reflexivity.
  - intros pd p q words _ Ha _ (x & n & r & y & H1 & H2 & _ & -> & _). apply (fine_at c _ (VStr n)); [now destruct r|].
    apply (member_at _ _ [("Ref", VStr n)]); [exact (single_at _ _ _ _ _ H2 (member_at _ _ _ _ _ Ha H1)) | reflexivity].
Qed.
Lemma prop_machine w sp tr k rg man c ds l : lints w sp tr k rg man c ds "E2532" l -> wf (template c) ->
  (forall pd p, properties_of (template c) "AWS::StepFunctions::StateMachine" pd p -> machine_shaped (w_loads w) pd p) ->
  tells_exactly c man ds l "E2532" (fun q words => exists pd p, properties_of (template c) "AWS::StepFunctions::StateMachine" pd p /\
    exists x v r, assoc "DefinitionString" pd = Some x /\ single x (p ++ [PKey "DefinitionString"])%list v r /\ machine_fault (w_loads w) (w_show w) v r q words).
Proof.
  intros Hl Hw Hs. eapply (tells_type w sp tr k rg man c ds l "E2532" (machine_rule (w_loads w) (w_show w)) _ "AWS::StepFunctions::StateMachine" (fun pd p m => exists x v r q words, assoc "DefinitionString" pd = Some x /\ single x (p ++ [PKey "DefinitionString"])%list v r /\ machine_fault (w_loads w) (w_show w) v r q words /\ m = mkRM q words)); try reflexivity; auto.
  - is_rule.
  - one_type.
  - one_type.
  - intros pd p H. exact (c80_machine (w_loads w) (w_show w) pd p (Hs pd p H)).
  - intros pd p q words. setoid_rewrite mk_rm. split; [intros (x & v & r & q0 & ws & H1 & H2 & H3 & -> & ->); eauto 6 | intros (x & v & r & H1 & H2 & H3); exists x, v, r, q, words; auto].
  - intros pd p q words _ Ha _ (x & v & r & H1 & H2 & H3). pose proof (single_fine c p pd _ x v r Ha H1 H2) as [Hne Hi]. destruct H3 as [err _ _|d ws _ _ _|y z d ws -> _ _ _]; try (split; assumption).
    apply (fine_at c _ y); [now destruct r|]. apply (member_at _ _ [("Fn::Sub", y)]); [exact (single_at _ _ _ _ _ H2 (member_at _ _ _ _ _ Ha H1)) | reflexivity].
Qed.

(** * Domains *)
Lemma prop_zone w sp tr k rg man c ds l : lints w sp tr k rg man c ds "E3041" l -> wf (template c) -> (forall l, Permutation (w_order w l) l) ->
  (forall pd p, properties_of (template c) "AWS::Route53::RecordSet" pd p -> plain_object pd /\ VDict pd <> no_value /\ (forall n, ~ group_looks_at pd ["Name"; "HostedZoneName"] n) /\ zone_shaped pd) ->
  tells_exactly c man ds l "E3041" (fun q words => exists pd p, properties_of (template c) "AWS::Route53::RecordSet" pd p /\
    exists key ws, zone_fault pd key ws /\ q = (p ++ [PKey key])%list /\ words = ws ++ path_text p).
Proof.
  intros Hl Hw Ho Hs. eapply (tells_type w sp tr k rg man c ds l "E3041" (Domains.zone_rule (w_hash w) (w_order w) (w_fuel w)) _ "AWS::Route53::RecordSet" (fun pd p m => exists key ws, zone_fault pd key ws /\ m = mkRM (p ++ [PKey key])%list (ws ++ path_text p))); try reflexivity; auto.
  - is_rule.
  - one_type.
  - one_type.
  - intros pd p H. destruct (Hs pd p H) as (H1 & H2 & H3 & H4). exact (c78_zone (w_order w) _ pd p Ho H1 H2 H3 H4).
  - intros pd p q words. setoid_rewrite mk_rm. reflexivity.
  - intros pd p q words _ Ha Hne (key & ws & H1 & -> & _). destruct (fault_key pd key ws (or_introl H1)) as [x Hx]. apply (fine_at c _ x); [now destruct p|]. exact (member_at _ _ _ _ _ Ha Hx).
Qed.
Lemma prop_option w sp tr k rg man c ds l : lints w sp tr k rg man c ds "E3503" l -> wf (template c) -> (forall l, Permutation (w_order w l) l) ->
  (forall pd p x, properties_of (template c) "AWS::CertificateManager::Certificate" pd p -> assoc "DomainValidationOptions" pd = Some x ->
     (forall q, ~ alternative x (p ++ [PKey "DomainValidationOptions"])%list VNull q) /\
     forall e q, single x (p ++ [PKey "DomainValidationOptions"])%list (VDict e) q -> ~ is_call (VDict e) -> plain_object e /\ forall n, ~ members_look_at e n) ->
  tells_exactly c man ds l "E3503" (fun q words => exists pd p, properties_of (template c) "AWS::CertificateManager::Certificate" pd p /\
    exists x e r key ws, assoc "DomainValidationOptions" pd = Some x /\ single x (p ++ [PKey "DomainValidationOptions"])%list (VDict e) r /\ ~ is_call (VDict e) /\
      option_fault e key ws /\ q = (r ++ [PKey key])%list /\ words = ws ++ path_text r).
Proof.
  intros Hl Hw Ho Hs. eapply (tells_type w sp tr k rg man c ds l "E3503" (option_rule (w_hash w) (w_order w) (w_fuel w)) _ "AWS::CertificateManager::Certificate" (fun pd p m => exists x e r key ws, assoc "DomainValidationOptions" pd = Some x /\ single x (p ++ [PKey "DomainValidationOptions"])%list (VDict e) r /\ ~ is_call (VDict e) /\ option_fault e key ws /\ m = mkRM (r ++ [PKey key])%list (ws ++ path_text r))); try reflexivity; auto.
  - is_rule.
  - one_type.
  - one_type.
  - intros pd p H. exact (c78_option (w_order w) _ pd p Ho (fun x => Hs pd p x H)).
  - intros pd p q words. setoid_rewrite mk_rm. reflexivity.
  - intros pd p q words _ Ha Hne (x & e & r & key & ws & H1 & H2 & _ & H3 & -> & _). destruct (fault_key e key ws (or_intror H3)) as [y Hy]. apply (fine_at c _ y); [now destruct r|].
    exact (member_at _ _ _ _ _ (single_at _ _ _ _ _ H2 (member_at _ _ _ _ _ Ha H1)) Hy).
Qed.

(** * Packaged properties and tables *)
Lemma prop_packaged w sp tr k rg man c ds l : lints w sp tr k rg man c ds "W3002" l -> wf (template c) ->
  (forall rt pd p key x q, properties_of (template c) rt pd p -> In rt (keys templated) -> assoc key pd = Some x -> ~ alternative x (p ++ [PKey key])%list VNull q) ->
  tells_exactly c man ds l "W3002" (fun q words => exists rt pd p, properties_of (template c) rt pd p /\ In rt (keys templated) /\
    exists key x s, In (rt, key) packaged /\ assoc key pd = Some x /\ single x (p ++ [PKey key])%list (VStr s) q /\
      words = "This code may only work with `package` cli command as the property (" ++ path_text q ++ ") is a string").
Proof.
  intros Hl Hw Hs. eapply (tells_props w sp tr k rg man c ds l "W3002" templated_rule _ (fun rt => In rt (keys templated)) (fun rt pd p m => exists key x s r, In (rt, key) packaged /\ assoc key pd = Some x /\ single x (p ++ [PKey key])%list (VStr s) r /\
      m = mkRM r ("This code may only work with `package` cli command as the property (" ++ path_text r ++ ") is a string"))); try reflexivity; auto.
  - is_rule.
  - intros t. unfold types_seen. cbn. tauto.
  - one_type.
  - intros rt pd p H1 H2. exact (c62_packaged rt pd p (fun key x q H => Hs rt pd p key x q H1 H2 H)).
  - intros rt pd p q words. setoid_rewrite mk_rm. split; [intros (key & x & s & r & H1 & H2 & H3 & -> & ->); exists key, x, s; auto | intros (key & x & s & H1 & H2 & H3 & ->); exists key, x, s, q; auto 6].
  - intros rt pd p q words _ _ Ha _ (key & x & s & _ & H1 & H2 & _). exact (single_fine c p pd _ x _ q Ha H1 H2).
Qed.
Lemma prop_table w sp tr k rg man c ds l : lints w sp tr k rg man c ds "E3039" l -> wf (template c) -> (forall l, Permutation (w_order w l) l) ->
  (forall pd p, properties_of (template c) "AWS::DynamoDB::Table" pd p -> plain_object pd /\ VDict pd <> no_value /\ (forall n, ~ group_looks_at pd table_part n) /\ table_shaped pd) ->
  tells_exactly c man ds l "E3039" (fun q words => exists pd p, properties_of (template c) "AWS::DynamoDB::Table" pd p /\
    exists defined used, table_fault pd (defined, used) /\ q = p /\
      words = "The set of Attributes in AttributeDefinitions: " ++ w_show_names w defined ++ " and KeySchemas: " ++ w_show_names w used ++ " must match at " ++ path_text p).
Proof.
  intros Hl Hw Ho Hs. eapply (tells_type w sp tr k rg man c ds l "E3039" (DynamoDb.table_rule (w_show_names w) (w_hash w) (w_order w) (w_fuel w)) _ "AWS::DynamoDB::Table" (fun pd p m => exists defined used, table_fault pd (defined, used) /\
      m = mkRM p ("The set of Attributes in AttributeDefinitions: " ++ w_show_names w defined ++ " and KeySchemas: " ++ w_show_names w used ++ " must match at " ++ path_text p))); try reflexivity; auto.
  - is_rule.
  - one_type.
  - one_type.
  - intros pd p H. destruct (Hs pd p H) as (H1 & H2 & H3 & H4). exact (c82_table (w_show_names w) (w_order w) _ pd p Ho H1 H2 H3 H4).
  - intros pd p q words. setoid_rewrite mk_rm. reflexivity.
  - intros pd p q words _ Ha Hne (de & us & _ & -> & _). exact (fine_at c p _ Hne Ha).
Qed.
