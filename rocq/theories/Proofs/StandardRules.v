(** Findings of single shipped rules in whole runs (C93). *)
From Coq Require Import Lia.
From Verif.Model Require Import Base Node Locate Helpers Rules Runner Config Core Conditions Limits Shape Parameters Refs ConditionRules Relationship Policies ValueRules UpdatePolicy Standard.
From Verif.Spec Require Import Pipeline Paths References Limited ConditionUse ParameterUse Faults Booleans Resolved Protect Shipped.
From Verif.Proofs Require Import BaseFacts SearchProofs PropertyRuleProofs ActionMain Places LimitProofs ParameterProofs PlaceholderProofs RefProofs ShapeProofs ConditionUseProofs PolicyProofs StandardProofs.
Import Verif.Model.Rules.
Local Open Scope string_scope.

Definition rule_by_id (w : world) (id : string) : option rule := find (fun r => String.eqb (r_id r) id) (shipped w).
Lemma rule_by_id_in w id r : rule_by_id w id = Some r -> In r (shipped w) /\ r_id r = id.
Proof. intros H. apply find_some in H as [H E]. apply String.eqb_eq in E. auto. Qed.

(** The shipped rule with this id looks only at the template, as [f] does. *)
Definition checks_by (w : world) (c : cfn) (id : string) (f : res (list rulematch)) : Prop :=
  id <> "E0002" /\ exists r g, rule_by_id w id = Some r /\ r_experimental r = false /\ r_match r = Some g /\ r_match_props r = None /\
    r_match_subs r = None /\ forall cfg, g cfg c = f.
Lemma tells_by w sp tr k rg man c ds l id f ms :
  lints w sp tr k rg man c ds id l -> checks_by w c id f -> f = Ok ms ->
  (forall m, In m ms -> rm_path m <> [] /\ indices_ok (c_tmpl c) (rm_path m)) ->
  tells_exactly c man ds l id (fun q words => In (mkRM q words) ms).
Proof.
  intros Hl (Hid & r & g & Hr & He & Hm & Hp & Hs & Hg) -> Hpath. apply rule_by_id_in in Hr as [Hin Er].
  apply (tells_one w sp tr k rg man c ds id l r g ms); auto.
Qed.
Lemma tells_as w sp tr k rg man c ds l id f (Q : rulematch -> Prop) (P : path -> string -> Prop) :
  lints w sp tr k rg man c ds id l -> checks_by w c id f ->
  (exists ms, f = Ok ms /\ forall m, In m ms <-> Q m) ->
  (forall q words, Q (mkRM q words) <-> P q words) ->
  (forall q words, P q words -> q <> [] /\ indices_ok (c_tmpl c) q) ->
  tells_exactly c man ds l id P.
Proof.
  intros Hl Hc [ms [E H]] HQ Hpath. apply (tells_ext _ _ _ _ _ (fun q words => In (mkRM q words) ms)).
  - intros q words. rewrite H. apply HQ.
  - apply (tells_by w sp tr k rg man c ds l id f ms Hl Hc E). intros [q words] Hm. cbn [rm_path]. apply (Hpath q words), HQ, H. exact Hm.
Qed.
Lemma lints_before w sp tr k rg man c ds l id : lints w sp tr k rg man c ds id l -> (In id ["W1020"; "W2001"; "W7001"] -> w_before w c = template c) /\ w_globals w c = VDict [].
Proof. intros (_ & _ & _ & _ & (_ & H) & _). exact H. Qed.
Ltac by_id := split; [discriminate | eexists; eexists; split; [reflexivity|]; split; [reflexivity|]; split; [reflexivity|];
  split; [reflexivity|]; split; [reflexivity | intros cfg; reflexivity]].
Ltac all_keys := split; [discriminate | apply keys_indices; cbn [In]; intros el_ Hel_; repeat destruct Hel_ as [<-|Hel_]; try (eexists; reflexivity); destruct Hel_].
Lemma wf_empty : wf (VDict []).
Proof. split; [constructor | exact I]. Qed.
Lemma occurs_here f t p v : occurs f t (VDict []) p v -> at_path (p ++ [PKey f])%list t = Some v.
Proof. intros [H|H]; [exact H|]. exfalso. destruct p as [|[k|i] p]; discriminate H. Qed.
Lemma place_ok c p v : at_path p (template c) = Some v -> p <> [] -> p <> [] /\ indices_ok (c_tmpl c) p.
Proof. intros H Hp. split; [exact Hp|]. apply (at_path_indices p _ v). exact H. Qed.
Lemma parts_ok c p e v : at_path (p ++ [e])%list (template c) = Some v -> (p ++ [e])%list <> [] /\ indices_ok (c_tmpl c) (p ++ [e])%list.
Proof. intros H. apply (place_ok c _ v H). intros K. apply app_eq_nil in K as [_ K]. discriminate K. Qed.
Lemma mk_rm q words p x : mkRM q words = mkRM p x <-> q = p /\ words = x.
Proof. split; [intros H; injection H as -> ->; auto | intros [-> ->]; reflexivity]. Qed.

Lemma std_W2001 w sp tr k rg man c ds l ps :
  lints w sp tr k rg man c ds "W2001" l ->
  wf (template c) -> section (template c) "Parameters" ps ->
  (forall n x, In (n, x) ps -> n <> "" /\ alphanumeric n) ->
  (forall p v, occurs "Fn::Sub" (template c) (VDict []) p v -> exists s, sub_text v s /\ closed s) ->
  tells_exactly c man ds l "W2001" (fun q words =>
    exists n x, In (n, x) ps /\ ~ uses_parameter (template c) n /\ q = [PKey "Parameters"; PKey n] /\ words = ("Parameter " ++ n ++ " not used.")).
Proof.
  intros Hl. destruct (lints_before _ _ _ _ _ _ _ _ _ _ Hl) as [Hb Hg]. intros H1 H2 H3 H4.
  apply (tells_as w sp tr k rg man c ds l "W2001" (parameters_used_match (w_before w c) (template c)) (fun m => exists n x, In (n, x) ps /\ ~ uses_parameter (template c) n /\ m = mkRM [PKey "Parameters"; PKey n] ("Parameter " ++ n ++ " not used."))); [exact Hl | by_id | | |].
  - rewrite Hb by (cbn; auto). now apply c26_all.
  - intros q words. split; intros (n & x & Hx); exists n, x; rewrite mk_rm in *; tauto.
  - intros q words. intros (n & x & Hx). decompose [and] Hx. subst q. all_keys.
Qed.

Lemma std_W7001 w sp tr k rg man c ds l ms :
  lints w sp tr k rg man c ds "W7001" l ->
  wf (template c) -> section (template c) "Mappings" ms ->
  (forall p, ~ occurs "Fn::FindInMap" (template c) (VDict []) p (VList [])) ->
  tells_exactly c man ds l "W7001" (fun q words =>
    exists n x, In (n, x) ms /\ ~ names_mapping (template c) n /\ ~ computes_mapping (template c) /\ q = [PKey "Mappings"; PKey n] /\ words = ("Mapping '" ++ n ++ "' is defined but not used")).
Proof.
  intros Hl. destruct (lints_before _ _ _ _ _ _ _ _ _ _ Hl) as [Hb Hg]. intros H1 H2 H3.
  apply (tells_as w sp tr k rg man c ds l "W7001" (mappings_used_match (w_before w c) (template c)) (fun m => exists n x, In (n, x) ms /\ ~ names_mapping (template c) n /\ ~ computes_mapping (template c) /\ m = mkRM [PKey "Mappings"; PKey n] ("Mapping '" ++ n ++ "' is defined but not used"))); [exact Hl | by_id | | |].
  - rewrite Hb by (cbn; auto). now apply c44_all.
  - intros q words. split; intros (n & x & Hx); exists n, x; rewrite mk_rm in *; tauto.
  - intros q words. intros (n & x & Hx). decompose [and] Hx. subst q. all_keys.
Qed.

Lemma std_W8001 w sp tr k rg man c ds l  :
  lints w sp tr k rg man c ds "W8001" l ->
  wf (template c) -> plain_uses (template c) (VDict []) ->
  tells_exactly c man ds l "W8001" (fun q words =>
    exists n, condition_defined (template c) n /\ ~ uses_condition (template c) (VDict []) n /\ (forall p, ~ occurs "Fn::If" (template c) (VDict []) p (VStr n)) /\
      q = [PKey "Conditions"; PKey n] /\ words = "Condition " ++ n ++ " not used").
Proof.
  intros Hl. destruct (lints_before _ _ _ _ _ _ _ _ _ _ Hl) as [Hb Hg]. intros H1 H2.
  apply (tells_as w sp tr k rg man c ds l "W8001" (used_match (template c) (w_globals w c)) (fun m => exists n, m = mkRM [PKey "Conditions"; PKey n] ("Condition " ++ n ++ " not used") /\ condition_defined (template c) n /\ ~ uses_condition (template c) (VDict []) n /\ forall p, ~ occurs "Fn::If" (template c) (VDict []) p (VStr n))); [exact Hl | by_id | | |].
  - rewrite Hg. apply c43_all; auto using wf_empty.
  - intros q words. split; intros (n & Hx); exists n; rewrite mk_rm in *; tauto.
  - intros q words. intros (n & Hx). decompose [and] Hx. subst q. all_keys.
Qed.

Lemma std_E2003 w sp tr k rg man c ds l ms :
  lints w sp tr k rg man c ds "E2003" l ->
  section (template c) "Parameters" ms ->
  (forall n x, In (n, x) ms -> forall t, n <> t ++ String "010" "") ->
  tells_exactly c man ds l "E2003" (fun q words =>
    exists n x, In (n, x) ms /\ ~ alphanumeric n /\ q = [PKey "Parameters"; PKey n] /\ words = (singular "Parameters" ++ " " ++ n ++ " has invalid name.  Name has to be alphanumeric.")).
Proof.
  intros Hl. destruct (lints_before _ _ _ _ _ _ _ _ _ _ Hl) as [Hb Hg]. intros H1 H2.
  apply (tells_as w sp tr k rg man c ds l "E2003" (alphanumeric_name (template c) "Parameters") (fun m => exists n x, In (n, x) ms /\ ~ alphanumeric n /\ m = mkRM [PKey "Parameters"; PKey n] (singular "Parameters" ++ " " ++ n ++ " has invalid name.  Name has to be alphanumeric."))); [exact Hl | by_id | | |].
  - now apply c24_all.
  - intros q words. split; intros (n & x & Hx); exists n, x; rewrite mk_rm in *; tauto.
  - intros q words. intros (n & x & Hx). decompose [and] Hx. subst q. all_keys.
Qed.

Lemma std_E3006 w sp tr k rg man c ds l ms :
  lints w sp tr k rg man c ds "E3006" l ->
  section (template c) "Resources" ms ->
  (forall n x, In (n, x) ms -> forall t, n <> t ++ String "010" "") ->
  tells_exactly c man ds l "E3006" (fun q words =>
    exists n x, In (n, x) ms /\ ~ alphanumeric n /\ q = [PKey "Resources"; PKey n] /\ words = (singular "Resources" ++ " " ++ n ++ " has invalid name.  Name has to be alphanumeric.")).
Proof.
  intros Hl. destruct (lints_before _ _ _ _ _ _ _ _ _ _ Hl) as [Hb Hg]. intros H1 H2.
  apply (tells_as w sp tr k rg man c ds l "E3006" (alphanumeric_name (template c) "Resources") (fun m => exists n x, In (n, x) ms /\ ~ alphanumeric n /\ m = mkRM [PKey "Resources"; PKey n] (singular "Resources" ++ " " ++ n ++ " has invalid name.  Name has to be alphanumeric."))); [exact Hl | by_id | | |].
  - now apply c24_all.
  - intros q words. split; intros (n & x & Hx); exists n, x; rewrite mk_rm in *; tauto.
  - intros q words. intros (n & x & Hx). decompose [and] Hx. subst q. all_keys.
Qed.

Lemma std_E6004 w sp tr k rg man c ds l ms :
  lints w sp tr k rg man c ds "E6004" l ->
  section (template c) "Outputs" ms ->
  (forall n x, In (n, x) ms -> forall t, n <> t ++ String "010" "") ->
  tells_exactly c man ds l "E6004" (fun q words =>
    exists n x, In (n, x) ms /\ ~ alphanumeric n /\ q = [PKey "Outputs"; PKey n] /\ words = (singular "Outputs" ++ " " ++ n ++ " has invalid name.  Name has to be alphanumeric.")).
Proof.
  intros Hl. destruct (lints_before _ _ _ _ _ _ _ _ _ _ Hl) as [Hb Hg]. intros H1 H2.
  apply (tells_as w sp tr k rg man c ds l "E6004" (alphanumeric_name (template c) "Outputs") (fun m => exists n x, In (n, x) ms /\ ~ alphanumeric n /\ m = mkRM [PKey "Outputs"; PKey n] (singular "Outputs" ++ " " ++ n ++ " has invalid name.  Name has to be alphanumeric."))); [exact Hl | by_id | | |].
  - now apply c24_all.
  - intros q words. split; intros (n & x & Hx); exists n, x; rewrite mk_rm in *; tauto.
  - intros q words. intros (n & x & Hx). decompose [and] Hx. subst q. all_keys.
Qed.

Lemma std_E7002 w sp tr k rg man c ds l ms :
  lints w sp tr k rg man c ds "E7002" l ->
  section (template c) "Mappings" ms ->
  (forall n x, In (n, x) ms -> forall t, n <> t ++ String "010" "") ->
  tells_exactly c man ds l "E7002" (fun q words =>
    exists n x, In (n, x) ms /\ ~ alphanumeric n /\ q = [PKey "Mappings"; PKey n] /\ words = (singular "Mappings" ++ " " ++ n ++ " has invalid name.  Name has to be alphanumeric.")).
Proof.
  intros Hl. destruct (lints_before _ _ _ _ _ _ _ _ _ _ Hl) as [Hb Hg]. intros H1 H2.
  apply (tells_as w sp tr k rg man c ds l "E7002" (alphanumeric_name (template c) "Mappings") (fun m => exists n x, In (n, x) ms /\ ~ alphanumeric n /\ m = mkRM [PKey "Mappings"; PKey n] (singular "Mappings" ++ " " ++ n ++ " has invalid name.  Name has to be alphanumeric."))); [exact Hl | by_id | | |].
  - now apply c24_all.
  - intros q words. split; intros (n & x & Hx); exists n, x; rewrite mk_rm in *; tauto.
  - intros q words. intros (n & x & Hx). decompose [and] Hx. subst q. all_keys.
Qed.

Lemma std_E2015 w sp tr k rg man c ds l ps :
  lints w sp tr k rg man c ds "E2015" l ->
  section (template c) "Parameters" ps ->
  (forall n x, In (n, x) ps -> exists def, x = VDict def /\ plain_constraints def /\ assoc "MinValue" def <> Some (VInt 0)) ->
  tells_exactly c man ds l "E2015" (fun q words =>
    exists n def v, In (n, VDict def) ps /\ assoc "Default" def = Some v /\ violates (w_default_matches w) def v words /\
      q = [PKey "Parameters"; PKey n; PKey "Default"]).
Proof.
  intros Hl. destruct (lints_before _ _ _ _ _ _ _ _ _ _ Hl) as [Hb Hg]. intros H1 H2.
  apply (tells_as w sp tr k rg man c ds l "E2015" (default_match (w_str w) (w_default_matches w) (template c)) (fun m => exists n def v why, In (n, VDict def) ps /\ assoc "Default" def = Some v /\ violates (w_default_matches w) def v why /\ m = mkRM [PKey "Parameters"; PKey n; PKey "Default"] why)); [exact Hl | by_id | | |].
  - now apply default_match_spec.
  - intros q words. split; [intros (n & def & v & why & Hx); rewrite mk_rm in Hx; exists n, def, v; decompose [and] Hx; subst; auto | intros (n & def & v & Hx); exists n, def, v, words; rewrite mk_rm; tauto].
  - intros q words. intros (n & def & v & Hx). decompose [and] Hx. subst q. all_keys.
Qed.

Lemma std_E3035 w sp tr k rg man c ds l  :
  lints w sp tr k rg man c ds "E3035" l ->
  wf (template c) -> (forall n o v, resource (template c) n o -> assoc "DeletionPolicy" o = Some v -> ~ empty v) ->
  tells_exactly c man ds l "E3035" (fun q words =>
    exists n o, resource (template c) n o /\ policy_fault (py_str (w_str w)) "DeletionPolicy" n o q words).
Proof.
  intros Hl. destruct (lints_before _ _ _ _ _ _ _ _ _ _ Hl) as [Hb Hg]. intros H1 H2.
  apply (tells_as w sp tr k rg man c ds l "E3035" (policy_match (w_str w) "DeletionPolicy" (template c)) (fun m => exists n o, resource (template c) n o /\ policy_fault (py_str (w_str w)) "DeletionPolicy" n o (rm_path m) (rm_msg m))); [exact Hl | by_id | | |].
  - now apply c37_all.
  - intros q words. reflexivity.
  - intros q words. intros (n & o & _ & Hx). inversion Hx; subst; all_keys.
Qed.

Lemma std_E3036 w sp tr k rg man c ds l  :
  lints w sp tr k rg man c ds "E3036" l ->
  wf (template c) -> (forall n o v, resource (template c) n o -> assoc "UpdateReplacePolicy" o = Some v -> ~ empty v) ->
  tells_exactly c man ds l "E3036" (fun q words =>
    exists n o, resource (template c) n o /\ policy_fault (py_str (w_str w)) "UpdateReplacePolicy" n o q words).
Proof.
  intros Hl. destruct (lints_before _ _ _ _ _ _ _ _ _ _ Hl) as [Hb Hg]. intros H1 H2.
  apply (tells_as w sp tr k rg man c ds l "E3036" (policy_match (w_str w) "UpdateReplacePolicy" (template c)) (fun m => exists n o, resource (template c) n o /\ policy_fault (py_str (w_str w)) "UpdateReplacePolicy" n o (rm_path m) (rm_msg m))); [exact Hl | by_id | | |].
  - now apply c37_all.
  - intros q words. reflexivity.
  - intros q words. intros (n & o & _ & Hx). inversion Hx; subst; all_keys.
Qed.

Lemma std_W3011 w sp tr k rg man c ds l  :
  lints w sp tr k rg man c ds "W3011" l ->
  wf (template c) ->
  tells_exactly c man ds l "W3011" (fun q words =>
    exists n o, resource (template c) n o /\ ~ of_type o ["AWS::Lambda::Version"; "AWS::Lambda::LayerVersion"] /\
      (keeps o "DeletionPolicy" /\ ~ given o "UpdateReplacePolicy" \/ keeps o "UpdateReplacePolicy" /\ ~ given o "DeletionPolicy") /\ q = [PKey "Resources"; PKey n] /\ words = ("Both UpdateReplacePolicy and DeletionPolicy are needed to protect Resources/" ++ n ++ " from deletion")).
Proof.
  intros Hl. destruct (lints_before _ _ _ _ _ _ _ _ _ _ Hl) as [Hb Hg]. intros H1.
  apply (tells_as w sp tr k rg man c ds l "W3011" (both_match (template c)) (fun m => exists n o, resource (template c) n o /\ ~ of_type o ["AWS::Lambda::Version"; "AWS::Lambda::LayerVersion"] /\
      (keeps o "DeletionPolicy" /\ ~ given o "UpdateReplacePolicy" \/ keeps o "UpdateReplacePolicy" /\ ~ given o "DeletionPolicy") /\ m = mkRM [PKey "Resources"; PKey n] ("Both UpdateReplacePolicy and DeletionPolicy are needed to protect Resources/" ++ n ++ " from deletion"))); [exact Hl | by_id | | |].
  - now apply c45_both.
  - intros q words. split; intros (n & o & Hx); exists n, o; rewrite mk_rm in *; tauto.
  - intros q words. intros (n & o & _ & _ & _ & -> & _). all_keys.
Qed.

Lemma std_I3011 w sp tr k rg man c ds l  :
  lints w sp tr k rg man c ds "I3011" l ->
  wf (template c) ->
  tells_exactly c man ds l "I3011" (fun q words =>
    exists n o, resource (template c) n o /\ of_type o stateful_types /\ ~ (given o "DeletionPolicy" /\ given o "UpdateReplacePolicy") /\ q = [PKey "Resources"; PKey n] /\ words = ("The default action when replacing/removing a resource is to delete it. Set explicit values for UpdateReplacePolicy / DeletionPolicy on potentially stateful resource: Resources/" ++ n)).
Proof.
  intros Hl. destruct (lints_before _ _ _ _ _ _ _ _ _ _ Hl) as [Hb Hg]. intros H1.
  apply (tells_as w sp tr k rg man c ds l "I3011" (stateful_match (template c)) (fun m => exists n o, resource (template c) n o /\ of_type o stateful_types /\ ~ (given o "DeletionPolicy" /\ given o "UpdateReplacePolicy") /\ m = mkRM [PKey "Resources"; PKey n] ("The default action when replacing/removing a resource is to delete it. Set explicit values for UpdateReplacePolicy / DeletionPolicy on potentially stateful resource: Resources/" ++ n))); [exact Hl | by_id | | |].
  - now apply c45_stateful.
  - intros q words. split; intros (n & o & Hx); exists n, o; rewrite mk_rm in *; tauto.
  - intros q words. intros (n & o & Hx). decompose [and] Hx. subst q. all_keys.
Qed.

Lemma std_E3007 w sp tr k rg man c ds l  :
  lints w sp tr k rg man c ds "E3007" l ->
  wf (template c) -> (forall d v, template c = VDict d -> assoc "Parameters" d = Some v -> exists ps, v = VDict ps) ->
  tells_exactly c man ds l "E3007" (fun q words =>
    exists n o d ps, resource (template c) n o /\ template c = VDict d /\ assoc "Parameters" d = Some (VDict ps) /\ In n (map fst ps) /\ q = [PKey "Resources"; PKey n] /\ words = ("Resources and Parameters must not share name: " ++ n)).
Proof.
  intros Hl. destruct (lints_before _ _ _ _ _ _ _ _ _ _ Hl) as [Hb Hg]. intros H1 H2.
  apply (tells_as w sp tr k rg man c ds l "E3007" (unique_names_match (template c)) (fun m => exists n o d ps, resource (template c) n o /\ template c = VDict d /\ assoc "Parameters" d = Some (VDict ps) /\ In n (map fst ps) /\ m = mkRM [PKey "Resources"; PKey n] ("Resources and Parameters must not share name: " ++ n))); [exact Hl | by_id | | |].
  - now apply c46_names.
  - intros q words. split; intros (n & o & d & ps & Hx); exists n, o, d, ps; rewrite mk_rm in *; tauto.
  - intros q words. intros (n & o & d & ps & Hx). decompose [and] Hx. subst q. all_keys.
Qed.

Lemma std_E2002 w sp tr k rg man c ds l ps :
  lints w sp tr k rg man c ds "E2002" l ->
  section (template c) "Parameters" ps -> (forall n x, In (n, x) ps -> exists def, x = VDict def) ->
  tells_exactly c man ds l "E2002" (fun q words =>
    exists n def t, In (n, VDict def) ps /\ assoc "Type" def = Some t /\
      ~ (exists s, t = VStr s /\ In s (VALID_PARAMETER_TYPES_SINGLE ++ VALID_PARAMETER_TYPES_LIST)%list) /\ q = [PKey "Parameters"; PKey n; PKey "Type"] /\ words = ("Parameter " ++ n ++ " has invalid type " ++ py_str (w_str w) t)).
Proof.
  intros Hl. destruct (lints_before _ _ _ _ _ _ _ _ _ _ Hl) as [Hb Hg]. intros H1 H2.
  apply (tells_as w sp tr k rg man c ds l "E2002" (parameter_types_match (w_str w) (template c)) (fun m => exists n def t, In (n, VDict def) ps /\ assoc "Type" def = Some t /\
      ~ (exists s, t = VStr s /\ In s (VALID_PARAMETER_TYPES_SINGLE ++ VALID_PARAMETER_TYPES_LIST)%list) /\ m = mkRM [PKey "Parameters"; PKey n; PKey "Type"] ("Parameter " ++ n ++ " has invalid type " ++ py_str (w_str w) t))); [exact Hl | by_id | | |].
  - now apply types_spec.
  - intros q words. split; intros (n & def & t & Hx); exists n, def, t; rewrite mk_rm in *; tauto.
  - intros q words. intros (n & def & t & Hx). decompose [and] Hx. subst q. all_keys.
Qed.

Lemma std_E6002 w sp tr k rg man c ds l os :
  lints w sp tr k rg man c ds "E6002" l ->
  section (template c) "Outputs" os -> (forall n x, In (n, x) os -> exists def, x = VDict def) ->
  tells_exactly c man ds l "E6002" (fun q words =>
    exists n def, In (n, VDict def) os /\ ~ In "Value" (map fst def) /\ q = [PKey "Outputs"; PKey n; PKey "Value"] /\ words = ("Output " ++ n ++ " is missing property Value")).
Proof.
  intros Hl. destruct (lints_before _ _ _ _ _ _ _ _ _ _ Hl) as [Hb Hg]. intros H1 H2.
  apply (tells_as w sp tr k rg man c ds l "E6002" (output_required_match (template c)) (fun m => exists n def, In (n, VDict def) os /\ ~ In "Value" (map fst def) /\ m = mkRM [PKey "Outputs"; PKey n; PKey "Value"] ("Output " ++ n ++ " is missing property Value"))); [exact Hl | by_id | | |].
  - now apply required_spec.
  - intros q words. split; intros (n & def & Hx); exists n, def; rewrite mk_rm in *; tauto.
  - intros q words. intros (n & def & Hx). decompose [and] Hx. subst q. all_keys.
Qed.

Lemma std_E6005 w sp tr k rg man c ds l os :
  lints w sp tr k rg man c ds "E6005" l ->
  section (template c) "Outputs" os -> (forall n x, In (n, x) os -> exists def, x = VDict def) ->
  tells_exactly c man ds l "E6005" (fun q words =>
    exists n def, In (n, VDict def) os /\ (exists v, assoc "Description" def = Some v /\ (forall s, v <> VStr s) /\ ~ empty v) /\ q = [PKey "Outputs"; PKey n; PKey "Description"] /\ words = "Output Description can only be a string").
Proof.
  intros Hl. destruct (lints_before _ _ _ _ _ _ _ _ _ _ Hl) as [Hb Hg]. intros H1 H2.
  apply (tells_as w sp tr k rg man c ds l "E6005" (output_description_match (template c)) (fun m => exists n def, In (n, VDict def) os /\ (exists v, assoc "Description" def = Some v /\ (forall s, v <> VStr s) /\ ~ empty v) /\ m = mkRM [PKey "Outputs"; PKey n; PKey "Description"] "Output Description can only be a string")); [exact Hl | by_id | | |].
  - now apply output_description_spec.
  - intros q words. split; intros (n & def & Hx); exists n, def; rewrite mk_rm in *; tauto.
  - intros q words. intros (n & def & Hx). decompose [and] Hx. subst q. all_keys.
Qed.

Lemma std_limits w sp tr k rg man c ds l id number :
  lints w sp tr k rg man c ds id l -> documented (template c) ->
  In (id, number) [("E7010", "7010"); ("E7011", "7011"); ("E7012", "7012"); ("E6010", "6010"); ("E6011", "6011"); ("E6012", "6012");
    ("E2010", "2010"); ("E2011", "2011"); ("E2012", "2012"); ("E3010", "3010"); ("E3011", "3011"); ("E1002", "1002"); ("E1003", "1003")] ->
  tells_exactly c man ds l id (fun q words => exists n, limited (template c) (w_size w (c_file c)) number n /\ exceeds n /\ q = q_where n /\
    words = q_what n ++ " (" ++ str_of_Z (q_size n) ++ q_unit n ++ ") exceeds the limit (" ++ str_of_Z (q_limit n) ++ q_unit n ++ ")").
Proof.
  intros Hl Hd Hi.
  assert (Hn : In number numbers) by (cbn [In] in Hi; repeat destruct Hi as [Hi|Hi]; try injection Hi as <- <-; [cbn; tauto ..|destruct Hi]).
  destruct (c23_all (template c) (w_size w (c_file c)) Hd number Hn) as (es & is & E & _ & H & _).
  apply (tells_as w sp tr k rg man c ds l id (Ok es) (fun m => In m es)); [exact Hl | | exists es; split; [reflexivity | reflexivity] | |].
  - assert (K : checks_by w c id (match limit_rule (template c) Exceeds (w_size w (c_file c)) number with Some r => r | None => Err EKey end)).
    { cbn [In] in Hi. repeat destruct Hi as [Hi|Hi]; try injection Hi as <- <-; [by_id ..|destruct Hi]. }
    now rewrite E in K.
  - intros q words. rewrite H. split; intros (n & H1 & H2 & Hx); exists n; rewrite mk_rm in *; tauto.
  - intros q words (n & H1 & _ & -> & _). destruct H1; cbn [q_where]; all_keys.
Qed.
Lemma std_near_limits w sp tr k rg man c ds l id number :
  lints w sp tr k rg man c ds id l -> documented (template c) ->
  In (id, number) [("I7010", "7010"); ("I7011", "7011"); ("I7012", "7012"); ("I6010", "6010"); ("I6011", "6011"); ("I6012", "6012");
    ("I2010", "2010"); ("I2011", "2011"); ("I2012", "2012"); ("I3010", "3010"); ("I3012", "3011"); ("I1002", "1002"); ("I1003", "1003")] ->
  tells_exactly c man ds l id (fun q words => exists n, limited (template c) (w_size w (c_file c)) number n /\ approaches n /\ q = q_where n /\
    words = q_what n ++ " (" ++ str_of_Z (q_size n) ++ q_unit n ++ ") is approaching the limit (" ++ str_of_Z (q_limit n) ++ q_unit n ++ ")").
Proof.
  intros Hl Hd Hi.
  assert (Hn : In number numbers) by (cbn [In] in Hi; repeat destruct Hi as [Hi|Hi]; try injection Hi as <- <-; [cbn; tauto ..|destruct Hi]).
  destruct (c23_all (template c) (w_size w (c_file c)) Hd number Hn) as (es & is & _ & E & _ & H).
  apply (tells_as w sp tr k rg man c ds l id (Ok is) (fun m => In m is)); [exact Hl | | exists is; split; [reflexivity | reflexivity] | |].
  - assert (K : checks_by w c id (match limit_rule (template c) Approaches (w_size w (c_file c)) number with Some r => r | None => Err EKey end)).
    { cbn [In] in Hi. repeat destruct Hi as [Hi|Hi]; try injection Hi as <- <-; [by_id ..|destruct Hi]. }
    now rewrite E in K.
  - intros q words. rewrite H. split; intros (n & H1 & H2 & Hx); exists n; rewrite mk_rm in *; tauto.
  - intros q words (n & H1 & _ & -> & _). destruct H1; cbn [q_where]; all_keys.
Qed.
Lemma std_E1012 w sp tr k rg man c ds l ms :
  lints w sp tr k rg man c ds "E1012" l ->
  wf (template c) -> plain_sections (template c) -> at_path [PKey "Ref"] (template c) = None -> ref_exist_match (template c) (VDict []) = Ok ms ->
  tells_exactly c man ds l "E1012" (fun q words => exists s, at_path (q ++ [PKey "Ref"])%list (template c) = Some (VStr s) /\
    words = "Ref " ++ s ++ " not found as a resource or parameter" /\
    forall n rest, References.names (template c) n \/ References.module (template c) n -> s <> n ++ rest).
Proof.
  intros Hl Hw Hp Hroot E. destruct (lints_before _ _ _ _ _ _ _ _ _ _ Hl) as [_ Hg].
  apply (tells_as w sp tr k rg man c ds l "E1012" (ref_exist_match (template c) (w_globals w c)) (fun m => In m ms)); [exact Hl | by_id | | |].
  - rewrite Hg. exists ms. split; [exact E | reflexivity].
  - intros q words. rewrite (c21_exact _ _ Hw wf_empty Hp ms _ E). split.
    + intros (p & s & Ho & Hm & Hn). apply mk_rm in Hm as [-> ->]. exists s. split; [|auto]. exact (occurs_here "Ref" _ _ _ Ho).
    + intros (s & Ho & -> & Hn). exists q, s. auto.
  - intros q words (s & Ho & _). assert (q <> []) by (intros ->; cbn [app] in Ho; congruence). split; [assumption|].
    rewrite at_path_app in Ho. destruct (at_path q (template c)) as [x|] eqn:Ex; [|discriminate]. exact (at_path_indices _ _ _ Ex).
Qed.

Lemma std_E2001 w sp tr k rg man c ds l ps :
  lints w sp tr k rg man c ds "E2001" l ->
  wf (template c) -> section (template c) "Parameters" ps -> (forall n x, In (n, x) ps -> exists def, x = VDict def) ->
  tells_exactly c man ds l "E2001" (fun q words =>
    exists n def, In (n, VDict def) ps /\ parameter_fault n def q words).
Proof.
  intros Hl. destruct (lints_before _ _ _ _ _ _ _ _ _ _ Hl) as [Hb Hg]. intros H1 H2 H3.
  apply (tells_as w sp tr k rg man c ds l "E2001" (parameter_configuration_match (template c)) (fun m => exists n def, In (n, VDict def) ps /\ parameter_fault n def (rm_path m) (rm_msg m))); [exact Hl | by_id | | |].
  - now apply parameters_spec.
  - intros q words. reflexivity.
  - intros q words. intros (n & def & Hi & Hx). inversion Hx; subst; try solve [all_keys].
    apply (place_ok c _ x); [|discriminate]. destruct H2 as [d [Et Ed]]. rewrite Et in *. apply wf_dict in H1 as [_ H1]. apply assoc_In in Ed as Ed'. apply H1 in Ed'.
    apply wf_dict in Ed' as [N2 W2]. apply W2 in Hi as W3. apply wf_dict in W3 as [N3 _]. cbn [at_path].
    rewrite Ed. cbn [at_path]. rewrite (In_assoc _ _ _ N2 Hi). cbn [at_path]. rewrite (In_assoc _ _ _ N3 H). cbn [at_path]. rewrite H0. reflexivity.
Qed.

Lemma std_E6001 w sp tr k rg man c ds l os :
  lints w sp tr k rg man c ds "E6001" l ->
  section (template c) "Outputs" os ->
  (forall n x, In (n, x) os -> exists def, x = VDict def /\ filled def /\ forall x, assoc "Export" def = Some (VDict [("Name", x)]) -> ~ empty x) ->
  tells_exactly c man ds l "E6001" (fun q words =>
    exists n def, In (n, VDict def) os /\ output_fault (w_funcs_text w) n def q words).
Proof.
  intros Hl. destruct (lints_before _ _ _ _ _ _ _ _ _ _ Hl) as [Hb Hg]. intros H1 H2.
  apply (tells_as w sp tr k rg man c ds l "E6001" (output_configuration_match (w_funcs_text w) (template c)) (fun m => exists n def, In (n, VDict def) os /\ output_fault (w_funcs_text w) n def (rm_path m) (rm_msg m))); [exact Hl | by_id | | |].
  - now apply outputs_spec.
  - intros q words. reflexivity.
  - intros q words. intros (n & def & Hi & Hx). inversion Hx; subst; all_keys.
Qed.

Lemma std_E7001 w sp tr k rg man c ds l ms :
  lints w sp tr k rg man c ds "E7001" l ->
  section (template c) "Mappings" ms ->
  tells_exactly c man ds l "E7001" (fun q words =>
    exists n v, In (n, v) ms /\ mapping_fault (py_str (w_str w)) n v q words).
Proof.
  intros Hl. destruct (lints_before _ _ _ _ _ _ _ _ _ _ Hl) as [Hb Hg]. intros H1.
  apply (tells_as w sp tr k rg man c ds l "E7001" (mapping_configuration_match (w_str w) (template c)) (fun m => exists n v, In (n, v) ms /\ mapping_fault (py_str (w_str w)) n v (rm_path m) (rm_msg m))); [exact Hl | by_id | | |].
  - now apply mappings_spec.
  - intros q words. reflexivity.
  - intros q words. intros (n & v & Hi & Hx). inversion Hx; subst; all_keys.
Qed.

Lemma std_E3001 w sp tr k rg man c ds l rs :
  lints w sp tr k rg man c ds "E3001" l ->
  section (template c) "Resources" rs ->
  (forall n def, In (n, VDict def) rs -> In "Properties" (map fst def) \/ known_regions (w_specs w) (w_regions w)) ->
  tells_exactly c man ds l "E3001" (fun q words =>
    exists n v, In (n, v) rs /\ resource_fault (w_specs w) (w_registry_names w) (w_regions w) n v q words).
Proof.
  intros Hl. destruct (lints_before _ _ _ _ _ _ _ _ _ _ Hl) as [Hb Hg]. intros H1 H2.
  apply (tells_as w sp tr k rg man c ds l "E3001" (resource_configuration_match (w_specs w) (w_registry_names w) (w_regions w) (template c)) (fun m => exists n v, In (n, v) rs /\ resource_fault (w_specs w) (w_registry_names w) (w_regions w) n v (rm_path m) (rm_msg m))); [exact Hl | by_id | | |].
  - now apply resources_spec.
  - intros q words. reflexivity.
  - intros q words. intros (n & v & Hi & Hx). inversion Hx; subst; all_keys.
Qed.

Lemma std_E3005 w sp tr k rg man c ds l  :
  lints w sp tr k rg man c ds "E3005" l ->
  wf (template c) -> depends_given (template c) -> plain_conditions (template c) ->
  (forall n o, resource (template c) n o -> n <> "Fn::If" /\ assoc "Condition" o = None) ->
  tells_exactly c man ds l "E3005" (fun q words =>
    exists n v, depends_entry (template c) n q v /\ depends_fault (template c) q v words).
Proof.
  intros Hl. destruct (lints_before _ _ _ _ _ _ _ _ _ _ Hl) as [Hb Hg]. intros H1 H2 H3 H4.
  apply (tells_as w sp tr k rg man c ds l "E3005" (depends_on_match (w_order w) (load (w_hash w) (w_fuel w) (template c)) (template c)) (fun m => exists n v, depends_entry (template c) n (rm_path m) v /\ depends_fault (template c) (rm_path m) v (rm_msg m))); [exact Hl | by_id | | |].
  - now apply c38_plain.
  - intros q words. reflexivity.
  - intros q words. intros (n & v0 & He & _). destruct He as [o v Hr E Hl0|o lst i v Hr E Hi]; [all_keys|].
    apply (place_ok c _ v); [|discriminate]. destruct Hr as [[d [m [Et [D1 D2]]]] _]. rewrite Et. cbn [at_path]. rewrite D1. cbn [at_path]. rewrite D2. cbn [at_path].
    rewrite E. cbn [at_path]. now rewrite Hi.
Qed.

Lemma std_W3005 w sp tr k rg man c ds l  :
  lints w sp tr k rg man c ds "W3005" l ->
  wf (template c) -> depends_given (template c) ->
  (forall n p v, depends_entry (template c) n p v -> exists s, v = VStr s) ->
  (forall p v, occurs "Fn::GetAtt" (template c) (VDict []) p v -> exists s rest, v = VList (VStr s :: rest)) ->
  tells_exactly c man ds l "W3005" (fun q words =>
    exists n s why at_, depends_entry (template c) n q (VStr s) /\ refers (template c) (VDict []) n s why at_ /\
      words = "Obsolete DependsOn on resource (" ++ s ++ "), dependency already enforced by a """ ++ why ++ """ at " ++ shown at_).
Proof.
  intros Hl. destruct (lints_before _ _ _ _ _ _ _ _ _ _ Hl) as [Hb Hg]. intros H1 H2 H3 H4.
  apply (tells_as w sp tr k rg man c ds l "W3005" (obsolete_match (w_str w) (template c) (w_globals w c)) (fun m => exists n p s why q, depends_entry (template c) n p (VStr s) /\ refers (template c) (VDict []) n s why q /\ m = mkRM p ("Obsolete DependsOn on resource (" ++ s ++ "), dependency already enforced by a """ ++ why ++ """ at " ++ shown q))); [exact Hl | by_id | | |].
  - rewrite Hg. apply c38_obsolete; auto using wf_empty.
  - intros q words. split; [intros (n & p & s & why & at_ & H5 & H6 & H7); apply mk_rm in H7 as [-> ->]; exists n, s, why, at_; auto | intros (n & s & why & at_ & H5 & H6 & ->); exists n, q, s, why, at_; auto].
  - intros q words. intros (n & s & why & at_ & He & _). remember (VStr s) as v0 eqn:Q. clear Q. destruct He as [o v Hr E Hl0|o lst i v Hr E Hi]; [all_keys|].
    apply (place_ok c _ v); [|discriminate]. destruct Hr as [[d [m [Et [D1 D2]]]] _]. rewrite Et. cbn [at_path]. rewrite D1. cbn [at_path]. rewrite D2. cbn [at_path].
    rewrite E. cbn [at_path]. now rewrite Hi.
Qed.

Lemma std_W4002 w sp tr k rg man c ds l ps :
  lints w sp tr k rg man c ds "W4002" l ->
  wf (template c) -> section (template c) "Parameters" ps ->
  (forall n x, In (n, x) ps -> n <> "" /\ alphanumeric n /\ exists def, x = VDict def) ->
  (forall p s, occurs "Fn::Sub" (template c) (VDict []) p (VStr s) -> closed s) ->
  tells_exactly c man ds l "W4002" (fun q words =>
    exists n, hidden (template c) n /\ words = "As the resource ""metadata"" section contains reference to a ""NoEcho"" parameter " ++ n ++ ", CloudFormation will display the parameter value in plaintext" /\
      exists p, (occurs "Ref" (template c) (VDict []) p (VStr n) /\ in_resource_metadata (p ++ [PKey "Ref"])%list /\ q = (p ++ [PKey "Ref"; PKey n])%list) \/
        (exists s, occurs "Fn::Sub" (template c) (VDict []) p (VStr s) /\ placeholder_in n s /\ in_resource_metadata (p ++ [PKey "Fn::Sub"])%list /\ q = (p ++ [PKey "Fn::Sub"])%list)).
Proof.
  intros Hl. destruct (lints_before _ _ _ _ _ _ _ _ _ _ Hl) as [Hb Hg]. intros H1 H2 H3 H4.
  apply (tells_as w sp tr k rg man c ds l "W4002" (no_echo_match (template c) (w_globals w c)) (fun m => exists n, hidden (template c) n /\ rm_msg m = "As the resource ""metadata"" section contains reference to a ""NoEcho"" parameter " ++ n ++ ", CloudFormation will display the parameter value in plaintext" /\ exists p, (occurs "Ref" (template c) (VDict []) p (VStr n) /\ in_resource_metadata (p ++ [PKey "Ref"])%list /\ rm_path m = (p ++ [PKey "Ref"; PKey n])%list) \/ (exists s, occurs "Fn::Sub" (template c) (VDict []) p (VStr s) /\ placeholder_in n s /\ in_resource_metadata (p ++ [PKey "Fn::Sub"])%list /\ rm_path m = (p ++ [PKey "Fn::Sub"])%list))); [exact Hl | by_id | | |].
  - rewrite Hg. apply (c47_all _ _ ps); auto using wf_empty.
  - intros q words. reflexivity.
  - intros q words. intros (n & _ & _ & p & [(Ho & _ & ->)|(s & Ho & _ & _ & ->)]); apply occurs_here in Ho.
    + split; [intros K; apply app_eq_nil in K as [_ K]; discriminate K|].
      change [PKey "Ref"; PKey n] with ([PKey "Ref"] ++ [PKey n])%list. rewrite app_assoc. apply (indices_text c _ n); [exact Ho | exact I].
    + apply (parts_ok c p (PKey "Fn::Sub") _ Ho).
Qed.

Lemma std_E5001 w sp tr k rg man c ds l  :
  lints w sp tr k rg man c ds "E5001" l ->
  wf (template c) -> (forall n o, resource (template c) n o -> exists t, assoc "Type" o = Some (VStr t)) ->
  (forall n o key v s, resource (template c) n o -> key <> "Type" -> assoc key o = Some v -> py_str (w_str w) v <> s ++ "::MODULE") ->
  (forall n o v, module (template c) n o -> assoc "Properties" o = Some v -> exists ps, v = VDict ps) ->
  (forall v, ~ occurs "AWS::CloudFormation::Module" (template c) (VDict []) [] v) ->
  tells_exactly c man ds l "E5001" (fun q words =>
    module_fault (template c) (VDict []) q words).
Proof.
  intros Hl. destruct (lints_before _ _ _ _ _ _ _ _ _ _ Hl) as [Hb Hg]. intros H1 H2 H3 H4 H5.
  apply (tells_as w sp tr k rg man c ds l "E5001" (modules_match (w_str w) (template c) (w_globals w c)) (fun m => module_fault (template c) (VDict []) (rm_path m) (rm_msg m))); [exact Hl | by_id | | |].
  - rewrite Hg. apply c48_all; auto using wf_empty.
  - intros q words. reflexivity.
  - intros q words. intros Hx. destruct Hx as [n o ps0 _ _ _|n o key _ _ _|n o p v r _ Ho _]; [all_keys | all_keys |]. apply occurs_here in Ho. exact (parts_ok c p _ _ Ho).
Qed.

Lemma std_E6003 w sp tr k rg man c ds l  :
  lints w sp tr k rg man c ds "E6003" l ->
  wf (template c) -> typed_section (template c) "Resources" -> typed_section (template c) "Parameters" ->
  (forall f p v q, In f ["Ref"; "Fn::GetAtt"] -> occurs f (template c) (VDict []) p v -> p = PKey "Outputs" :: q -> exists n x r, q = PKey n :: x :: r) ->
  (forall p v, occurs "Fn::GetAtt" (template c) (VDict []) p v -> exists r a, v = VList [VStr r; VStr a]) ->
  (forall p v, occurs "Ref" (template c) (VDict []) p v -> exists n, v = VStr n) ->
  tells_exactly c man ds l "E6003" (fun q words =>
    exists n p, in_output_value p n /\ ~ consumed p /\
      ((exists r a, occurs "Fn::GetAtt" (template c) (VDict []) p (VList [VStr r; VStr a]) /\ list_attribute (w_attribute w) (template c) r a /\
          q = (p ++ [PKey "Fn::GetAtt"])%list /\ words = "Output " ++ n ++ " value " ++ r ++ "/" ++ a ++ " is of type list") \/
       (exists s, occurs "Ref" (template c) (VDict []) p (VStr s) /\ list_parameter (template c) s /\
          q = (p ++ [PKey "Ref"])%list /\ words = "Output " ++ n ++ " value " ++ s ++ " is of type list"))).
Proof.
  intros Hl. destruct (lints_before _ _ _ _ _ _ _ _ _ _ Hl) as [Hb Hg]. intros H1 H2 H3 H4 H5 H6.
  apply (tells_as w sp tr k rg man c ds l "E6003" (output_value_match (w_str w) (template c) (w_globals w c) (w_attribute w)) (fun m => exists n p, in_output_value p n /\ ~ consumed p /\
    ((exists r a, occurs "Fn::GetAtt" (template c) (VDict []) p (VList [VStr r; VStr a]) /\ list_attribute (w_attribute w) (template c) r a /\
        m = mkRM (p ++ [PKey "Fn::GetAtt"])%list ("Output " ++ n ++ " value " ++ r ++ "/" ++ a ++ " is of type list")) \/
     (exists q, occurs "Ref" (template c) (VDict []) p (VStr q) /\ list_parameter (template c) q /\
        m = mkRM (p ++ [PKey "Ref"])%list ("Output " ++ n ++ " value " ++ q ++ " is of type list"))))); [exact Hl | by_id | | |].
  - rewrite Hg. apply c49_all; auto using wf_empty.
  - intros q words. split; intros (n & p & H7 & H8 & H9); exists n, p; (split; [exact H7|]); (split; [exact H8|]); (destruct H9 as [(r & a & H9)|(s & H9)]; [left; exists r, a | right; exists s]); rewrite mk_rm in *; exact H9.
  - intros q words. intros (n & p & _ & _ & [(r & a & Ho & _ & -> & _)|(s & Ho & _ & -> & _)]); apply occurs_here in Ho; eapply parts_ok; exact Ho.
Qed.
