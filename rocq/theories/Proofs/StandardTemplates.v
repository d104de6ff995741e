(** Findings of further shipped rules that look at whole templates, in whole runs (C97). *)
From Coq Require Import QArith Permutation Relations.
From Verif.Model Require Import Base Node Locate Helpers Rules Runner Config Core Limits Shape Parameters Refs Graph ConditionRules Relationship Policies ValueRules UpdatePolicy Interface Registry Functions ParameterValues Standard.
From Verif.Spec Require Import Pipeline Paths References Walk Limited ConditionUse Faults Protect Interface Registry Dependencies Sensitive ParameterValues UpdatePolicy Shipped ShippedPlaces.
From Verif.Proofs Require Import BaseFacts SearchProofs PropertyRuleProofs ActionMain Places LimitProofs RefProofs GraphProofs ShapeProofs ConditionUseProofs PolicyProofs InterfaceProofs UpdatePolicyProofs
  RegistryMain SensitiveProofs ParameterValueProofs StandardProofs StandardRules StandardPlaces.
Import Verif.Model.Rules.
Local Open Scope string_scope.

Lemma fine_there c q : q <> [] -> (exists x, at_path q (template c) = Some x) -> q <> [] /\ indices_ok (c_tmpl c) q.
Proof. intros H1 [x H2]. exact (place_ok c q x H2 H1). Qed.

Lemma tmpl_E7003 w sp tr k rg man c ds l ms : lints w sp tr k rg man c ds "E7003" l -> section (template c) "Mappings" ms ->
  (forall n m k x a y, In (n, VDict m) ms -> In (k, VDict x) m -> In (a, y) x -> forall t, a <> (t ++ String "010" "")) ->
  tells_exactly c man ds l "E7003" (fun q words => exists n m k x a y, In (n, VDict m) ms /\ In (k, VDict x) m /\ In (a, y) x /\ ~ alphanumeric a /\
    q = [PKey "Mappings"; PKey n; PKey k; PKey a] /\ words = "Mapping key (" ++ a ++ ") has invalid name. Name has to be alphanumeric.").
Proof.
  intros Hl H1 H2. eapply (tells_as w sp tr k rg man c ds l "E7003"); [exact Hl | by_id | exact (c24_keys (template c) ms H1 H2) | |].
  - intros q words. cbv beta. setoid_rewrite mk_rm. reflexivity.
  - intros q words (n & m & kk & x & a & y & _ & _ & _ & _ & -> & _). all_keys.
Qed.
Lemma tmpl_E1001 w sp tr k rg man c ds l d : lints w sp tr k rg man c ds "E1001" l -> template c = VDict d ->
  tells_exactly c man ds l "E1001" (template_fault d).
Proof.
  intros Hl E. eapply (tells_as w sp tr k rg man c ds l "E1001" _ (fun m => template_fault d (rm_path m) (rm_msg m))); [exact Hl | by_id | | intros q words; reflexivity |].
  - rewrite E. eexists. split; [reflexivity|]. exact (base_spec d).
  - intros q words H. destruct H; all_keys.
Qed.
Lemma tmpl_E1004 w sp tr k rg man c ds l d : lints w sp tr k rg man c ds "E1004" l -> template c = VDict d ->
  tells_exactly c man ds l "E1004" (fun q words => (exists v, assoc "Description" d = Some v /\ (forall s, v <> VStr s) /\ ~ empty v) /\ q = [PKey "Description"] /\ words = "Description can only be a string").
Proof.
  intros Hl E. eapply (tells_as w sp tr k rg man c ds l "E1004"); [exact Hl | by_id | rewrite E; exact (description_spec d) | |].
  - intros q words. cbv beta. setoid_rewrite mk_rm. reflexivity.
  - intros q words (_ & -> & _). all_keys.
Qed.
Lemma tmpl_E2014 w sp tr k rg man c ds l : lints w sp tr k rg man c ds "E2014" l -> wf (template c) ->
  tells_exactly c man ds l "E2014" (fun q words => exists p v, occurs "Ref" (template c) (VDict []) (PKey "Parameters" :: p) v /\
    q = (PKey "Parameters" :: p ++ [PKey "Ref"])%list /\ words = "Invalid value (" ++ py_str (w_str w) v ++ "), Ref cannot be used in Parameters").
Proof.
  intros Hl Hw. destruct (lints_before _ _ _ _ _ _ _ _ _ _ Hl) as [_ Hg].
  eapply (tells_as w sp tr k rg man c ds l "E2014"); [exact Hl | by_id | rewrite Hg; eexists; split; [reflexivity|]; exact (default_ref_spec (w_str w) (template c) (VDict []) Hw wf_empty) | |].
  - intros q words. cbv beta. setoid_rewrite mk_rm. reflexivity.
  - intros q words (p & v & H & -> & _). exact (place_ok c _ v (occurs_here _ _ (PKey "Parameters" :: p) _ H) ltac:(discriminate)).
Qed.
Lemma tmpl_E4001 w sp tr k rg man c ds l i : lints w sp tr k rg man c ds "E4001" l -> interface_shaped (template c) i ->
  tells_exactly c man ds l "E4001" (fun q words => exists key, stray_key (template c) q key /\ words = "Metadata Interface has invalid property " ++ key).
Proof.
  intros Hl Hi. eapply (tells_as w sp tr k rg man c ds l "E4001"); [exact Hl | by_id | exact (c68_keys (w_str w) (template c) i Hi) | |].
  - intros q words. unfold stray_match. setoid_rewrite mk_rm. split; [intros (p & key & H & -> & ->); eauto | intros (key & H & ->); exists q, key; auto].
  - intros q words (key & H & _). destruct (stray_key_there _ _ _ H). now apply fine_there.
Qed.
Lemma tmpl_W4001 w sp tr k rg man c ds l i : lints w sp tr k rg man c ds "W4001" l -> interface_shaped (template c) i ->
  tells_exactly c man ds l "W4001" (fun q words => exists v, stray_name (template c) q v /\ words = "Metadata Interface parameter doesn't exist " ++ py_str (w_str w) v).
Proof.
  intros Hl Hi. eapply (tells_as w sp tr k rg man c ds l "W4001"); [exact Hl | by_id | exact (c68_names (w_str w) (template c) i Hi) | |].
  - intros q words. unfold absent_match. setoid_rewrite mk_rm. split; [intros (p & v & H & -> & ->); eauto | intros (v & H & ->); exists q, v; auto].
  - intros q words (v & H & _). destruct (stray_name_there _ _ _ H). now apply fine_there.
Qed.
Lemma tmpl_E3016 w sp tr k rg man c ds l : lints w sp tr k rg man c ds "E3016" l -> wf (template c) ->
  (forall name t u, has_policy (template c) name t u -> policy_shaped u (policy_place name)) ->
  tells_exactly c man ds l "E3016" (fun q words => exists name t u place, has_policy (template c) name t u /\ policy_fault t u (policy_place name) place q words).
Proof.
  intros Hl Hw Hs. eapply (tells_as w sp tr k rg man c ds l "E3016"); [exact Hl | by_id | exact (c70_judged (template c) Hw Hs) | |].
  - intros q words. cbv beta. setoid_rewrite mk_rm. split; [intros (name & t & u & place & shown & ws & H1 & H2 & -> & ->); eauto 6 | intros (name & t & u & place & H1 & H2); exists name, t, u, place, q, words; auto].
  - intros q words (name & t & u & place & H1 & H2). apply (fault_shown c u (policy_place name) t place q words Hw (policy_at _ _ _ _ Hw H1)); [discriminate | exact H2].
Qed.
Lemma tmpl_E3000 w sp tr k rg man c ds l d : lints w sp tr k rg man c ds "E3000" l -> plain_float (w_float_text w) -> template c = VDict d ->
  (forall schema, In schema (w_registry w) -> exists ty, schema_of schema ty) ->
  (forall schema ty name props, In schema (w_registry w) -> schema_of schema ty -> typed_resource (template c) name ty props ->
     is_str props = false /\ closed_references props /\ (with_dynamic props \/ with_syntax props \/ exists r, w_validate w props schema = Ok r)) ->
  tells_exactly c man ds l "E3000" (fun q words => exists schema ty name props, In schema (w_registry w) /\ schema_of schema ty /\ typed_resource (template c) name ty props /\
    ~ with_syntax props /\ ~ with_dynamic props /\ w_validate w props schema = Ok (Some words) /\ q = [PKey "Resources"; PKey name; PKey "Properties"]).
Proof.
  intros Hl Hf E H1 H2. eapply (tells_as w sp tr k rg man c ds l "E3000"); [exact Hl | by_id | exact (c87 (w_float_text w) Hf (w_validate w) (w_registry w) (template c) d E H1 H2) | |].
  - intros q words. cbv beta. setoid_rewrite mk_rm. split; [intros (s & ty & n & p & msg & K1 & K2 & K3 & K4 & K5 & K6 & -> & ->); exists s, ty, n, p; auto 8 | intros (s & ty & n & p & K1 & K2 & K3 & K4 & K5 & K6 & ->); exists s, ty, n, p, words; auto 8].
  - intros q words (s & ty & n & p & _ & _ & _ & _ & _ & _ & ->). all_keys.
Qed.
(** One resource stands for all that need the transform. *)
Lemma tmpl_E3038 w sp tr k rg man c ds l d : lints w sp tr k rg man c ds "E3038" l -> wf (template c) -> template c = VDict d ->
  tells_each c man ds l "E3038" (fun _ : unit => ~ serverless (template c) /\ exists n t, serverless_resource (template c) n t)
    (fun _ q words => q = [PKey "Transform"] /\ exists n t, serverless_resource (template c) n t /\ words = "Serverless Transform required for Type " ++ t ++ " for resource " ++ n).
Proof.
  intros Hl Hw E. destruct (c46_serverless (template c) Hw (ex_intro _ d E)) as (ms & E1 & H1 & H2).
  eapply (tells_faults w sp tr k rg man c ds l "E3038" _ ms _ _ Hl); [by_id | exact E1 | | |].
  - intros m Hm. exists tt. destruct (H2 m Hm) as (Em & n & t & K & ->). cbn [rm_path rm_msg]. split; [|eauto 6]. split; [|eauto]. intros Hs. rewrite (proj2 H1 (or_introl Hs)) in Hm. destruct Hm.
  - intros _ [Hn (n & t & K)]. destruct ms as [|m ms].
    + exfalso. destruct (proj1 H1 eq_refl) as [H|H]; [exact (Hn H) | exact (H n t K)].
    + exists m. split; [now left|]. destruct (H2 m (or_introl eq_refl)) as (_ & n' & t' & K' & ->). cbn [rm_path rm_msg]. eauto.
  - intros m Hm. destruct (H2 m Hm) as (_ & n & t & _ & ->). cbn [rm_path]. all_keys.
Qed.
(** Each cycle that can be reached is told of at one of its resources at least. *)
Lemma tmpl_E3004 w sp tr k rg man c ds l : lints w sp tr k rg man c ds "E3004" l -> finds_cycles (w_find_cycle w) -> wf (template c) -> plain_functions (template c) ->
  tells_each c man ds l "E3004" (fun a => clos_trans _ (depends (template c)) a a)
    (fun a q words => exists x y, clos_refl_trans _ (depends (template c)) a x /\ depends (template c) x y /\ clos_refl_trans _ (depends (template c)) y x /\
       q = [PKey "Resources"; PKey x] /\ words = "Circular Dependencies for resource " ++ x ++ ". Circular dependency with [" ++ y ++ "]").
Proof.
  intros Hl Hf Hw Hp. destruct (lints_before _ _ _ _ _ _ _ _ _ _ Hl) as [_ Hg].
  destruct (c20_total (w_find_cycle w) (template c) (VDict []) Hw wf_empty eq_refl Hp) as [ms E].
  pose proof (fun m => c20_sound (w_find_cycle w) (template c) (VDict []) Hf Hw wf_empty eq_refl Hp ms m E) as Hs.
  eapply (tells_faults w sp tr k rg man c ds l "E3004" _ ms _ _ Hl); [by_id | rewrite Hg; exact E | | |].
  - intros m Hm. destruct (Hs m Hm) as (a & b & -> & K1 & K2). exists a. split; [|exists a, b; cbn [rm_path rm_msg]; repeat split; auto; apply rt_refl].
    assert (G : forall z, clos_refl_trans _ (depends (template c)) b z -> clos_trans _ (depends (template c)) a z); [|exact (G a K2)].
    intros z K. apply clos_rt_rtn1 in K. induction K as [|y z K3 _ IH]; [now apply t_step | exact (t_trans _ _ _ _ _ IH (t_step _ _ _ _ K3))].
  - intros a Ha. destruct (c20_complete (w_find_cycle w) (template c) (VDict []) Hf Hw wf_empty eq_refl Hp ms a a E (rt_refl _ _ _) Ha) as (x & y & K1 & K2 & K3 & K4).
    eexists. split; [exact K1|]. cbn [rm_path rm_msg]. exists x, y. auto.
  - intros m Hm. destruct (Hs m Hm) as (a & b & -> & _). cbn [rm_path]. all_keys.
Qed.
Lemma tmpl_W2501 w sp tr k rg man c ds l : lints w sp tr k rg man c ds "W2501" l -> wf (template c) -> plain_sections (template c) -> no_stray (template c) (VDict []) ->
  tells_exactly c man ds l "W2501" (fun q words => exists prop p v, In prop password_names /\ occurs prop (template c) (VDict []) p v /\ into_properties p /\
    password_fault (template c) prop (p ++ [PKey prop])%list v q words).
Proof.
  intros Hl Hw Hp Hn. destruct (lints_before _ _ _ _ _ _ _ _ _ _ Hl) as [_ Hg].
  eapply (tells_as w sp tr k rg man c ds l "W2501"); [exact Hl | by_id | rewrite Hg; exact (c63_passwords (template c) (VDict []) Hw wf_empty Hp Hn) | |].
  - intros q words. cbv beta. setoid_rewrite mk_rm. split; [intros (prop & p & v & at_ & ws & K1 & K2 & K3 & K4 & -> & ->); exists prop, p, v; auto | intros (prop & p & v & K1 & K2 & K3 & K4); exists prop, p, v, q, words; auto 8].
  - intros q words (prop & p & v & _ & K2 & _ & K4). destruct K4 as [s _|s _ _|d _|n _]; try (exact (parts_ok c p _ _ (occurs_here _ _ _ _ K2))). all_keys.
Qed.
Lemma tmpl_W2506 w sp tr k rg man c ds l : lints w sp tr k rg man c ds "W2506" l -> wf (template c) -> plain_sections (template c) -> image_parameters_only (template c) ->
  (forall p y, occurs "ImageId" (template c) (VDict []) p (VDict [("Ref", y)]) -> into_resources p -> exists n, y = VStr n /\ (unambiguous (template c) n \/ unknown (template c) n)) ->
  tells_exactly c man ds l "W2506" (fun q words => exists p v, occurs "ImageId" (template c) (VDict []) p v /\ into_resources p /\ image_fault (template c) (p ++ [PKey "ImageId"])%list v q words).
Proof.
  intros Hl Hw Hp Hi Hr. destruct (lints_before _ _ _ _ _ _ _ _ _ _ Hl) as [_ Hg].
  eapply (tells_as w sp tr k rg man c ds l "W2506"); [exact Hl | by_id | rewrite Hg; exact (c64_images (template c) (VDict []) Hw wf_empty Hp Hi Hr) | |].
  - intros q words. cbv beta. setoid_rewrite mk_rm. split; [intros (p & v & at_ & ws & K1 & K2 & K3 & -> & ->); exists p, v; auto | intros (p & v & K1 & K2 & K3); exists p, v, q, words; auto 8].
  - intros q words (p & v & K1 & _ & K3). destruct K3 as [d _|n _ _]; [exact (parts_ok c p _ _ (occurs_here _ _ _ _ K1)) | all_keys].
Qed.
Lemma tmpl_W6001 w sp tr k rg man c ds l : lints w sp tr k rg man c ds "W6001" l -> wf (template c) ->
  tells_exactly c man ds l "W6001" (fun q words => exists p n v, occurs "Fn::ImportValue" (template c) (VDict []) p v /\ q = (p ++ [PKey "Fn::ImportValue"])%list /\ imported_output q n /\
    words = "The value of output (" ++ str_of_pelem n ++ ") is imported from another output (" ++ py_str (w_str w) v ++ ")").
Proof.
  intros Hl Hw. destruct (lints_before _ _ _ _ _ _ _ _ _ _ Hl) as [_ Hg].
  eapply (tells_as w sp tr k rg man c ds l "W6001"); [exact Hl | by_id | rewrite Hg; eexists; split; [reflexivity|]; exact (c69_imports (w_str w) (template c) (VDict []) Hw wf_empty) | |].
  - intros q words. unfold import_finding. setoid_rewrite mk_rm. split; [intros (p & n & v & K1 & K2 & -> & ->); exists p, n, v; auto | intros (p & n & v & K1 & -> & K2 & ->); exists p, n, v; auto].
  - intros q words (p & n & v & K1 & -> & _ & _). exact (parts_ok c p _ _ (occurs_here _ _ _ _ K1)).
Qed.
