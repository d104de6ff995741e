(** What the shipped rules that have settings, are experimental, or look for repeated items tell in a run (C99). *)
From Coq Require Import Lia Permutation.
From Verif.Model Require Import Base Node Locate Helpers Conditions Search Resolve Rules Runner Config Core Relationship Parameters JsonDump PropertyRules ValueRules SubNeeded Iam Standard.
From Verif.Spec Require Import Pipeline Paths Branches References Walk ShippedChecks Required Truth Resolved Groups SameJson Values Substitution Iam Permissions Shipped Configured.
From Verif.Proofs Require Import BaseFacts BranchProofs SearchProofs PropertyRuleProofs ConditionProofs ResolveProofs SetProofs GroupProofs Places DuplicateProofs SizeProofs ValueProofs PrimitiveProofs SubstitutionProofs PolicyProofs ParameterValueProofs PermissionProofs Says StandardProofs StandardRules StandardChecks StandardObjects StandardProps StandardNested StandardSettings.
Import Verif.Model.Rules.
Import ListNotations.
Local Open Scope string_scope.

(** * Variables that nothing substitutes *)
Lemma set_variables w sp tr k rg man c ds l cfg r : lints_with w sp tr k rg man c ds "E1029" false cfg l -> wf (template c) ->
  assoc "custom_excludes" cfg = Some (VStr r) -> (forall d, template c = VDict d -> assoc "Globals" d = None) -> plain_definitions (template c) ->
  tells_exactly c man ds l "E1029" (fun q words => exists s n, at_path q (template c) = Some (VStr s) /\ has_variable s n /\ ~ excused (template c) q n /\ ~ spared (w_matches w) r n /\
    words = "Found an embedded parameter """ ++ ("${" ++ n ++ "}") ++ """ outside of an ""Fn::Sub"" at " ++ path_text q).
Proof.
  intros Hl Hw Hcfg Hg Hp. assert (Ht : exists d, template c = VDict d) by (destruct Hl as (_ & _ & _ & _ & _ & _ & (m & d & E) & _); unfold template; rewrite E; eexists; reflexivity).
  destruct Ht as [d Hd]. set (M := fun m => exists q s n, at_path q (template c) = Some (VStr s) /\ has_variable s n /\ ~ excused (template c) q n /\ ~ spared (w_matches w) r n /\ m = unsubstituted_at q n).
  assert (HM : says (sub_needed_match (template c) (w_matches w) cfg) M).
  { destruct (c67_plain _ (w_matches w) cfg r d Hd Hw Hcfg (Hg d Hd) Hp) as [ms Hms]. exists ms. split; [exact Hms|]. intros m. rewrite (c67_exact _ _ cfg r d ms Hd Hw Hcfg Hms m). unfold M. split.
    - intros (p & s & n & q & [H1|H1] & H2 & H3 & H4 & H5 & ->); [|rewrite Hd in H1; cbn [at_path] in H1; rewrite (Hg d Hd) in H1; discriminate H1].
      specialize (Hp p s n H1 H2). destruct H5 as [p _|p a b [-> _]]; [exists p, s, n; auto 6 | elim Hp; unfold below; rewrite in_app_iff; right; now left].
    - intros (q & s & n & H1 & H2 & H3 & H4 & ->). exists q, s, n, q. split; [now left|]. split; [exact H2|]. split; [exact H3|]. split; [exact H4|]. split; [|reflexivity]. apply ra_same. exact (Hp q s n H1 H2). }
  apply (tells_ext _ _ _ _ _ (fun q words => put_together sp (template c) M (fun _ => False) (fun _ => False) (fun _ _ _ _ => False) (fun _ _ _ _ => False) (mkRM q words))).
  - intros q words. unfold put_together, M, unsubstituted_at. split.
    + intros [(q0 & s & n & H1 & H2 & H3 & H4 & [= -> ->])|[(? & ? & ? & _ & [] & _)|(? & ? & ? & _ & [] & _)]]. exists s, n. auto.
    + intros (s & n & H1 & H2 & H3 & H4 & ->). left. exists q, s, n. auto 6.
  - eapply (checked_set w sp tr k rg man c ds l "E1029" false cfg (sub_needed_rule (w_matches w) [("custom_excludes", VStr "")])); try exact Hl.
    + split; [discriminate|]. split; reflexivity.
    + seen.
    + seen.
    + exact HM.
    + intros rt [].
    + intros n [].
    + intros m [(q & s & n & H1 & _ & _ & _ & ->)|[(? & ? & ? & _ & [] & _)|(? & ? & ? & _ & [] & _)]]. cbn [unsubstituted_at rm_path].
      apply (fine_at c _ (VStr s)); [|exact H1]. intros ->. rewrite Hd in H1. discriminate H1.
Qed.

(** * Types of values *)
Lemma set_types w sp tr k rg man c ds l cfg strict : lints_with w sp tr k rg man c ds "E3012" false cfg l -> wf (template c) -> assoc "strict" cfg = Some strict ->
  let rs := w_rspec w in objects_nested sp (rs_property_types rs) (template c) ->
  (forall n d p specs, object_with sp (rs_resource_types rs) (rs_property_types rs) (template c) n d p specs -> no_null_member d p) ->
  tells_exactly c man ds l "E3012" (fun q words => exists n d p specs, object_with sp (rs_resource_types rs) (rs_property_types rs) (template c) n d p specs /\
    exists prop x ps t b v r y, assoc prop d = Some x /\ assoc prop specs = Some ps /\ has_primitive ps t /\ strict_at (truthy strict) n prop b /\
      single x (p ++ [PKey prop])%list v r /\ primitive_in ps v r y q /\ ~ of_type (w_is_int w) (w_is_float w) b t y /\
      words = (if smem t ["String"; "Boolean"; "Double"; "Integer"; "Long"] then "Property " ++ path_text q ++ " should be of type " ++ t else "Property should be of type " ++ t ++ " at " ++ path_text q)).
Proof.
  intros Hl Hw Hst rs Ho Hs.
  set (P := fun (n : string) d p (specs : pspecs) m => exists prop x ps t b v r y q, assoc prop d = Some x /\ assoc prop specs = Some ps /\ has_primitive ps t /\ strict_at (truthy strict) n prop b /\
      single x (p ++ [PKey prop])%list v r /\ primitive_in ps v r y q /\ ~ of_type (w_is_int w) (w_is_float w) b t y /\
      m = mkRM q (if smem t ["String"; "Boolean"; "Double"; "Integer"; "Long"] then "Property " ++ path_text q ++ " should be of type " ++ t else "Property should be of type " ++ t ++ " at " ++ path_text q)).
  assert (A : forall n d p a, object_with sp (rs_resource_types rs) (rs_property_types rs) (template c) n d p a -> says (primitive_configured (w_is_int w) (w_is_float w) cfg n (VDict d) a p) (P n d p a)).
  { intros n d p a H. unfold primitive_configured. rewrite Hst. apply c59_types. exact (Hs n d p a H). }
  eapply (specified_set w sp tr k rg man c ds l "E3012" false cfg (primitive_rule (w_is_int w) (w_is_float w) rs) _ _ (rs_resource_types rs) (rs_property_types rs) P); try reflexivity; try exact Hl; auto.
  - split; [discriminate|]. split; reflexivity.
  - listed.
  - listed.
  - intros n d p a H1 H2. cbn beta. unfold specs_of. rewrite H2. apply A. left. auto.
  - intros n d p a H1 H2. cbn beta. unfold specs_of. rewrite H2. destruct a as [|e a]; [|apply A; right; auto]. eapply says_ext; [apply says_none|]. intros m. split; [intros []|].
    intros (prop & x & ps & t & b & v & r & y & q & _ & K & _). discriminate K.
  - intros n d p a q words. unfold P. setoid_rewrite mk_rm. split.
    + intros (prop & x & ps & t & b & v & r & y & q0 & H1 & H2 & H3 & H4 & H5 & H6 & H7 & -> & ->). exists prop, x, ps, t, b, v, r, y. auto 10.
    + intros (prop & x & ps & t & b & v & r & y & H1 & H2 & H3 & H4 & H5 & H6 & H7 & ->). exists prop, x, ps, t, b, v, r, y, q. auto 12.
  - intros n d p a q words _ Ha _ (prop & x & ps & t & b & v & r & y & H1 & _ & _ & _ & H2 & H3 & _). pose proof (single_fine c p d _ x v r Ha H1 H2) as Hf.
    pose proof (single_at _ _ _ _ _ H2 (member_at _ _ _ _ _ Ha H1)) as Hr. destruct H3 as [v r _ _|e r key y _ _ H4 _]; [exact Hf|].
    apply (fine_at c _ y); [now destruct r|]. apply (member_at _ _ e); [exact Hr|]. pose proof (at_path_wf _ _ _ Hw Hr) as H'. apply wf_dict in H' as [H' _]. exact (In_assoc _ _ _ H' H4).
Qed.

(** * Permissions *)
Lemma set_permissions w services sp tr k rg man c ds l cfg : lints_with w sp tr k rg man c ds "W3037" true cfg l -> wf (template c) -> w_services w = load_service_map services ->
  (forall rt pd p, properties_of (template c) rt pd p -> In rt permission_rule_types -> permissions_shaped (w_json w) pd p) ->
  tells_exactly c man ds l "W3037" (fun q words => exists rt pd p, properties_of (template c) rt pd p /\ In rt permission_rule_types /\
    exists x q0 v r, document_at permission_document_names pd p x q0 /\ single x q0 v r /\ ~ is_call v /\ permission_fault (w_json w) services v r q words).
Proof.
  intros Hl Hw Hsv Hs.
  set (P := fun (rt : string) pd p m => exists x q0 v r shown words, document_at permission_document_names pd p x q0 /\ single x q0 v r /\ ~ is_call v /\ permission_fault (w_json w) services v r shown words /\ m = mkRM shown words).
  assert (F : forall rt pd p q words, properties_of (template c) rt pd p -> P rt pd p (mkRM q words) -> fine_place c q).
  { intros rt pd p q words H (x & q0 & v & r & sh & wo & H1 & H2 & H3 & H4 & [= -> ->]). destruct (properties_at c rt pd p Hw H) as [Ha Hne]. pose proof (permission_document_place _ _ _ _ _ Ha H1) as Hq. pose proof (single_at _ _ _ _ _ H2 Hq) as Hr.
    assert (Hne' : r <> []) by (apply single_below in H2 as [l0 ->]; destruct H1; destruct p; discriminate).
    exact (permission_place (w_json w) services c v r sh wo Hw Hne' Hr H3 H4). }
  apply (tells_ext _ _ _ _ _ (fun q words => put_together sp (template c) (fun _ => False) (fun rt => In rt permission_rule_types) (fun _ => False) P (fun _ _ _ _ => False) (mkRM q words))).
  - intros q words. unfold put_together, P. split.
    + intros [[]|[(rt & pd & p & H1 & H2 & (x & q0 & v & r & sh & wo & H3 & H4 & H5 & H6 & [= -> ->]))|(? & ? & ? & _ & [] & _)]]. exists rt, pd, p. split; [exact H1|]. split; [exact H2|]. exists x, q0, v, r. auto.
    + intros (rt & pd & p & H1 & H2 & (x & q0 & v & r & H3 & H4 & H5 & H6)). right. left. exists rt, pd, p. split; [exact H1|]. split; [exact H2|]. exists x, q0, v, r, q, words. auto 8.
  - eapply (checked_set w sp tr k rg man c ds l "W3037" true cfg (permission_rule (w_json w) (w_services w))); try exact Hl.
    + split; [discriminate|]. split; reflexivity.
    + one_type.
    + one_type.
    + intros m [].
    + intros rt pd p H1 H2. cbn beta. destruct (properties_at c rt pd p Hw H1) as [Ha _]. pose proof (at_path_wf _ _ _ Hw Ha) as H'. apply wf_dict in H' as [H' _].
      rewrite Hsv. exact (c72_permissions (w_json w) services pd p H' (Hs rt pd p H1 H2)).
    + intros n [].
    + intros [q words] [[]|[(rt & pd & p & H1 & H2 & H3)|(? & ? & ? & _ & [] & _)]]. exact (F rt pd p q words H1 H3).
Qed.

(** * Repeated items *)
Section Repeated.
Variables (w : world) (c : cfn).
Hypothesis (Hft : float_texts (w_float_text w)) (Hor : forall l, Permutation (w_order w l) l).
Lemma value_duplicates x p : wf x -> comparable (w_sha1 w) (w_float_text w) x -> says (check_duplicates (w_order w) (load (w_hash w) (w_fuel w) (template c)) (w_sha1 w) (w_float_text w) x p)
  (fun m => exists items i, x = VList items /\ repeats items i /\ m = mkRM (p ++ [PIdx i])%list ("List has a duplicate value at " ++ path_text (p ++ [PIdx i])%list)).
Proof using Hft Hor.
  intros Hw Hp. destruct x as [|b|z|f|s|l|d].
  1,2,3,4,5: exists []; split; [reflexivity|]; intros m; split; [intros [] | intros (items & i & K & _); discriminate K].
  - destruct (c30_list (w_sha1 w) (w_float_text w) Hft (w_order w) (load (w_hash w) (w_fuel w) (template c)) p l (proj2 (Forall_forall _ _) (wf_list l Hw)) Hp) as (idx & E & _ & Hi).
    exists (map (fun i => mkRM (p ++ [PIdx i])%list ("List has a duplicate value at " ++ path_text (p ++ [PIdx i])%list)) idx). split; [exact E|]. intros m. rewrite in_map_iff. split.
    + intros (i & <- & H). exists l, i. apply Hi in H. auto.
    + intros (items & i & [= <-] & H & ->). exists i. split; [reflexivity | now apply Hi].
  - destruct Hp as (H1 & H2 & H3). exists []. split; [|intros m; split; [intros [] | intros (items & i & K & _); discriminate K]].
    assert (E : get_object_without_conditions (w_order w) (load (w_hash w) (w_fuel w) (template c)) (VDict d) [] = Ok [(None, VDict d)]) by (apply sets_plain; auto; intros n K; apply part_all in K; now apply (H3 n)).
    cbn [check_duplicates]. rewrite E. reflexivity.
Qed.
Lemma object_duplicates (applies : pspec -> bool) d specs p : all_objects (VDict d) p -> wf (VDict d) ->
  (forall e q prop ps x, branch (VDict d) p (VDict e) q -> assoc prop e = Some x -> assoc prop specs = Some ps -> applies ps = true -> wf x /\ comparable (w_sha1 w) (w_float_text w) x) ->
  says (duplicates_check (w_order w) (load (w_hash w) (w_fuel w) (template c)) (w_sha1 w) (w_float_text w) applies (VDict d) specs p)
    (fun m => exists e r prop ps items i, branch (VDict d) p (VDict e) r /\ assoc prop e = Some (VList items) /\ assoc prop specs = Some ps /\ applies ps = true /\ repeats items i /\
       m = mkRM (r ++ [PKey prop; PIdx i])%list ("List has a duplicate value at " ++ path_text (r ++ [PKey prop; PIdx i])%list)).
Proof using Hft Hor.
  intros Ha Hw Hs.
  assert (T : exists ms, duplicates_check (w_order w) (load (w_hash w) (w_fuel w) (template c)) (w_sha1 w) (w_float_text w) applies (VDict d) specs p = Ok ms).
  { unfold duplicates_check. apply per_property_total; [exact Ha|]. intros e q prop ps Hb Hk Hsp. destruct (applies ps) eqn:E; [|eauto]. destruct (proj1 (assoc_Some_key _ _) Hk) as [x Hx]. cbn [item_of]. rewrite Hx. cbn [bind].
    destruct (Hs e q prop ps x Hb Hx Hsp E) as [H1 H2]. destruct (value_duplicates x (q ++ [PKey prop])%list H1 H2) as [ms [-> _]]. eauto. }
  destruct T as [ms E]. exists ms. split; [exact E|]. intros m. rewrite (c30_rule _ _ _ _ applies d specs p ms Ha Hw E m). split.
  - intros (e & q & prop & ps & x & o & H1 & H2 & H3 & H4 & H5 & H6). destruct (Hs e q prop ps x H1 H2 H3 H4) as [A B]. destruct (value_duplicates x (q ++ [PKey prop])%list A B) as [ms' [E' H']]. rewrite H5 in E'. injection E' as <-.
    apply H' in H6 as (items & i & -> & Hi & ->). exists e, q, prop, ps, items, i. rewrite <- app_assoc. auto 8.
  - intros (e & q & prop & ps & items & i & H1 & H2 & H3 & H4 & H5 & ->). destruct (Hs e q prop ps (VList items) H1 H2 H3 H4) as [A B]. destruct (value_duplicates (VList items) (q ++ [PKey prop])%list A B) as [ms' [E' H']].
    exists e, q, prop, ps, (VList items), ms'. repeat (split; [assumption|]). apply H'. exists items, i. rewrite <- app_assoc. auto.
Qed.
End Repeated.

Lemma repeated_run (applies : pspec -> bool) id r w sp tr k rg man c ds l :
  r = spec_rule (w_hash w) (w_fuel w) id (w_rspec w) (fun cs => duplicates_check (w_order w) cs (w_sha1 w) (w_float_text w) applies) ->
  lints w sp tr k rg man c ds id l -> rule_is w id r -> wf (template c) -> float_texts (w_float_text w) -> (forall l, Permutation (w_order w l) l) ->
  let rs := w_rspec w in objects_nested sp (rs_property_types rs) (template c) ->
  (forall n d p specs, object_with sp (rs_resource_types rs) (rs_property_types rs) (template c) n d p specs -> all_objects (VDict d) p /\
     forall e q prop ps x, branch (VDict d) p (VDict e) q -> assoc prop e = Some x -> assoc prop specs = Some ps -> applies ps = true -> comparable (w_sha1 w) (w_float_text w) x) ->
  tells_exactly c man ds l id (fun q words => exists n d p specs, object_with sp (rs_resource_types rs) (rs_property_types rs) (template c) n d p specs /\
    exists e r prop ps items i, branch (VDict d) p (VDict e) r /\ assoc prop e = Some (VList items) /\ assoc prop specs = Some ps /\ applies ps = true /\ repeats items i /\
      q = (r ++ [PKey prop; PIdx i])%list /\ words = "List has a duplicate value at " ++ path_text q).
Proof.
  intros -> Hl Hr Hw Hft Hor rs Ho Hs.
  set (P := fun (n : string) d p (specs : pspecs) m => exists e r prop ps items i, branch (VDict d) p (VDict e) r /\ assoc prop e = Some (VList items) /\ assoc prop specs = Some ps /\ applies ps = true /\ repeats items i /\
      m = mkRM (r ++ [PKey prop; PIdx i])%list ("List has a duplicate value at " ++ path_text (r ++ [PKey prop; PIdx i])%list)).
  assert (A : forall n d p a, object_with sp (rs_resource_types rs) (rs_property_types rs) (template c) n d p a ->
    says (duplicates_check (w_order w) (load (w_hash w) (w_fuel w) (template c)) (w_sha1 w) (w_float_text w) applies (VDict d) a p) (P n d p a)).
  { intros n d p a H. destruct (Hs n d p a H) as (H1 & H2). destruct (object_at sp _ _ c n d p a Hw H) as [Ha _]. pose proof (at_path_wf _ _ _ Hw Ha) as Hd. apply object_duplicates; auto.
    intros e q prop ps x Hb Hx Hsp Hap. split; [|exact (H2 e q prop ps x Hb Hx Hsp Hap)]. exact (at_path_wf _ _ _ Hw (branch_member_at _ _ _ _ _ _ _ Hw Hb Ha (assoc_In _ _ _ Hx))). }
  eapply (tells_specified w sp tr k rg man c ds l id _ _ _ (rs_resource_types rs) (rs_property_types rs) P); try exact Hr; try reflexivity; auto.
  - listed.
  - listed.
  - intros n d p a H1 H2. cbn beta. fold rs. unfold specs_of. rewrite H2. apply A. left. auto.
  - intros n d p a H1 H2. cbn beta. fold rs. unfold specs_of. rewrite H2. apply A. right. auto.
  - intros n d p a q words. unfold P. setoid_rewrite mk_rm. split.
    + intros (e & r & prop & ps & items & i & H1 & H2 & H3 & H4 & H5 & -> & ->). exists e, r, prop, ps, items, i. auto 8.
    + intros (e & r & prop & ps & items & i & H1 & H2 & H3 & H4 & H5 & -> & ->). exists e, r, prop, ps, items, i. auto 8.
  - intros n d p a q words _ Ha _ (e & r & prop & ps & items & i & H1 & H2 & _ & _ & (j & x & y & _ & _ & H3 & _) & -> & _). apply (fine_at c _ y); [now destruct r|].
    change [PKey prop; PIdx i] with ([PKey prop] ++ [PIdx i])%list. rewrite app_assoc, at_path_app, (branch_member_at _ _ _ _ _ _ _ Hw H1 Ha (assoc_In _ _ _ H2)). cbn [at_path]. now rewrite H3.
Qed.

Lemma set_duplicates w sp tr k rg man c ds l : lints w sp tr k rg man c ds "E3037" l -> wf (template c) -> float_texts (w_float_text w) -> (forall l, Permutation (w_order w l) l) ->
  let rs := w_rspec w in objects_nested sp (rs_property_types rs) (template c) ->
  (forall n d p specs, object_with sp (rs_resource_types rs) (rs_property_types rs) (template c) n d p specs -> all_objects (VDict d) p /\
     forall e q prop ps x, branch (VDict d) p (VDict e) q -> assoc prop e = Some x -> assoc prop specs = Some ps -> ps_type ps = Some "List" -> ps_duplicates ps = Some false ->
       comparable (w_sha1 w) (w_float_text w) x) ->
  tells_exactly c man ds l "E3037" (fun q words => exists n d p specs, object_with sp (rs_resource_types rs) (rs_property_types rs) (template c) n d p specs /\
    exists e r prop ps items i, branch (VDict d) p (VDict e) r /\ assoc prop e = Some (VList items) /\ assoc prop specs = Some ps /\
      ps_type ps = Some "List" /\ ps_duplicates ps = Some false /\ repeats items i /\
      q = (r ++ [PKey prop; PIdx i])%list /\ words = "List has a duplicate value at " ++ path_text q).
Proof.
  intros Hl Hw Hft Hor rs Ho Hs.
  eapply tells_ext; [|apply (repeated_run no_duplicates "E3037" (duplicates_rule (w_hash w) (w_order w) (w_fuel w) (w_sha1 w) (w_float_text w) rs) w sp tr k rg man c ds l eq_refl Hl); auto].
  - intros q words. cbn beta. setoid_rewrite no_duplicates_iff. split.
    + intros (n & d & p & specs & H & e & r & prop & ps & items & i & H1 & H2 & H3 & (H4 & H5) & H6). exists n, d, p, specs. split; [exact H|]. exists e, r, prop, ps, items, i. auto 8.
    + intros (n & d & p & specs & H & e & r & prop & ps & items & i & H1 & H2 & H3 & H4 & H5 & H6). exists n, d, p, specs. split; [exact H|]. exists e, r, prop, ps, items, i. auto 8.
  - is_rule.
  - intros n d p specs H. destruct (Hs n d p specs H) as [A B]. split; [exact A|]. intros e q prop ps x H1 H2 H3 H4. apply no_duplicates_iff in H4 as [H4 H5]. exact (B e q prop ps x H1 H2 H3 H4 H5).
Qed.
Lemma set_repetitions w sp tr k rg man c ds l : lints w sp tr k rg man c ds "I3037" l -> wf (template c) -> float_texts (w_float_text w) -> (forall l, Permutation (w_order w l) l) ->
  let rs := w_rspec w in objects_nested sp (rs_property_types rs) (template c) ->
  (forall n d p specs, object_with sp (rs_resource_types rs) (rs_property_types rs) (template c) n d p specs -> all_objects (VDict d) p /\
     forall e q prop ps x, branch (VDict d) p (VDict e) q -> assoc prop e = Some x -> assoc prop specs = Some ps -> ps_type ps = Some "List" -> ps_duplicates ps = Some true ->
       ps_primitive_item ps = Some "String" \/ ps_primitive_item ps = Some "Integer" -> comparable (w_sha1 w) (w_float_text w) x) ->
  tells_exactly c man ds l "I3037" (fun q words => exists n d p specs, object_with sp (rs_resource_types rs) (rs_property_types rs) (template c) n d p specs /\
    exists e r prop ps items i, branch (VDict d) p (VDict e) r /\ assoc prop e = Some (VList items) /\ assoc prop specs = Some ps /\
      ps_type ps = Some "List" /\ ps_duplicates ps = Some true /\ (ps_primitive_item ps = Some "String" \/ ps_primitive_item ps = Some "Integer") /\ repeats items i /\
      q = (r ++ [PKey prop; PIdx i])%list /\ words = "List has a duplicate value at " ++ path_text q).
Proof.
  intros Hl Hw Hft Hor rs Ho Hs.
  eapply tells_ext; [|apply (repeated_run duplicates_discouraged "I3037" (duplicates_allowed_rule (w_hash w) (w_order w) (w_fuel w) (w_sha1 w) (w_float_text w) rs) w sp tr k rg man c ds l eq_refl Hl); auto].
  - intros q words. cbn beta. setoid_rewrite duplicates_discouraged_iff. split.
    + intros (n & d & p & specs & H & e & r & prop & ps & items & i & H1 & H2 & H3 & (H4 & H5 & H6) & H7). exists n, d, p, specs. split; [exact H|]. exists e, r, prop, ps, items, i. auto 9.
    + intros (n & d & p & specs & H & e & r & prop & ps & items & i & H1 & H2 & H3 & H4 & H5 & H6 & H7). exists n, d, p, specs. split; [exact H|]. exists e, r, prop, ps, items, i. auto 9.
  - is_rule.
  - intros n d p specs H. destruct (Hs n d p specs H) as [A B]. split; [exact A|]. intros e q prop ps x H1 H2 H3 H4. apply duplicates_discouraged_iff in H4 as (H4 & H5 & H6). exact (B e q prop ps x H1 H2 H3 H4 H5 H6).
Qed.
