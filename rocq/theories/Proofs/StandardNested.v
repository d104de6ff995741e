(** Findings of single shipped rules that look at objects of the resource specification, in whole runs (C95). *)
From Coq Require Import Permutation.
From Verif.Model Require Import Base Node Locate Helpers Rules Runner Config Core Conditions Relationship Resolve PropertyRules ValueRules ParameterValues BasedOn JsonDump Standard.
From Verif.Spec Require Import Pipeline Paths Branches Walk References Required Resolved Groups Sizes Values ValueRefs ParameterValues Based Sensitive Shipped ShippedChecks.
From Verif.Proofs Require Import BaseFacts SearchProofs BranchProofs PropertyRuleProofs Places GroupProofs GroupMain SizeProofs Says ClusterProofs DynRefProofs ValueProofs ValueRefProofs ParameterValueProofs SensitiveProofs BasedMain StandardProofs StandardRules StandardChecks StandardObjects StandardProps.
Import Verif.Model.Rules Verif.Spec.Based.
Local Open Scope string_scope.

Lemma key_in {A} n (l : list (string * A)) : In n (keys l) -> exists a, assoc n l = Some a.
Proof. intros H. destruct (assoc n l) as [a|] eqn:E; [eauto|]. elim (proj1 (assoc_None n l) E H). Qed.
Lemma in_key {A} n (l : list (string * A)) a : assoc n l = Some a -> In n (keys l).
Proof. intros H. apply assoc_Some_key. eauto. Qed.
Lemma object_at {A} sp (rts pts : list (string * A)) c n d p a : wf (template c) -> object_with sp rts pts (template c) n d p a -> at_path p (template c) = Some (VDict d) /\ p <> [].
Proof. intros Hw [[H _]|[H _]]; [exact (properties_at c n d p Hw H) | exact (nested_at sp c n _ p Hw H)]. Qed.
Lemma object_below {A} sp (rts pts : list (string * A)) t n d p a : object_with sp rts pts t n d p a ->
  exists name rt attrs rest, resource_of t name rt attrs /\ p = PKey "Resources" :: PKey name :: rest.
Proof.
  intros [[(name & attrs & H & _ & ->) _]|[(rt & pd & p0 & (name & attrs & H & _ & ->) & H2 & _) _]].
  - exists name, n, attrs, [PKey "Properties"]. auto.
  - destruct (resource_nested_below _ _ _ _ _ _ _ H2) as [l ->]. exists name, rt, attrs, (PKey "Properties" :: l). auto.
Qed.

(** A rule that looks at objects with an entry of a table. *)
Lemma tells_with {A} w sp tr k rg man c ds l id r f g (rts pts : list (string * A)) (T U : string -> Prop) P (R : string -> list (string * val) -> path -> A -> path -> string -> Prop) :
  lints w sp tr k rg man c ds id l -> rule_is w id r -> r_match r = None -> r_match_props r = Some f -> r_match_subs r = Some g ->
  (forall t, types_seen r c t <-> T t) -> (forall t, subtypes_seen r c t <-> U t) ->
  (forall t, T t -> In t (keys rts)) -> (forall t, U t -> In t (keys pts)) ->
  (forall n d p a q words, assoc n rts = Some a -> R n d p a q words -> T n) -> (forall n d p a q words, assoc n pts = Some a -> R n d p a q words -> U n) ->
  wf (template c) -> objects_nested sp pts (template c) ->
  (forall n d p a, properties_of (template c) n d p -> assoc n rts = Some a -> says (f [] c (VDict d) n p) (P n d p a)) ->
  (forall n d p a, nested_of sp (template c) n (VDict d) p -> assoc n pts = Some a -> says (g [] c (VDict d) n p) (P n d p a)) ->
  (forall n d p a q words, P n d p a (mkRM q words) <-> R n d p a q words) ->
  (forall n d p a q words, object_with sp rts pts (template c) n d p a -> at_path p (template c) = Some (VDict d) -> p <> [] -> R n d p a q words -> fine_place c q) ->
  tells_exactly c man ds l id (fun q words => exists n d p a, object_with sp rts pts (template c) n d p a /\ R n d p a q words).
Proof.
  intros Hl Hr E1 E2 E3 HT HU Tk Uk RT RU Hw Hobj HP HQ HR Hpath.
  apply (tells_ext _ _ _ _ _ (fun q words => (exists rt pd p, properties_of (template c) rt pd p /\ T rt /\ exists a, assoc rt rts = Some a /\ R rt pd p a q words) \/
    (exists n d p, nested_of sp (template c) n (VDict d) p /\ U n /\ exists a, assoc n pts = Some a /\ R n d p a q words))).
  - intros q words. split.
    + intros [(n & d & p & H1 & _ & a & H2 & H3)|(n & d & p & H1 & _ & a & H2 & H3)]; exists n, d, p, a; (split; [|exact H3]); [left | right]; auto.
    + intros (n & d & p & a & [[H1 H2]|[H1 H2]] & H3); [left | right]; exists n, d, p; (split; [exact H1|]); (split; [|exists a; auto]); [exact (RT n d p a q words H2 H3) | exact (RU n d p a q words H2 H3)].
  - apply (tells_objects w sp tr k rg man c ds l id r f g T U (fun n d p m => exists a, assoc n rts = Some a /\ P n d p a m) (fun n d p m => exists a, assoc n pts = Some a /\ P n d p a m)
      (fun n d p q words => exists a, assoc n rts = Some a /\ R n d p a q words) (fun n d p q words => exists a, assoc n pts = Some a /\ R n d p a q words)); auto.
    + intros n v q H1 H2. exact (Hobj n v q H1 (Uk n H2)).
    + intros rt pd p H1 H2. destruct (key_in rt rts (Tk rt H2)) as [a Ea]. eapply says_ext; [exact (HP rt pd p a H1 Ea)|]. intros m. split; [eauto|]. intros (a' & E & H). congruence.
    + intros n d p H1 H2. destruct (key_in n pts (Uk n H2)) as [a Ea]. eapply says_ext; [exact (HQ n d p a H1 Ea)|]. intros m. split; [eauto|]. intros (a' & E & H). congruence.
    + intros n d p q words. split; intros (a & H1 & H2); exists a; (split; [exact H1|]); now apply HR.
    + intros n d p q words. split; intros (a & H1 & H2); exists a; (split; [exact H1|]); now apply HR.
    + intros rt pd p q words H1 H2 Ha Hne (a & H3 & H4). apply (Hpath rt pd p a q words); auto. left. auto.
    + intros n d p q words H1 H2 Ha Hne (a & H3 & H4). apply (Hpath n d p a q words); auto. right. auto.
Qed.
(** A rule that looks at all objects of the specification. *)
Lemma tells_specified {A} w sp tr k rg man c ds l id r f g (rts pts : list (string * A)) P (R : string -> list (string * val) -> path -> A -> path -> string -> Prop) :
  lints w sp tr k rg man c ds id l -> rule_is w id r -> r_match r = None -> r_match_props r = Some f -> r_match_subs r = Some g ->
  (forall t, types_seen r c t <-> In t (keys rts)) -> (forall t, subtypes_seen r c t <-> In t (keys pts)) ->
  wf (template c) -> objects_nested sp pts (template c) ->
  (forall n d p a, properties_of (template c) n d p -> assoc n rts = Some a -> says (f [] c (VDict d) n p) (P n d p a)) ->
  (forall n d p a, nested_of sp (template c) n (VDict d) p -> assoc n pts = Some a -> says (g [] c (VDict d) n p) (P n d p a)) ->
  (forall n d p a q words, P n d p a (mkRM q words) <-> R n d p a q words) ->
  (forall n d p a q words, object_with sp rts pts (template c) n d p a -> at_path p (template c) = Some (VDict d) -> p <> [] -> R n d p a q words -> fine_place c q) ->
  tells_exactly c man ds l id (fun q words => exists n d p a, object_with sp rts pts (template c) n d p a /\ R n d p a q words).
Proof.
  intros Hl Hr E1 E2 E3 HT HU Hw Hobj HP HQ HR Hpath. apply (tells_with w sp tr k rg man c ds l id r f g rts pts (fun t => In t (keys rts)) (fun t => In t (keys pts)) P); auto.
  - intros n d p a q words H _. exact (in_key _ _ _ H).
  - intros n d p a q words H _. exact (in_key _ _ _ H).
Qed.
Ltac listed := let t_ := fresh "t" in intros t_; unfold types_seen, subtypes_seen; cbn; tauto.

(** Places. *)
Lemma branch_fine c p d v q : at_path p (template c) = Some (VDict d) -> p <> [] -> branch (VDict d) p v q -> fine_place c q.
Proof. intros Ha Hne H. destruct (branch_at _ _ _ _ H _ Ha) as [x Hx]. exact (fine_at c q x (branch_nonempty _ _ _ _ H Hne) Hx). Qed.
Lemma property_at_path c p d prop x q : wf (template c) -> at_path p (template c) = Some (VDict d) -> property_of (VDict d) p prop x q ->
  at_path (q ++ [PKey prop])%list (template c) = Some x.
Proof. intros Hw Ha (e & H1 & H2). exact (branch_member_at _ _ _ _ _ _ _ Hw H1 Ha (assoc_In _ _ _ H2)). Qed.
Lemma property_fine c p d prop x q v r : wf (template c) -> at_path p (template c) = Some (VDict d) -> property_of (VDict d) p prop x q ->
  single x (q ++ [PKey prop])%list v r -> fine_place c r /\ at_path r (template c) = Some v.
Proof.
  intros Hw Ha H Hs. assert (E := single_at _ _ _ _ _ Hs (property_at_path c p d prop x q Hw Ha H)). split; [|exact E]. apply (fine_at c r v); [|exact E].
  apply (single_nonempty _ _ _ _ Hs). now destruct q.
Qed.

(** * Sizes *)
Lemma nested_not_if sp t n d p : nested_of sp t n (VDict d) p -> ~ is_if (VDict d).
Proof. intros (? & ? & ? & _ & _ & H). exact H. Qed.
Lemma object_keys {A} sp (rts pts : list (string * A)) c n d p a : wf (template c) -> object_with sp rts pts (template c) n d p a -> NoDup (keys d).
Proof. intros Hw H. destruct (object_at sp rts pts c n d p a Hw H) as [Ha _]. pose proof (at_path_wf _ _ _ Hw Ha) as H'. now apply wf_dict in H' as [H' _]. Qed.
Lemma prop_string w sp tr k rg man c ds l : lints w sp tr k rg man c ds "E3033" l -> wf (template c) ->
  let rs := w_rspec w in ~ In "" (keys (rs_value_types rs)) -> objects_nested sp (rs_property_types rs) (template c) ->
  (forall n d p specs, object_with sp (rs_resource_types rs) (rs_property_types rs) (template c) n d p specs -> ~ is_if (VDict d) /\ VDict d <> NoValue /\ no_null_member d p) ->
  tells_exactly c man ds l "E3033" (fun q words => exists n d p specs, object_with sp (rs_resource_types rs) (rs_property_types rs) (template c) n d p specs /\
    exists prop ps x lo hi s, assoc prop d = Some x /\ assoc prop specs = Some ps /\ string_bounds rs ps lo hi /\ lo <> 0%Z /\ hi <> 0%Z /\
      single x (p ++ [PKey prop])%list (VStr s) q /\ ~ within lo hi (String.length s) /\
      words = "String has to have length between " ++ str_of_Z lo ++ " and " ++ str_of_Z hi ++ " at " ++ path_text q).
Proof.
  intros Hl Hw rs Hv Ho Hs.
  set (P := fun (n : string) d p (specs : pspecs) m => exists prop ps x lo hi s r, assoc prop d = Some x /\ assoc prop specs = Some ps /\ string_bounds rs ps lo hi /\ lo <> 0%Z /\ hi <> 0%Z /\
      single x (p ++ [PKey prop])%list (VStr s) r /\ ~ within lo hi (String.length s) /\ m = mkRM r ("String has to have length between " ++ str_of_Z lo ++ " and " ++ str_of_Z hi ++ " at " ++ path_text r)).
  assert (A : forall n d p a, object_with sp (rs_resource_types rs) (rs_property_types rs) (template c) n d p a -> says (string_size_check rs (VDict d) a p) (P n d p a)).
  { intros n d p a H. destruct (Hs n d p a H) as (H1 & H2 & H3). exact (c29_string rs d a p Hv H1 H2 (object_keys _ _ _ _ _ _ _ _ Hw H) H3). }
  eapply (tells_specified w sp tr k rg man c ds l "E3033" (string_size_rule (w_hash w) (w_fuel w) rs) _ _ (rs_resource_types rs) (rs_property_types rs) P); try reflexivity; auto.
  - is_rule.
  - listed.
  - listed.
  - intros n d p a H1 H2. cbn beta. unfold specs_of. rewrite H2. apply A. left. auto.
  - intros n d p a H1 H2. cbn beta. unfold specs_of. rewrite H2. apply A. right. auto.
  - intros n d p a q words. unfold P. setoid_rewrite mk_rm. split.
    + intros (prop & ps & x & lo & hi & s & r & H1 & H2 & H3 & H4 & H5 & H6 & H7 & -> & ->). exists prop, ps, x, lo, hi, s. auto 10.
    + intros (prop & ps & x & lo & hi & s & H1 & H2 & H3 & H4 & H5 & H6 & H7 & ->). exists prop, ps, x, lo, hi, s, q. auto 12.
  - intros n d p a q words _ Ha _ (prop & ps & x & lo & hi & s & H1 & _ & _ & _ & _ & H2 & _). exact (single_fine c p d _ x _ q Ha H1 H2).
Qed.
Lemma prop_number w sp tr k rg man c ds l : lints w sp tr k rg man c ds "E3034" l -> wf (template c) ->
  let rs := w_rspec w in ~ In "" (keys (rs_value_types rs)) -> objects_nested sp (rs_property_types rs) (template c) ->
  (forall n d p specs, object_with sp (rs_resource_types rs) (rs_property_types rs) (template c) n d p specs -> ~ is_if (VDict d) /\ VDict d <> NoValue /\ no_null_member d p) ->
  tells_exactly c man ds l "E3034" (fun q words => exists n d p specs, object_with sp (rs_resource_types rs) (rs_property_types rs) (template c) n d p specs /\
    exists prop ps x lo hi v, assoc prop d = Some x /\ assoc prop specs = Some ps /\ number_bounds rs ps lo hi /\
      single x (p ++ [PKey prop])%list v q /\ out_of_range (w_py_float w) (fst lo) (fst hi) v /\
      words = "Value has to be between " ++ snd lo ++ " and " ++ snd hi ++ " at " ++ path_text q).
Proof.
  intros Hl Hw rs Hv Ho Hs.
  set (P := fun (n : string) d p (specs : pspecs) m => exists prop ps x lo hi v r, assoc prop d = Some x /\ assoc prop specs = Some ps /\ number_bounds rs ps lo hi /\
      single x (p ++ [PKey prop])%list v r /\ out_of_range (w_py_float w) (fst lo) (fst hi) v /\ m = mkRM r ("Value has to be between " ++ snd lo ++ " and " ++ snd hi ++ " at " ++ path_text r)).
  assert (A : forall n d p a, object_with sp (rs_resource_types rs) (rs_property_types rs) (template c) n d p a -> says (number_size_check (w_py_float w) rs (VDict d) a p) (P n d p a)).
  { intros n d p a H. destruct (Hs n d p a H) as (H1 & H2 & H3). exact (c29_number (w_py_float w) rs d a p Hv H1 H2 (object_keys _ _ _ _ _ _ _ _ Hw H) H3). }
  eapply (tells_specified w sp tr k rg man c ds l "E3034" (number_size_rule (w_hash w) (w_fuel w) (w_py_float w) rs) _ _ (rs_resource_types rs) (rs_property_types rs) P); try reflexivity; auto.
  - is_rule.
  - listed.
  - listed.
  - intros n d p a H1 H2. cbn beta. unfold specs_of. rewrite H2. apply A. left. auto.
  - intros n d p a H1 H2. cbn beta. unfold specs_of. rewrite H2. apply A. right. auto.
  - intros n d p a q words. unfold P. setoid_rewrite mk_rm. split.
    + intros (prop & ps & x & lo & hi & v & r & H1 & H2 & H3 & H4 & H5 & -> & ->). exists prop, ps, x, lo, hi, v. auto 10.
    + intros (prop & ps & x & lo & hi & v & H1 & H2 & H3 & H4 & H5 & ->). exists prop, ps, x, lo, hi, v, q. auto 12.
  - intros n d p a q words _ Ha _ (prop & ps & x & lo & hi & v & H1 & _ & _ & H2 & _). exact (single_fine c p d _ x _ q Ha H1 H2).
Qed.
Lemma prop_list w sp tr k rg man c ds l : lints w sp tr k rg man c ds "E3032" l -> wf (template c) -> (forall l, Permutation (w_order w l) l) ->
  let rs := w_rspec w in ~ In "" (keys (rs_value_types rs)) -> objects_nested sp (rs_property_types rs) (template c) ->
  (forall n d p specs, object_with sp (rs_resource_types rs) (rs_property_types rs) (template c) n d p specs -> all_objects (VDict d) p /\
     forall e q, branch (VDict d) p (VDict e) q -> plain_object e /\ VDict e <> no_value /\ forall n, ~ members_look_at e n) ->
  tells_exactly c man ds l "E3032" (fun q words => exists n d p specs, object_with sp (rs_resource_types rs) (rs_property_types rs) (template c) n d p specs /\
    exists e r prop ps lo hi items, branch (VDict d) p (VDict e) r /\ assoc prop specs = Some ps /\ list_bounds rs ps lo hi /\
      assoc prop e = Some (VList items) /\ ~ within lo hi (List.length items) /\
      q = (r ++ [PKey prop])%list /\ words = prop ++ " has to have between " ++ str_of_Z lo ++ " and " ++ str_of_Z hi ++ " items specified").
Proof.
  intros Hl Hw Hor rs Hv Ho Hs.
  set (P := fun (n : string) d p (specs : pspecs) m => exists e r prop ps lo hi items, branch (VDict d) p (VDict e) r /\ assoc prop specs = Some ps /\ list_bounds rs ps lo hi /\
      assoc prop e = Some (VList items) /\ ~ within lo hi (List.length items) /\ m = mkRM (r ++ [PKey prop])%list (prop ++ " has to have between " ++ str_of_Z lo ++ " and " ++ str_of_Z hi ++ " items specified")).
  assert (A : forall n d p a, object_with sp (rs_resource_types rs) (rs_property_types rs) (template c) n d p a -> says (list_size_check (w_order w) (load (w_hash w) (w_fuel w) (template c)) rs (VDict d) a p) (P n d p a)).
  { intros n d p a H. destruct (Hs n d p a H) as (H1 & H2). exact (c29_list_plain (w_order w) _ rs d a p Hor Hv H1 H2). }
  eapply (tells_specified w sp tr k rg man c ds l "E3032" (list_size_rule (w_hash w) (w_order w) (w_fuel w) rs) _ _ (rs_resource_types rs) (rs_property_types rs) P); try reflexivity; auto.
  - is_rule.
  - listed.
  - listed.
  - intros n d p a H1 H2. cbn beta. unfold specs_of. rewrite H2. apply A. left. auto.
  - intros n d p a H1 H2. cbn beta. unfold specs_of. rewrite H2. apply A. right. auto.
  - intros n d p a q words. unfold P. setoid_rewrite mk_rm. reflexivity.
  - intros n d p a q words _ Ha _ (e & r & prop & ps & lo & hi & items & H1 & _ & _ & H2 & _ & -> & _). apply (fine_at c _ (VList items)); [now destruct r|].
    exact (branch_member_at _ _ _ _ _ _ _ Hw H1 Ha (assoc_In _ _ _ H2)).
Qed.

(** * Values *)
Lemma prop_allowed w sp tr k rg man c ds l : lints w sp tr k rg man c ds "E3030" l -> wf (template c) ->
  let rs := w_rspec w in ~ In "" (keys (w_values w)) -> objects_nested sp (rs_property_types rs) (template c) ->
  (forall n d p specs, object_with sp (rs_resource_types rs) (rs_property_types rs) (template c) n d p specs -> all_objects (VDict d) p /\ no_null_property (VDict d) p) ->
  tells_exactly c man ds l "E3030" (fun q words => exists n d p specs, object_with sp (rs_resource_types rs) (rs_property_types rs) (template c) n d p specs /\
    exists prop x r ps vr v, property_of (VDict d) p prop x r /\ assoc prop specs = Some ps /\ restricts (w_values w) "ValueType" ps vr /\
      vr_allowed vr <> [] /\ single x (r ++ [PKey prop])%list v q /\ ~ is_call v /\
      ~ mentions_resolve (py_str (w_str w) v) /\ ~ In (py_str (w_str w) v) (vr_allowed vr) /\
      words = "You must specify a valid value for " ++ prop ++ " (" ++ py_str (w_str w) v ++ "). Valid values are " ++ dumps (fun _ => "") (VList (map VStr (vr_allowed vr)))).
Proof.
  intros Hl Hw rs Hv Ho Hs.
  set (P := fun (n : string) d p (specs : pspecs) m => exists prop x q ps vr v r, property_of (VDict d) p prop x q /\ assoc prop specs = Some ps /\ restricts (w_values w) "ValueType" ps vr /\
      vr_allowed vr <> [] /\ single x (q ++ [PKey prop])%list v r /\ ~ is_call v /\ ~ mentions_resolve (py_str (w_str w) v) /\ ~ In (py_str (w_str w) v) (vr_allowed vr) /\
      m = mkRM r ("You must specify a valid value for " ++ prop ++ " (" ++ py_str (w_str w) v ++ "). Valid values are " ++ dumps (fun _ => "") (VList (map VStr (vr_allowed vr))))).
  assert (A : forall n d p a, object_with sp (rs_resource_types rs) (rs_property_types rs) (template c) n d p a -> says (allowed_value_check (w_values w) (w_str w) (VDict d) a p) (P n d p a)).
  { intros n d p a H. destruct (Hs n d p a H) as (H1 & H2). exact (c57_allowed (w_values w) (w_str w) d a p Hv H1 H2). }
  eapply (tells_specified w sp tr k rg man c ds l "E3030" (allowed_value_rule (w_hash w) (w_fuel w) (w_str w) rs (w_values w)) _ _ (rs_resource_types rs) (rs_property_types rs) P); try reflexivity; auto.
  - is_rule.
  - listed.
  - listed.
  - intros n d p a H1 H2. cbn beta. unfold specs_of. rewrite H2. apply A. left. auto.
  - intros n d p a H1 H2. cbn beta. unfold specs_of. rewrite H2. apply A. right. auto.
  - intros n d p a q words. unfold P. setoid_rewrite mk_rm. split.
    + intros (prop & x & q0 & ps & vr & v & r & H1 & H2 & H3 & H4 & H5 & H6 & H7 & H8 & -> & ->). exists prop, x, q0, ps, vr, v. auto 12.
    + intros (prop & x & q0 & ps & vr & v & H1 & H2 & H3 & H4 & H5 & H6 & H7 & H8 & ->). exists prop, x, q0, ps, vr, v, q. auto 14.
  - intros n d p a q words _ Ha _ (prop & x & r & ps & vr & v & H1 & _ & _ & _ & H2 & _). exact (proj1 (property_fine c p d prop x r v q Hw Ha H1 H2)).
Qed.
Lemma prop_pattern w sp tr k rg man c ds l : lints w sp tr k rg man c ds "E3031" l -> wf (template c) ->
  let rs := w_rspec w in ~ In "" (keys (w_values w)) -> objects_nested sp (rs_property_types rs) (template c) ->
  (forall n d p specs, object_with sp (rs_resource_types rs) (rs_property_types rs) (template c) n d p specs -> all_objects (VDict d) p /\ no_null_property (VDict d) p) ->
  tells_exactly c man ds l "E3031" (fun q words => exists n d p specs, object_with sp (rs_resource_types rs) (rs_property_types rs) (template c) n d p specs /\
    exists prop x r ps vr v, property_of (VDict d) p prop x r /\ assoc prop specs = Some ps /\ restricts (w_values w) "ValueType" ps vr /\
      vr_pattern vr <> "" /\ single x (r ++ [PKey prop])%list v q /\ has_text v /\
      ~ mentions_resolve (py_str (w_str w) v) /\ w_matches w (vr_pattern vr) (py_str (w_str w) v) = false /\
      words = prop ++ " contains invalid characters (Pattern: " ++ match vr_pattern_text vr with Some t => t | None => vr_pattern vr end ++ ") at " ++ path_text q).
Proof.
  intros Hl Hw rs Hv Ho Hs.
  set (P := fun (n : string) d p (specs : pspecs) m => exists prop x q ps vr v r, property_of (VDict d) p prop x q /\ assoc prop specs = Some ps /\ restricts (w_values w) "ValueType" ps vr /\
      vr_pattern vr <> "" /\ single x (q ++ [PKey prop])%list v r /\ has_text v /\ ~ mentions_resolve (py_str (w_str w) v) /\ w_matches w (vr_pattern vr) (py_str (w_str w) v) = false /\
      m = mkRM r (prop ++ " contains invalid characters (Pattern: " ++ match vr_pattern_text vr with Some t => t | None => vr_pattern vr end ++ ") at " ++ path_text r)).
  assert (A : forall n d p a, object_with sp (rs_resource_types rs) (rs_property_types rs) (template c) n d p a -> says (allowed_pattern_check (w_values w) (w_str w) (w_matches w) (VDict d) a p) (P n d p a)).
  { intros n d p a H. destruct (Hs n d p a H) as (H1 & H2). exact (c58_pattern (w_values w) (w_str w) (w_matches w) d a p Hv H1 H2). }
  eapply (tells_specified w sp tr k rg man c ds l "E3031" (allowed_pattern_rule (w_hash w) (w_fuel w) (w_str w) (w_matches w) rs (w_values w)) _ _ (rs_resource_types rs) (rs_property_types rs) P); try reflexivity; auto.
  - is_rule.
  - listed.
  - listed.
  - intros n d p a H1 H2. cbn beta. unfold specs_of. rewrite H2. apply A. left. auto.
  - intros n d p a H1 H2. cbn beta. unfold specs_of. rewrite H2. apply A. right. auto.
  - intros n d p a q words. unfold P. setoid_rewrite mk_rm. split.
    + intros (prop & x & q0 & ps & vr & v & r & H1 & H2 & H3 & H4 & H5 & H6 & H7 & H8 & -> & ->). exists prop, x, q0, ps, vr, v. auto 12.
    + intros (prop & x & q0 & ps & vr & v & H1 & H2 & H3 & H4 & H5 & H6 & H7 & H8 & ->). exists prop, x, q0, ps, vr, v, q. auto 14.
  - intros n d p a q words _ Ha _ (prop & x & r & ps & vr & v & H1 & _ & _ & _ & H2 & _). exact (proj1 (property_fine c p d prop x r v q Hw Ha H1 H2)).
Qed.
Lemma prop_references w sp tr k rg man c ds l : lints w sp tr k rg man c ds "E3008" l -> wf (template c) ->
  let rs := w_rspec w in ~ In "" (keys (w_values w)) -> plain_sections (template c) -> kinds_known (w_values w) (w_kinds w) -> objects_nested sp (rs_property_types rs) (template c) ->
  (forall n d p specs, object_with sp (rs_resource_types rs) (rs_property_types rs) (template c) n d p specs -> ~ In "Fn::If" (keys specs) /\ all_objects (VDict d) p /\ no_null_property (VDict d) p /\ judgeable (VDict d) p) ->
  tells_exactly c man ds l "E3008" (fun q words => exists n d p specs, object_with sp (rs_resource_types rs) (rs_property_types rs) (template c) n d p specs /\
    exists prop x q0 ps fn y r, property_of (VDict d) p prop x q0 /\ assoc prop specs = Some ps /\ ps_value ps <> [] /\
      single x (q0 ++ [PKey prop])%list (VDict [(fn, y)]) r /\
      reference_fault (w_values w) (template c) (w_kinds w) (fun names => py_str (w_str w) (VList (map VStr names))) prop ps x (q0 ++ [PKey prop])%list r fn y words /\
      q = (r ++ [PKey fn])%list).
Proof.
  intros Hl Hw rs Hv Hpl Hk Ho Hs.
  set (P := fun (n : string) d p (specs : pspecs) m => exists prop x q0 ps fn y r words, property_of (VDict d) p prop x q0 /\ assoc prop specs = Some ps /\ ps_value ps <> [] /\
      single x (q0 ++ [PKey prop])%list (VDict [(fn, y)]) r /\
      reference_fault (w_values w) (template c) (w_kinds w) (fun names => py_str (w_str w) (VList (map VStr names))) prop ps x (q0 ++ [PKey prop])%list r fn y words /\ m = mkRM (r ++ [PKey fn])%list words).
  assert (A : forall n d p a, object_with sp (rs_resource_types rs) (rs_property_types rs) (template c) n d p a -> says (ref_getatt_check (w_values w) (w_str w) (template c) (w_kinds w) (VDict d) a p) (P n d p a)).
  { intros n d p a H. destruct (Hs n d p a H) as (H1 & H2 & H3 & H4). exact (c61_references (w_values w) (w_str w) (template c) (w_kinds w) d a p Hv H1 Hpl Hk H2 H3 H4). }
  eapply (tells_specified w sp tr k rg man c ds l "E3008" (ref_getatt_rule (w_str w) rs (w_values w) (w_kinds w)) _ _ (rs_resource_types rs) (rs_property_types rs) P); try reflexivity; auto.
  - is_rule.
  - listed.
  - listed.
  - intros n d p a H1 H2. cbn beta. unfold specs_of. rewrite H2. apply A. left. auto.
  - intros n d p a H1 H2. cbn beta. unfold specs_of. rewrite H2. apply A. right. auto.
  - intros n d p a q words. unfold P. setoid_rewrite mk_rm. split.
    + intros (prop & x & q0 & ps & fn & y & r & ws & H1 & H2 & H3 & H4 & H5 & -> & ->). exists prop, x, q0, ps, fn, y, r. auto 8.
    + intros (prop & x & q0 & ps & fn & y & r & H1 & H2 & H3 & H4 & H5 & ->). exists prop, x, q0, ps, fn, y, r, words. auto 10.
  - intros n d p a q words _ Ha _ (prop & x & q0 & ps & fn & y & r & H1 & _ & _ & H2 & _ & ->). apply (fine_at c _ y); [now destruct r|].
    apply (member_at _ _ [(fn, y)]); [exact (proj2 (property_fine c p d prop x q0 _ r Hw Ha H1 H2)) | cbn; now rewrite String.eqb_refl].
Qed.
Lemma prop_secure w sp tr k rg man c ds l : lints w sp tr k rg man c ds "E1027" l -> wf (template c) ->
  let rs := w_rspec w in objects_nested sp (rs_property_types rs) (template c) ->
  (forall n d p specs, object_with sp (rs_resource_types rs) (rs_property_types rs) (template c) n d p specs -> no_null_member d p /\
     forall prop x r, assoc prop d = Some x -> ~ single x (p ++ [PKey prop])%list (VDict [("Fn::Sub", VList [])]) r) ->
  tells_exactly c man ds l "E1027" (fun q words => exists n d p specs, object_with sp (rs_resource_types rs) (rs_property_types rs) (template c) n d p specs /\
    exists prop x ps t v r s, assoc prop d = Some x /\ assoc prop specs = Some ps /\ has_primitive ps t /\ ~ In (n, prop) secure_places /\
      single x (p ++ [PKey prop])%list v r /\ text_in ps v r s q /\ versioned_reference "ssm-secure" s /\
      words = "Dynamic Reference secure strings are not supported for this property at " ++ path_text q).
Proof.
  intros Hl Hw rs Ho Hs.
  set (P := fun (n : string) d p (specs : pspecs) m => exists prop x ps t v r s q, assoc prop d = Some x /\ assoc prop specs = Some ps /\ has_primitive ps t /\ ~ In (n, prop) secure_places /\
      single x (p ++ [PKey prop])%list v r /\ text_in ps v r s q /\ versioned_reference "ssm-secure" s /\ m = mkRM q ("Dynamic Reference secure strings are not supported for this property at " ++ path_text q)).
  assert (A : forall n d p a, object_with sp (rs_resource_types rs) (rs_property_types rs) (template c) n d p a -> says (secure_check n (VDict d) a p) (P n d p a)).
  { intros n d p a H. destruct (Hs n d p a H) as (H1 & H2). exact (c60_secure n d a p H1 H2). }
  eapply (tells_specified w sp tr k rg man c ds l "E1027" (secure_rule rs) _ _ (rs_resource_types rs) (rs_property_types rs) P); try reflexivity; auto.
  - is_rule.
  - listed.
  - listed.
  - intros n d p a H1 H2. cbn beta. unfold specs_of. rewrite H2. apply A. left. auto.
  - intros n d p a H1 H2. cbn beta. unfold specs_of. rewrite H2. destruct a as [|e a]; [|apply A; right; auto]. eapply says_ext; [apply says_none|]. intros m. split; [intros []|].
    intros (prop & x & ps & t & v & r & s & q & _ & K & _). discriminate K.
  - intros n d p a q words. unfold P. setoid_rewrite mk_rm. split.
    + intros (prop & x & ps & t & v & r & s & q0 & H1 & H2 & H3 & H4 & H5 & H6 & H7 & -> & ->). exists prop, x, ps, t, v, r, s. auto 10.
    + intros (prop & x & ps & t & v & r & s & H1 & H2 & H3 & H4 & H5 & H6 & H7 & ->). exists prop, x, ps, t, v, r, s, q. auto 12.
  - intros n d p a q words _ Ha _ (prop & x & ps & t & v & r & s & H1 & _ & _ & _ & H2 & H3 & _ & _). pose proof (single_fine c p d _ x v r Ha H1 H2) as Hf.
    pose proof (single_at _ _ _ _ _ H2 (member_at _ _ _ _ _ Ha H1)) as Hr. assert (N : NoDup (keys match v with VDict e => e | _ => [] end)).
    { destruct v; try constructor. pose proof (at_path_wf _ _ _ Hw Hr) as H'. now apply wf_dict in H' as [H' _]. }
    destruct H3 as [s0 r0 _|e r0 key s0 _ _ H4|s0 r0|s0 l0 r0].
    + exact Hf.
    + apply (fine_at c _ (VStr s0)); [now destruct r0|]. apply (member_at _ _ e); [exact Hr | exact (In_assoc _ _ _ N H4)].
    + apply (fine_at c _ (VStr s0)); [now destruct r0|]. now apply (member_at _ _ [("Fn::Sub", VStr s0)]).
    + apply (fine_at c _ (VStr s0)); [now destruct r0|]. rewrite at_path_app, Hr. reflexivity.
Qed.
Lemma prop_values w sp tr k rg man c ds l : lints w sp tr k rg man c ds "W2030" l -> wf (template c) ->
  let rs := w_rspec w in ~ In "" (keys (w_values w)) -> plain_sections (template c) -> allowed_lists (template c) -> objects_nested sp (rs_property_types rs) (template c) ->
  (forall n d p specs, object_with sp (rs_resource_types rs) (rs_property_types rs) (template c) n d p specs -> all_objects (VDict d) p /\ no_null_property (VDict d) p /\ refs_are_names d p) ->
  tells_exactly c man ds l "W2030" (fun q words => exists n d p specs, object_with sp (rs_resource_types rs) (rs_property_types rs) (template c) n d p specs /\
    exists ps vr name o ws v, refers (template c) d specs p ps name /\ restricts (w_values w) "ValueType" ps vr /\ vr_allowed vr <> [] /\
      takes_one (template c) name o /\ unfit (fun v => In (py_str (w_str w) v) (vr_allowed vr)) name o ws q v /\
      mkRM q words = value_finding (w_str w) ws q name v (values_words (vr_allowed vr))).
Proof.
  intros Hl Hw rs Hv Hpl Hal Ho Hs.
  set (P := fun (n : string) d p (specs : pspecs) m => exists ps vr name o ws pa v, refers (template c) d specs p ps name /\ restricts (w_values w) "ValueType" ps vr /\ vr_allowed vr <> [] /\
      takes_one (template c) name o /\ unfit (fun v => In (py_str (w_str w) v) (vr_allowed vr)) name o ws pa v /\ m = value_finding (w_str w) ws pa name v (values_words (vr_allowed vr))).
  assert (A : forall n d p a, object_with sp (rs_resource_types rs) (rs_property_types rs) (template c) n d p a -> says (parameter_values_check (w_str w) (template c) (w_values w) (VDict d) a p) (P n d p a)).
  { intros n d p a H. destruct (Hs n d p a H) as (H1 & H2 & H3). destruct (object_below _ _ _ _ _ _ _ _ H) as (name & rt & attrs & rest & Hres & ->).
    exact (c69_values (w_str w) (template c) (w_values w) d a name attrs rest Hv Hpl Hal (resource_defined _ _ _ _ Hw Hres) H1 H2 H3). }
  eapply (tells_specified w sp tr k rg man c ds l "W2030" (parameter_values_rule (w_str w) rs (w_values w)) _ _ (rs_resource_types rs) (rs_property_types rs) P); try reflexivity; auto.
  - is_rule.
  - listed.
  - listed.
  - intros n d p a H1 H2. cbn beta. unfold specs_of. rewrite H2. apply A. left. auto.
  - intros n d p a H1 H2. cbn beta. unfold specs_of. rewrite H2. apply A. right. auto.
  - intros n d p a q words. unfold P. split.
    + intros (ps & vr & name & o & ws & pa & v & H1 & H2 & H3 & H4 & H5 & E). assert (pa = q) as -> by (unfold value_finding in E; congruence). exists ps, vr, name, o, ws, v. auto 8.
    + intros (ps & vr & name & o & ws & v & H1 & H2 & H3 & H4 & H5 & E). exists ps, vr, name, o, ws, q, v. auto 10.
  - intros n d p a q words _ _ _ (ps & vr & name & o & ws & v & _ & _ & _ & H1 & H2 & _). destruct (unfit_there _ _ _ _ _ _ _ H1 H2) as [H3 [x H4]]. exact (fine_at c q x H3 H4).
Qed.
Lemma prop_patterns w sp tr k rg man c ds l : lints w sp tr k rg man c ds "W2031" l -> wf (template c) ->
  let rs := w_rspec w in ~ In "" (keys (w_values w)) -> plain_sections (template c) -> allowed_lists (template c) -> objects_nested sp (rs_property_types rs) (template c) ->
  (forall n d p specs, object_with sp (rs_resource_types rs) (rs_property_types rs) (template c) n d p specs -> all_objects (VDict d) p /\ no_null_property (VDict d) p /\ refs_are_names d p) ->
  tells_exactly c man ds l "W2031" (fun q words => exists n d p specs, object_with sp (rs_resource_types rs) (rs_property_types rs) (template c) n d p specs /\
    exists ps t vr name o ws v, refers (template c) d specs p ps name /\ assoc "ValueType" (ps_value ps) = Some t /\ assoc t (w_values w) = Some vr /\ vr_pattern vr <> "" /\
      takes_one (template c) name o /\ unfit (fun v => w_matches w (vr_pattern vr) (py_str (w_str w) v) = true) name o ws q v /\
      mkRM q words = value_finding (w_str w) ws q name v (w_description w t)).
Proof.
  intros Hl Hw rs Hv Hpl Hal Ho Hs.
  set (P := fun (n : string) d p (specs : pspecs) m => exists ps t vr name o ws pa v, refers (template c) d specs p ps name /\ assoc "ValueType" (ps_value ps) = Some t /\ assoc t (w_values w) = Some vr /\ vr_pattern vr <> "" /\
      takes_one (template c) name o /\ unfit (fun v => w_matches w (vr_pattern vr) (py_str (w_str w) v) = true) name o ws pa v /\ m = value_finding (w_str w) ws pa name v (w_description w t)).
  assert (A : forall n d p a, object_with sp (rs_resource_types rs) (rs_property_types rs) (template c) n d p a -> says (parameter_pattern_check (w_str w) (template c) (w_values w) (w_matches w) (w_description w) (VDict d) a p) (P n d p a)).
  { intros n d p a H. destruct (Hs n d p a H) as (H1 & H2 & H3). destruct (object_below _ _ _ _ _ _ _ _ H) as (name & rt & attrs & rest & Hres & ->).
    exact (c69_patterns (w_str w) (template c) (w_values w) (w_matches w) (w_description w) d a name attrs rest Hv Hpl Hal (resource_defined _ _ _ _ Hw Hres) H1 H2 H3). }
  eapply (tells_specified w sp tr k rg man c ds l "W2031" (parameter_pattern_rule (w_str w) (w_matches w) (w_description w) rs (w_values w)) _ _ (rs_resource_types rs) (rs_property_types rs) P); try reflexivity; auto.
  - is_rule.
  - listed.
  - listed.
  - intros n d p a H1 H2. cbn beta. unfold specs_of. rewrite H2. apply A. left. auto.
  - intros n d p a H1 H2. cbn beta. unfold specs_of. rewrite H2. apply A. right. auto.
  - intros n d p a q words. unfold P. split.
    + intros (ps & t & vr & name & o & ws & pa & v & H1 & H2 & H2' & H3 & H4 & H5 & E). assert (pa = q) as -> by (unfold value_finding in E; congruence). exists ps, t, vr, name, o, ws, v. auto 10.
    + intros (ps & t & vr & name & o & ws & v & H1 & H2 & H2' & H3 & H4 & H5 & E). exists ps, t, vr, name, o, ws, q, v. auto 12.
  - intros n d p a q words _ _ _ (ps & t & vr & name & o & ws & v & _ & _ & _ & _ & H1 & H2 & _). destruct (unfit_there _ _ _ _ _ _ _ H1 H2) as [H3 [x H4]]. exact (fine_at c q x H3 H4).
Qed.

(** * Groups of properties *)
Lemma pruned_one d : exists d', pruned d d' /\ forall e, pruned d e -> e = d'.
Proof. exists (clean d). split; [now apply clean_pruned|]. intros e H. apply clean_pruned in H. now symmetry. Qed.
Lemma prop_exclusive w sp tr k rg man c ds l : lints w sp tr k rg man c ds "E2520" l -> wf (template c) -> (forall l, Permutation (w_order w l) l) ->
  let rts := fst (w_exclusive w) in let pts := snd (w_exclusive w) in objects_nested sp pts (template c) ->
  (forall n d p table, object_with sp rts pts (template c) n d p table -> plain_object d /\ VDict d <> no_value /\ forall n, ~ members_look_at d n) ->
  tells_exactly c man ds l "E2520" (fun q words => exists n d p table, object_with sp rts pts (template c) n d p table /\
    exists d' k e, pruned d d' /\ lists table k e /\ both (keys d') k e /\ q = (p ++ [PKey k])%list /\ words = "Property " ++ e ++ " should NOT exist with " ++ k ++ " for " ++ path_text p).
Proof.
  intros Hl Hw Hor rts pts Ho Hs.
  set (P := fun (n : string) d p table m => exists d' k e, pruned d d' /\ lists table k e /\ both (keys d') k e /\ m = mkRM (p ++ [PKey k])%list ("Property " ++ e ++ " should NOT exist with " ++ k ++ " for " ++ path_text p)).
  assert (A : forall n d p a, object_with sp rts pts (template c) n d p a -> says (exclusive_check (w_order w) (load (w_hash w) (w_fuel w) (template c)) (VDict d) a p) (P n d p a)).
  { intros n d p a H. destruct (Hs n d p a H) as (H1 & H2 & H3). destruct (pruned_one d) as [d' [Hd Hu]]. eapply says_ext; [exact (c28_exclusive_plain (w_order w) _ d d' a p Hor H1 H2 H3 Hd)|].
    intros m. cbn beta. split; [intros (k0 & e & K1 & K2 & K3); exists d', k0, e; auto|]. intros (d2 & k0 & e & K0 & K1 & K2 & K3). rewrite (Hu _ K0) in K2. eauto. }
  eapply (tells_specified w sp tr k rg man c ds l "E2520" (exclusive_rule (w_hash w) (w_order w) (w_fuel w) rts pts) _ _ rts pts P); try reflexivity; auto.
  - is_rule.
  - listed.
  - listed.
  - intros n d p a H1 H2. cbn beta. unfold table_of. rewrite H2. apply A. left. auto.
  - intros n d p a H1 H2. cbn beta. unfold table_of. rewrite H2. apply A. right. auto.
  - intros n d p a q words. unfold P. setoid_rewrite mk_rm. reflexivity.
  - intros n d p a q words _ Ha Hne (d' & k0 & e & H1 & _ & [H2 _] & -> & _). destruct (key_in k0 d (pruned_keys _ _ _ H1 H2)) as [x Hx]. apply (fine_at c _ x); [now destruct p|]. exact (member_at _ _ _ _ _ Ha Hx).
Qed.
Lemma prop_inclusive w sp tr k rg man c ds l : lints w sp tr k rg man c ds "E2521" l -> wf (template c) -> (forall l, Permutation (w_order w l) l) ->
  let rts := fst (w_inclusive w) in let pts := snd (w_inclusive w) in objects_nested sp pts (template c) ->
  (forall n d p table, object_with sp rts pts (template c) n d p table -> plain_object d /\ VDict d <> no_value /\ forall n, ~ members_look_at d n) ->
  tells_exactly c man ds l "E2521" (fun q words => exists n d p table, object_with sp rts pts (template c) n d p table /\
    exists d' k e, pruned d d' /\ lists table k e /\ only_first (keys d') k e /\ q = p /\ words = "Property " ++ e ++ " should exist with " ++ k ++ " for " ++ path_text p).
Proof.
  intros Hl Hw Hor rts pts Ho Hs.
  set (P := fun (n : string) d p table m => exists d' k e, pruned d d' /\ lists table k e /\ only_first (keys d') k e /\ m = mkRM p ("Property " ++ e ++ " should exist with " ++ k ++ " for " ++ path_text p)).
  assert (A : forall n d p a, object_with sp rts pts (template c) n d p a -> says (inclusive_check (w_order w) (load (w_hash w) (w_fuel w) (template c)) (VDict d) a p) (P n d p a)).
  { intros n d p a H. destruct (Hs n d p a H) as (H1 & H2 & H3). destruct (pruned_one d) as [d' [Hd Hu]]. eapply says_ext; [exact (c28_inclusive_plain (w_order w) _ d d' a p Hor H1 H2 H3 Hd)|].
    intros m. cbn beta. split; [intros (k0 & e & K1 & K2 & K3); exists d', k0, e; auto|]. intros (d2 & k0 & e & K0 & K1 & K2 & K3). rewrite (Hu _ K0) in K2. eauto. }
  eapply (tells_specified w sp tr k rg man c ds l "E2521" (inclusive_rule (w_hash w) (w_order w) (w_fuel w) rts pts) _ _ rts pts P); try reflexivity; auto.
  - is_rule.
  - listed.
  - listed.
  - intros n d p a H1 H2. cbn beta. unfold table_of. rewrite H2. apply A. left. auto.
  - intros n d p a H1 H2. cbn beta. unfold table_of. rewrite H2. apply A. right. auto.
  - intros n d p a q words. unfold P. setoid_rewrite mk_rm. reflexivity.
  - intros n d p a q words _ Ha Hne (d' & k0 & e & _ & _ & _ & -> & _). exact (fine_at c p _ Hne Ha).
Qed.
Lemma prop_at_least w sp tr k rg man c ds l : lints w sp tr k rg man c ds "E2522" l -> wf (template c) -> (forall l, Permutation (w_order w l) l) ->
  let rts := fst (w_at_least_one w) in let pts := snd (w_at_least_one w) in objects_nested sp pts (template c) ->
  (forall n d p groups, object_with sp rts pts (template c) n d p groups -> groups_fit d p groups) ->
  tells_exactly c man ds l "E2522" (fun q words => exists n d p groups, object_with sp rts pts (template c) n d p groups /\
    exists e r group, branch (VDict d) p (VDict e) r /\ In group groups /\ none_of group (keys e) /\
      q = p /\ words = "At least one of [" ++ join_str ", " group ++ "] should be specified for " ++ path_text r).
Proof.
  intros Hl Hw Hor rts pts Ho Hs.
  set (P := fun (n : string) d p groups m => exists e r group, branch (VDict d) p (VDict e) r /\ In group groups /\ none_of group (keys e) /\
      m = mkRM p ("At least one of [" ++ join_str ", " group ++ "] should be specified for " ++ path_text r)).
  assert (A : forall n d p a, object_with sp rts pts (template c) n d p a -> says (at_least_one_check (w_order w) (load (w_hash w) (w_fuel w) (template c)) (VDict d) a p) (P n d p a)).
  { intros n d p a H. destruct (Hs n d p a H) as (H1 & H2 & H3). exact (c28_at_least_plain_stated (w_order w) _ d a p Hor H1 H2 H3). }
  eapply (tells_specified w sp tr k rg man c ds l "E2522" (at_least_one_rule (w_hash w) (w_order w) (w_fuel w) rts pts) _ _ rts pts P); try reflexivity; auto.
  - is_rule.
  - listed.
  - listed.
  - intros n d p a H1 H2. cbn beta. unfold table_of. rewrite H2. apply A. left. auto.
  - intros n d p a H1 H2. cbn beta. unfold table_of. rewrite H2. apply A. right. auto.
  - intros n d p a q words. unfold P. setoid_rewrite mk_rm. reflexivity.
  - intros n d p a q words _ Ha Hne (e & r & group & _ & _ & _ & -> & _). exact (fine_at c p _ Hne Ha).
Qed.
Lemma prop_only_one w sp tr k rg man c ds l : lints w sp tr k rg man c ds "E2523" l -> wf (template c) -> (forall l, Permutation (w_order w l) l) ->
  let rts := fst (w_only_one w) in let pts := snd (w_only_one w) in objects_nested sp pts (template c) ->
  (forall n d p groups, object_with sp rts pts (template c) n d p groups -> groups_fit d p groups) ->
  tells_exactly c man ds l "E2523" (fun q words => exists n d p groups, object_with sp rts pts (template c) n d p groups /\
    exists e r group, branch (VDict d) p (VDict e) r /\ In group groups /\ ~ exactly_one group (keys e) /\
      q = p /\ words = "Only one of [" ++ join_str ", " group ++ "] should be specified for " ++ path_text r).
Proof.
  intros Hl Hw Hor rts pts Ho Hs.
  set (P := fun (n : string) d p groups m => exists e r group, branch (VDict d) p (VDict e) r /\ In group groups /\ ~ exactly_one group (keys e) /\
      m = mkRM p ("Only one of [" ++ join_str ", " group ++ "] should be specified for " ++ path_text r)).
  assert (A : forall n d p a, object_with sp rts pts (template c) n d p a -> says (only_one_check (w_order w) (load (w_hash w) (w_fuel w) (template c)) (VDict d) a p) (P n d p a)).
  { intros n d p a H. destruct (Hs n d p a H) as (H1 & H2 & H3). exact (c28_only_one_plain_stated (w_order w) _ d a p Hor H1 H2 H3). }
  eapply (tells_specified w sp tr k rg man c ds l "E2523" (only_one_rule (w_hash w) (w_order w) (w_fuel w) rts pts) _ _ rts pts P); try reflexivity; auto.
  - is_rule.
  - listed.
  - listed.
  - intros n d p a H1 H2. cbn beta. unfold table_of. rewrite H2. apply A. left. auto.
  - intros n d p a H1 H2. cbn beta. unfold table_of. rewrite H2. apply A. right. auto.
  - intros n d p a q words. unfold P. setoid_rewrite mk_rm. reflexivity.
  - intros n d p a q words _ Ha Hne (e & r & group & _ & _ & _ & -> & _). exact (fine_at c p _ Hne Ha).
Qed.
Lemma based_seen (which : bspec -> list string) (tables : list (string * btable)) n table k s prop : assoc n tables = Some table -> entry table k s -> In prop (which s) -> In n (based_types which tables).
Proof.
  intros H1 H2 H3. unfold based_types, keys. apply in_map_iff. exists (n, table). split; [reflexivity|]. apply filter_In. split; [now apply assoc_In|]. cbn [snd].
  destruct H2 as (l & Hl & Hs). apply existsb_exists. exists (k, l). split; [exact Hl|]. cbn [snd]. apply existsb_exists. exists s. split; [exact Hs|]. destruct (which s); [destruct H3 | reflexivity].
Qed.
Lemma based_listed which (tables : list (string * btable)) t : In t (based_types which tables) -> In t (keys tables).
Proof. unfold based_types, keys. intros H. apply in_map_iff in H as [e [<- H]]. apply filter_In in H as [H _]. now apply in_map. Qed.
Lemma prop_needed w sp tr k rg man c ds l : lints w sp tr k rg man c ds "E3017" l -> wf (template c) -> (forall l, Permutation (w_order w l) l) ->
  let rts := fst (w_based_on w) in let pts := snd (w_based_on w) in objects_nested sp pts (template c) ->
  (forall n d p table, object_with sp rts pts (template c) n d p table -> based_fit (template c) bs_required d table) ->
  tells_exactly c man ds l "E3017" (fun q words => exists n d p table, object_with sp rts pts (template c) n d p table /\
    exists k s prop, entry table k s /\ asks (w_matches w) (template c) s (bs_required s) k prop d /\ ~ In prop (keys d) /\
      q = p /\ words = "When property '" ++ k ++ "' has its current value property '" ++ prop ++ "' should be specified at " ++ path_text p).
Proof.
  intros Hl Hw Hor rts pts Ho Hs.
  set (P := fun (n : string) d p table m => exists k s prop, entry table k s /\ asks (w_matches w) (template c) s (bs_required s) k prop d /\ ~ In prop (keys d) /\
      m = mkRM p ("When property '" ++ k ++ "' has its current value property '" ++ prop ++ "' should be specified at " ++ path_text p)).
  assert (A : forall n d p a, object_with sp rts pts (template c) n d p a -> says (based_check (w_matches w) (template c) (w_order w) (load (w_hash w) (w_fuel w) (template c)) bs_required negb "should be specified" (VDict d) a p) (P n d p a)).
  { intros n d p a H. destruct (Hs n d p a H) as (H1 & H2 & H3). exact (c66_needed_plain (w_matches w) (template c) (w_order w) _ d a p Hor H1 H2 H3). }
  eapply (tells_with w sp tr k rg man c ds l "E3017" (required_based_rule (w_matches w) (w_hash w) (w_order w) (w_fuel w) rts pts) _ _ rts pts (fun t => In t (based_types bs_required rts)) (fun t => In t (based_types bs_required pts)) P); try reflexivity; auto.
  - is_rule.
  - listed.
  - listed.
  - apply based_listed.
  - apply based_listed.
  - intros n d p a q words E (k0 & s & prop & H1 & (x & _ & _ & H2) & _). exact (based_seen _ _ _ _ _ _ _ E H1 H2).
  - intros n d p a q words E (k0 & s & prop & H1 & (x & _ & _ & H2) & _). exact (based_seen _ _ _ _ _ _ _ E H1 H2).
  - intros n d p a H1 H2. cbn beta. cbn [is_null]. unfold table_of. rewrite (H2 : @assoc (list (string * list bspec)) n rts = Some a). apply A. left. auto.
  - intros n d p a H1 H2. cbn beta. cbn [is_null]. unfold table_of. rewrite (H2 : @assoc (list (string * list bspec)) n pts = Some a). apply A. right. auto.
  - intros n d p a q words. unfold P. setoid_rewrite mk_rm. reflexivity.
  - intros n d p a q words _ Ha Hne (k0 & s & prop & _ & _ & _ & -> & _). exact (fine_at c p _ Hne Ha).
Qed.
Lemma prop_unwanted w sp tr k rg man c ds l : lints w sp tr k rg man c ds "E3018" l -> wf (template c) -> (forall l, Permutation (w_order w l) l) ->
  let rts := fst (w_based_on w) in let pts := snd (w_based_on w) in objects_nested sp pts (template c) ->
  (forall n d p table, object_with sp rts pts (template c) n d p table -> based_fit (template c) bs_unwanted d table) ->
  tells_exactly c man ds l "E3018" (fun q words => exists n d p table, object_with sp rts pts (template c) n d p table /\
    exists k s prop, entry table k s /\ asks (w_matches w) (template c) s (bs_unwanted s) k prop d /\ In prop (keys d) /\
      q = p /\ words = "When property '" ++ k ++ "' has its current value property '" ++ prop ++ "' should not be specified at " ++ path_text p).
Proof.
  intros Hl Hw Hor rts pts Ho Hs.
  set (P := fun (n : string) d p table m => exists k s prop, entry table k s /\ asks (w_matches w) (template c) s (bs_unwanted s) k prop d /\ In prop (keys d) /\
      m = mkRM p ("When property '" ++ k ++ "' has its current value property '" ++ prop ++ "' should not be specified at " ++ path_text p)).
  assert (A : forall n d p a, object_with sp rts pts (template c) n d p a -> says (based_check (w_matches w) (template c) (w_order w) (load (w_hash w) (w_fuel w) (template c)) bs_unwanted (fun b => b) "should not be specified" (VDict d) a p) (P n d p a)).
  { intros n d p a H. destruct (Hs n d p a H) as (H1 & H2 & H3). exact (c66_unwanted_plain (w_matches w) (template c) (w_order w) _ d a p Hor H1 H2 H3). }
  eapply (tells_with w sp tr k rg man c ds l "E3018" (unwanted_based_rule (w_matches w) (w_hash w) (w_order w) (w_fuel w) rts pts) _ _ rts pts (fun t => In t (based_types bs_unwanted rts)) (fun t => In t (based_types bs_unwanted pts)) P); try reflexivity; auto.
  - is_rule.
  - listed.
  - listed.
  - apply based_listed.
  - apply based_listed.
  - intros n d p a q words E (k0 & s & prop & H1 & (x & _ & _ & H2) & _). exact (based_seen _ _ _ _ _ _ _ E H1 H2).
  - intros n d p a q words E (k0 & s & prop & H1 & (x & _ & _ & H2) & _). exact (based_seen _ _ _ _ _ _ _ E H1 H2).
  - intros n d p a H1 H2. cbn beta. cbn [is_null]. unfold table_of. rewrite (H2 : @assoc (list (string * list bspec)) n rts = Some a). apply A. left. auto.
  - intros n d p a H1 H2. cbn beta. cbn [is_null]. unfold table_of. rewrite (H2 : @assoc (list (string * list bspec)) n pts = Some a). apply A. right. auto.
  - intros n d p a q words. unfold P. setoid_rewrite mk_rm. reflexivity.
  - intros n d p a q words _ Ha Hne (k0 & s & prop & _ & _ & _ & -> & _). exact (fine_at c p _ Hne Ha).
Qed.

(** * Zones *)
Lemma prop_zones w sp tr k rg man c ds l : lints w sp tr k rg man c ds "W3010" l -> wf (template c) ->
  (forall n v q, nested_of sp (template c) n v q -> In n zone_property_types -> exists d, v = VDict d) ->
  (forall rt pd p, properties_of (template c) rt pd p -> In rt zone_resource_types -> no_null_member pd p) ->
  (forall n d p, nested_of sp (template c) n (VDict d) p -> In n zone_property_types -> no_null_member d p) ->
  let told d p q words := exists key x v, In key ["AvailabilityZone"; "AvailabilityZones"] /\ assoc key d = Some x /\ single x (p ++ [PKey key])%list v q /\ ~ is_call v /\
      v <> VStr "all" /\ words = "Don't hardcode " ++ py_str (w_str w) v ++ " for AvailabilityZones" in
  tells_exactly c man ds l "W3010" (fun q words => (exists rt pd p, properties_of (template c) rt pd p /\ In rt zone_resource_types /\ told pd p q words) \/
    (exists n d p, nested_of sp (template c) n (VDict d) p /\ In n zone_property_types /\ told d p q words)).
Proof.
  intros Hl Hw Ho H1 H2 told.
  set (P := fun d p m => exists key x v r, In key ["AvailabilityZone"; "AvailabilityZones"] /\ assoc key d = Some x /\ single x (p ++ [PKey key])%list v r /\ ~ is_call v /\
      v <> VStr "all" /\ m = mkRM r ("Don't hardcode " ++ py_str (w_str w) v ++ " for AvailabilityZones")).
  assert (B : forall d p q words, P d p (mkRM q words) <-> told d p q words).
  { intros d p q words. unfold P, told. setoid_rewrite mk_rm. split.
    - intros (key & x & v & r & K1 & K2 & K3 & K4 & K5 & -> & ->). exists key, x, v. auto 8.
    - intros (key & x & v & K1 & K2 & K3 & K4 & K5 & ->). exists key, x, v, q. auto 10. }
  assert (F : forall d p q words, at_path p (template c) = Some (VDict d) -> told d p q words -> fine_place c q).
  { intros d p q words Ha (key & x & v & _ & K1 & K2 & _). exact (single_fine c p d _ x _ q Ha K1 K2). }
  eapply (tells_objects w sp tr k rg man c ds l "W3010" (ValueRules.zone_rule (w_str w)) _ _ (fun t => In t zone_resource_types) (fun t => In t zone_property_types) (fun _ => P) (fun _ => P) (fun _ => told) (fun _ => told)); try reflexivity; auto.
  - is_rule.
  - listed.
  - listed.
  - intros rt pd p K1 K2. exact (c62_zones (w_str w) pd p (fun key x q E => H1 rt pd p K1 K2 key x q E)).
  - intros n d p K1 K2. exact (c62_zones (w_str w) d p (fun key x q E => H2 n d p K1 K2 key x q E)).
  - intros rt pd p q words _ _ Ha _. now apply F.
  - intros rt pd p q words _ _ Ha _. now apply F.
Qed.

(** * Missing properties *)
Lemma required_match_total rs t : types_are_texts t ->
  (forall name rt attrs x, resource_of t name rt attrs -> custom_type rs rt -> assoc "Properties" attrs = Some x ->
     exists props, x = VDict props /\ all_members (VDict props) [PKey "Resources"; PKey name; PKey "Properties"]) ->
  exists ms, required_match rs t = Ok ms.
Proof.
  intros Ht Hok. unfold required_match. apply concat_res_total. intros [name v] Hi. unfold required_custom. cbn [fst snd].
  destruct v as [| | | | | |attrs]; try (eexists; reflexivity). destruct (assoc "Properties" attrs) as [x|] eqn:Ep; [|eexists; reflexivity]. destruct (assoc "Type" attrs) as [ty|] eqn:Et; [|eexists; reflexivity].
  assert (E : exists rt, ty = VStr rt).
  { unfold get_resources, vget_def in Hi. destruct t as [| | | | | |top]; try destruct Hi. destruct (assoc "Resources" top) as [[| | | | | |rs0]|] eqn:E0; try destruct Hi.
    apply filter_In in Hi as [Hi K]. cbn [snd] in K. rewrite Et in K. destruct (Ht top rs0 name attrs ty eq_refl E0 Hi Et) as [->|H]; [discriminate K | exact H]. }
  destruct E as [rt ->]. destruct (starts_with "Custom::" rt && negb (mem_assoc rt (rs_resource_types rs)))%bool eqn:Ec; [|eexists; reflexivity].
  assert (Hc : custom_type rs rt).
  { apply Bool.andb_true_iff in Ec as [E1 E2]. split; [apply prefix_iff; exact E1|]. intros K. apply mem_assoc_iff in K. rewrite K in E2. discriminate E2. }
  destruct (Hok name rt attrs x (listed_resource_of _ _ _ _ Hi Et) Hc Ep) as [props [-> Ha]].
  destruct (required_objects (required_attrs (specs_of "AWS::CloudFormation::CustomResource" (rs_resource_types rs))) props _ Ha) as [ms [H _]]. eauto.
Qed.
Lemma prop_required w sp tr k rg man c ds l : lints w sp tr k rg man c ds "E3003" l -> wf (template c) ->
  let rs := w_rspec w in types_are_texts (template c) -> objects_nested sp (rs_property_types rs) (template c) ->
  (forall name rt attrs x, resource_of (template c) name rt attrs -> custom_type rs rt -> assoc "Properties" attrs = Some x ->
     exists props, x = VDict props /\ all_members (VDict props) [PKey "Resources"; PKey name; PKey "Properties"]) ->
  (forall n d p specs, object_with sp (rs_resource_types rs) (rs_property_types rs) (template c) n d p specs -> all_members (VDict d) p) ->
  tells_exactly c man ds l "E3003" (fun q words => exists d p v name, branch (VDict d) p v q /\ lacks v name /\ words = "Property " ++ name ++ " missing at " ++ path_text q /\
    ((exists rt, properties_of (template c) rt d p /\ requires (rs_resource_types rs) rt name) \/
     (exists n, nested_of sp (template c) n (VDict d) p /\ requires (rs_property_types rs) n name) \/
     (exists rt, properties_of (template c) rt d p /\ custom_type rs rt /\ requires (rs_resource_types rs) "AWS::CloudFormation::CustomResource" name))).
Proof.
  intros Hl Hw rs Ht Ho Hcu Hs.
  set (M := fun m => exists name rt attrs props v q prop, resource_of (template c) name rt attrs /\ custom_type rs rt /\
    assoc "Properties" attrs = Some (VDict props) /\ branch (VDict props) [PKey "Resources"; PKey name; PKey "Properties"] v q /\
    requires (rs_resource_types rs) "AWS::CloudFormation::CustomResource" prop /\ lacks v prop /\
    m = mkRM q ("Property " ++ prop ++ " missing at " ++ path_text q)).
  set (P := fun rt d p m => exists v q name, branch (VDict d) p v q /\ requires (rs_resource_types rs) rt name /\ lacks v name /\ m = mkRM q ("Property " ++ name ++ " missing at " ++ path_text q)).
  set (Q := fun n x p m => exists d v q name, x = VDict d /\ branch (VDict d) p v q /\ requires (rs_property_types rs) n name /\ lacks v name /\ m = mkRM q ("Property " ++ name ++ " missing at " ++ path_text q)).
  assert (RK : forall tbl n name, requires tbl n name -> In n (keys tbl)) by (intros tbl n name (specs & ps & H & _); exact (in_key _ _ _ H)).
  apply (tells_ext _ _ _ _ _ (fun q words => put_together sp (template c) M (fun t => In t (keys (rs_resource_types rs))) (fun t => In t (keys (rs_property_types rs))) P Q (mkRM q words))).
  - intros q words. unfold put_together, M, P, Q. setoid_rewrite mk_rm. split.
    + intros [(name & rt & attrs & props & v & q0 & prop & H1 & H2 & H3 & H4 & H5 & H6 & -> & ->)|[(rt & d & p & H1 & _ & v & q0 & name & H2 & H3 & H4 & -> & ->)|(n & x & p & H1 & _ & d & v & q0 & name & -> & H2 & H3 & H4 & -> & ->)]].
      * exists props, [PKey "Resources"; PKey name; PKey "Properties"], v, prop. split; [exact H4|]. split; [exact H6|]. split; [reflexivity|]. right. right. exists rt. split; [exists name, attrs; auto | auto].
      * exists d, p, v, name. split; [exact H2|]. split; [exact H4|]. split; [reflexivity|]. left. eauto.
      * exists d, p, v, name. split; [exact H2|]. split; [exact H4|]. split; [reflexivity|]. right. left. eauto.
    + intros (d & p & v & name & H1 & H2 & -> & [(rt & H3 & H4)|[(n & H3 & H4)|(rt & (rname & attrs & H3 & H4 & ->) & H5 & H6)]]).
      * right. left. exists rt, d, p. split; [exact H3|]. split; [exact (RK _ _ _ H4)|]. exists v, q, name. auto.
      * right. right. exists n, (VDict d), p. split; [exact H3|]. split; [exact (RK _ _ _ H4)|]. exists d, v, q, name. auto 6.
      * left. exists rname, rt, attrs, d, v, q, name. auto 10.
  - apply (tells_checked w sp tr k rg man c ds l "E3003" (required_rule rs)); auto.
    + is_rule.
    + listed.
    + listed.
    + cbn [required_rule r_match]. destruct (required_match_total rs (template c) Ht Hcu) as [ms E]. exists ms. split; [exact E|]. exact (c27_custom rs (template c) Hcu ms E).
    + cbn [required_rule r_match_props]. intros rt d p H1 H2. destruct (key_in _ _ H2) as [a Ea]. exact (c27_objects rs d p rt (Hs rt d p a (or_introl (conj H1 Ea)))).
    + cbn [required_rule r_match_subs]. intros n v q H1 H2. destruct (Ho n v q H1 H2) as [d ->]. destruct (key_in _ _ H2) as [a Ea]. eapply says_ext; [exact (c27_nested rs d q n (Hs n d q a (or_intror (conj H1 Ea))))|].
      intros m. unfold Q. split; [intros (v & r & name & K1 & K2 & K3 & K4); exists d, v, r, name; auto 6|]. intros (d' & v & r & name & [= <-] & K). eauto.
    + intros m [(name & rt & attrs & props & v & q0 & prop & H1 & H2 & H3 & H4 & H5 & H6 & ->)|[(rt & d & p & H1 & _ & v & q0 & name & H2 & H3 & H4 & ->)|(n & x & p & H1 & _ & d & v & q0 & name & -> & H2 & H3 & H4 & ->)]]; cbn [rm_path].
      * exact (branch_fine c _ props v q0 (resource_at c name rt attrs props Hw H1 H3) ltac:(discriminate) H4).
      * destruct (properties_at c rt d p Hw H1) as [Ha Hne]. exact (branch_fine c p d v q0 Ha Hne H2).
      * destruct (nested_at sp c n (VDict d) p Hw H1) as [Ha Hne]. exact (branch_fine c p d v q0 Ha Hne H2).
Qed.
