(** C28: the four rules on groups of properties, and their findings in a run. *)
From Coq Require Import Permutation Lia.
From Verif.Model Require Import Base Locate Helpers Node Conditions Search Resolve Rules Relationship Parameters PropertyRules.
From Verif.Spec Require Import Paths Branches Walk Required Truth Resolved Groups.
From Verif.Proofs Require Import BaseFacts BranchProofs SearchProofs ConditionProofs ResolveProofs ScenarioMain SetProofs PropertyRuleProofs GroupProofs.
Import Verif.Model.Rules.
Import ListNotations.
Local Open Scope string_scope.

Lemma c28_only_one_plain_stated order c props groups p : (forall l, Permutation (order l) l) ->
  all_objects (VDict props) p -> (forall group, In group groups -> proper_group group) ->
  (forall d q, branch (VDict props) p (VDict d) q -> plain_object d /\ VDict d <> no_value /\ forall group n, In group groups -> ~ group_looks_at d group n) ->
  exists ms, only_one_check order c (VDict props) groups p = Ok ms /\
    forall m, In m ms <-> exists d q group, branch (VDict props) p (VDict d) q /\ In group groups /\ ~ exactly_one group (keys d) /\
      m = mkRM p ("Only one of [" ++ join_str ", " group ++ "] should be specified for " ++ path_text q).
Proof. exact (c28_only_one_plain order c props groups p). Qed.

Lemma c28_only_one_found_stated hash order template defs parameters fuel w b props p d q groups group names d' ms :
  (forall v, digest (hash v)) -> (forall l, Permutation (order l) l) ->
  section_of "Conditions" template defs -> section_of "Parameters" template parameters ->
  branch (VDict props) p (VDict d) q -> plain_object d -> In group groups -> proper_group group ->
  NoDup names -> names <> [] -> (forall n, In n names <-> group_looks_at d group n) ->
  (forall n, In n names -> mem_assoc n (cs_conditions (load hash fuel template)) = true) ->
  (List.length names <= 4 \/ some_related defs names) ->
  deployment hash parameters w -> gives defs w names b ->
  deployed b d d' -> d' <> [] -> ~ exactly_one group (keys d') ->
  only_one_check order (load hash fuel template) (VDict props) groups p = Ok ms ->
  exists sc, Permutation sc (scenario_of names b) /\
    In (mkRM p ("Only one of [" ++ join_str ", " group ++ "] should be specified " ++ scenario_text sc ++ " at " ++ path_text q)) ms.
Proof. exact (c28_only_one_found hash order template defs parameters fuel w b props p d q groups group names d' ms). Qed.

Lemma c28_only_one_real_stated hash order template defs parameters props p groups w0 b0 :
  (forall v, digest (hash v)) -> (forall l, Permutation (order l) l) ->
  section_of "Conditions" template defs -> section_of "Parameters" template parameters ->
  NoDup (keys defs) -> (forall n v, In (n, v) defs -> well_formed defs v) ->
  NoDup (keys parameters) -> (forall n p, In (n, p) parameters -> plain_parameter p) -> told_apart hash parameters ->
  all_objects (VDict props) p -> (forall group, In group groups -> proper_group group) ->
  deployment hash parameters w0 -> gives defs w0 (keys defs) b0 ->
  (forall d q, branch (VDict props) p (VDict d) q -> plain_object d /\ VDict d <> no_value /\
     forall group, In group groups -> exists names, NoDup names /\ (forall n, In n names <-> group_looks_at d group n) /\
       (forall n, In n names -> In n (keys defs)) /\ (List.length names <= 4 \/ some_related defs names)) ->
  exists limit, forall fuel, limit <= fuel ->
  exists ms, only_one_check order (load hash fuel template) (VDict props) groups p = Ok ms /\
    forall m, In m ms -> exists d q group, branch (VDict props) p (VDict d) q /\ In group groups /\
      ((forall n, ~ group_looks_at d group n) /\ ~ exactly_one group (keys d) /\
         m = mkRM p ("Only one of [" ++ join_str ", " group ++ "] should be specified for " ++ path_text q) \/
       exists names b sc, NoDup names /\ names <> [] /\ (forall n, In n names <-> group_looks_at d group n) /\ Permutation sc (scenario_of names b) /\
         (forall d', deployed b d d' -> ~ exactly_one group (keys d')) /\
         m = mkRM p ("Only one of [" ++ join_str ", " group ++ "] should be specified " ++ scenario_text sc ++ " at " ++ path_text q) /\
         ((some_related defs names \/ forall n, In n names -> exists w, deployment hash parameters w /\ gives defs w [n] b) ->
          exists w, deployment hash parameters w /\ gives defs w names b)).
Proof. exact (c28_only_one_real hash order template defs parameters props p groups w0 b0). Qed.

Lemma c28_at_least_plain_stated order c props groups p : (forall l, Permutation (order l) l) ->
  all_objects (VDict props) p -> (forall group, In group groups -> proper_group group) ->
  (forall d q, branch (VDict props) p (VDict d) q -> plain_object d /\ VDict d <> no_value /\ forall group n, In group groups -> ~ group_looks_at d group n) ->
  exists ms, at_least_one_check order c (VDict props) groups p = Ok ms /\
    forall m, In m ms <-> exists d q group, branch (VDict props) p (VDict d) q /\ In group groups /\ none_of group (keys d) /\
      m = mkRM p ("At least one of [" ++ join_str ", " group ++ "] should be specified for " ++ path_text q).
Proof. exact (c28_at_least_plain order c props groups p). Qed.

Lemma c28_at_least_found_stated hash order template defs parameters fuel w b props p d q groups group names d' ms :
  (forall v, digest (hash v)) -> (forall l, Permutation (order l) l) ->
  section_of "Conditions" template defs -> section_of "Parameters" template parameters ->
  branch (VDict props) p (VDict d) q -> plain_object d -> In group groups -> proper_group group ->
  NoDup names -> names <> [] -> (forall n, In n names <-> group_looks_at d group n) ->
  (forall n, In n names -> mem_assoc n (cs_conditions (load hash fuel template)) = true) ->
  (List.length names <= 4 \/ some_related defs names) ->
  deployment hash parameters w -> gives defs w names b ->
  deployed b d d' -> d' <> [] -> none_of group (keys d') ->
  at_least_one_check order (load hash fuel template) (VDict props) groups p = Ok ms ->
  exists sc, Permutation sc (scenario_of names b) /\
    In (mkRM p ("At least one of [" ++ join_str ", " group ++ "] should be specified " ++ scenario_text sc ++ " at " ++ path_text q)) ms.
Proof. exact (c28_at_least_found hash order template defs parameters fuel w b props p d q groups group names d' ms). Qed.

Lemma c28_at_least_real_stated hash order template defs parameters props p groups w0 b0 :
  (forall v, digest (hash v)) -> (forall l, Permutation (order l) l) ->
  section_of "Conditions" template defs -> section_of "Parameters" template parameters ->
  NoDup (keys defs) -> (forall n v, In (n, v) defs -> well_formed defs v) ->
  NoDup (keys parameters) -> (forall n p, In (n, p) parameters -> plain_parameter p) -> told_apart hash parameters ->
  all_objects (VDict props) p -> (forall group, In group groups -> proper_group group) ->
  deployment hash parameters w0 -> gives defs w0 (keys defs) b0 ->
  (forall d q, branch (VDict props) p (VDict d) q -> plain_object d /\ VDict d <> no_value /\
     forall group, In group groups -> exists names, NoDup names /\ (forall n, In n names <-> group_looks_at d group n) /\
       (forall n, In n names -> In n (keys defs)) /\ (List.length names <= 4 \/ some_related defs names)) ->
  exists limit, forall fuel, limit <= fuel ->
  exists ms, at_least_one_check order (load hash fuel template) (VDict props) groups p = Ok ms /\
    forall m, In m ms -> exists d q group, branch (VDict props) p (VDict d) q /\ In group groups /\
      ((forall n, ~ group_looks_at d group n) /\ none_of group (keys d) /\
         m = mkRM p ("At least one of [" ++ join_str ", " group ++ "] should be specified for " ++ path_text q) \/
       exists names b sc, NoDup names /\ names <> [] /\ (forall n, In n names <-> group_looks_at d group n) /\ Permutation sc (scenario_of names b) /\
         (forall d', deployed b d d' -> none_of group (keys d')) /\
         m = mkRM p ("At least one of [" ++ join_str ", " group ++ "] should be specified " ++ scenario_text sc ++ " at " ++ path_text q) /\
         ((some_related defs names \/ forall n, In n names -> exists w, deployment hash parameters w /\ gives defs w [n] b) ->
          exists w, deployment hash parameters w /\ gives defs w names b)).
Proof. exact (c28_at_least_real hash order template defs parameters props p groups w0 b0). Qed.

Lemma c28_exclusive_plain order c d d' table p : (forall l, Permutation (order l) l) ->
  plain_object d -> VDict d <> no_value -> (forall n, ~ members_look_at d n) -> pruned d d' ->
  exists ms, exclusive_check order c (VDict d) table p = Ok ms /\
    forall m, In m ms <-> exists k e, lists table k e /\ both (keys d') k e /\ m = mkRM (p ++ [PKey k])%list ("Property " ++ e ++ " should NOT exist with " ++ k ++ " for " ++ path_text p).
Proof.
  exact (pair_plain (fun b => b) exclusive_match eq_refl order c d d' table p).
Qed.

Lemma c28_exclusive_found hash order template defs parameters fuel w b d names table p d' k e ms :
  (forall v, digest (hash v)) -> (forall l, Permutation (order l) l) ->
  section_of "Conditions" template defs -> section_of "Parameters" template parameters ->
  plain_object d -> NoDup names -> names <> [] -> (forall n, In n names <-> members_look_at d n) ->
  (forall n, In n names -> mem_assoc n (cs_conditions (load hash fuel template)) = true) ->
  (List.length names <= 4 \/ some_related defs names) ->
  deployment hash parameters w -> gives defs w names b ->
  deployed b d d' -> lists table k e -> both (keys d') k e ->
  exclusive_check order (load hash fuel template) (VDict d) table p = Ok ms ->
  exists sc, Permutation sc (scenario_of names b) /\ In (mkRM (p ++ [PKey k])%list ("Property " ++ e ++ " should NOT exist with " ++ k ++ " " ++ scenario_text sc ++ " for " ++ path_text p)) ms.
Proof.
  intros Hh Ho Hc Hp Hd Hnd Hne Hn Hl Hs Hw Hgv Hdep Ht Hr E. destruct (pair_found (fun b => b) exclusive_match eq_refl hash order template defs parameters fuel w b d names table p d' k e ms Hh Ho Hc Hp Hd Hnd Hne Hn Hl Hs Hw Hgv Hdep Ht Hr E) as [sc [H1 H2]].
  exists sc. split; [exact H1|]. unfold exclusive_match in H2. cbn [with_scenario] in H2. rewrite append_assoc in H2. exact H2.
Qed.

Lemma c28_exclusive_real hash order template defs parameters d names table p w0 b0 :
  (forall v, digest (hash v)) -> (forall l, Permutation (order l) l) ->
  section_of "Conditions" template defs -> section_of "Parameters" template parameters ->
  NoDup (keys defs) -> (forall n v, In (n, v) defs -> well_formed defs v) ->
  NoDup (keys parameters) -> (forall n p, In (n, p) parameters -> plain_parameter p) -> told_apart hash parameters ->
  plain_object d -> NoDup names -> names <> [] -> (forall n, In n names <-> members_look_at d n) -> (forall n, In n names -> In n (keys defs)) ->
  (List.length names <= 4 \/ some_related defs names) -> deployment hash parameters w0 -> gives defs w0 names b0 ->
  exists limit, forall fuel, limit <= fuel ->
  exists ms, exclusive_check order (load hash fuel template) (VDict d) table p = Ok ms /\
    forall m, In m ms -> exists sc b k e, Permutation sc (scenario_of names b) /\ lists table k e /\
      (forall d', deployed b d d' -> both (keys d') k e) /\ m = mkRM (p ++ [PKey k])%list ("Property " ++ e ++ " should NOT exist with " ++ k ++ " " ++ scenario_text sc ++ " for " ++ path_text p) /\
      ((some_related defs names \/ forall n, In n names -> exists w, deployment hash parameters w /\ gives defs w [n] b) ->
       exists w, deployment hash parameters w /\ gives defs w names b).
Proof.
  intros Hh Ho Hc Hp Hcn Hcw Hpn Hpp Hta Hd Hnd Hne Hn Hdef Hsz Hw0 Hg0.
  destruct (pair_real (fun b => b) exclusive_match eq_refl hash order template defs parameters d names table p w0 b0 Hh Ho Hc Hp Hcn Hcw Hpn Hpp Hta Hd Hnd Hne Hn Hdef Hsz Hw0 Hg0) as [limit H].
  exists limit. intros fuel Hf. destruct (H fuel Hf) as [ms [E Hms]]. exists ms. split; [exact E|]. intros m Hm. destruct (Hms m Hm) as [sc [b [k [e [H1 [H2 [H3 [-> H4]]]]]]]].
  exists sc, b, k, e. split; [exact H1|]. split; [exact H2|]. split; [exact H3|]. split; [|exact H4]. unfold exclusive_match. cbn [with_scenario]. rewrite append_assoc. reflexivity.
Qed.

Lemma c28_inclusive_plain order c d d' table p : (forall l, Permutation (order l) l) ->
  plain_object d -> VDict d <> no_value -> (forall n, ~ members_look_at d n) -> pruned d d' ->
  exists ms, inclusive_check order c (VDict d) table p = Ok ms /\
    forall m, In m ms <-> exists k e, lists table k e /\ only_first (keys d') k e /\ m = mkRM p ("Property " ++ e ++ " should exist with " ++ k ++ " for " ++ path_text p).
Proof.
  intros Ho Hd Hn Hno Hpr. destruct d as [|kv d].
  { exists []. split; [reflexivity|]. inversion Hpr; subst. intros m. split; [intros [] | intros [k [e [_ [[[] _] _]]]]]. }
  rewrite inclusive_pairs by discriminate. exact (pair_plain negb inclusive_match eq_refl order c (kv :: d) d' table p Ho Hd Hn Hno Hpr).
Qed.

Lemma c28_inclusive_found hash order template defs parameters fuel w b d names table p d' k e ms :
  (forall v, digest (hash v)) -> (forall l, Permutation (order l) l) ->
  section_of "Conditions" template defs -> section_of "Parameters" template parameters ->
  plain_object d -> NoDup names -> names <> [] -> (forall n, In n names <-> members_look_at d n) ->
  (forall n, In n names -> mem_assoc n (cs_conditions (load hash fuel template)) = true) ->
  (List.length names <= 4 \/ some_related defs names) ->
  deployment hash parameters w -> gives defs w names b ->
  deployed b d d' -> lists table k e -> only_first (keys d') k e ->
  inclusive_check order (load hash fuel template) (VDict d) table p = Ok ms ->
  exists sc, Permutation sc (scenario_of names b) /\ In (mkRM p ("Property " ++ e ++ " should exist with " ++ k ++ " " ++ scenario_text sc ++ " for " ++ path_text p)) ms.
Proof.
  intros Hh Ho Hc Hp Hd Hnd Hne Hn Hl Hs Hw Hgv Hdep Ht Hr E. rewrite inclusive_pairs in E by (intros ->; inversion Hdep; subst; destruct Hr as [[] _]).
  destruct (pair_found negb inclusive_match eq_refl hash order template defs parameters fuel w b d names table p d' k e ms Hh Ho Hc Hp Hd Hnd Hne Hn Hl Hs Hw Hgv Hdep Ht Hr E) as [sc [H1 H2]].
  exists sc. split; [exact H1|]. unfold inclusive_match in H2. cbn [with_scenario] in H2. rewrite append_assoc in H2. exact H2.
Qed.

Lemma c28_inclusive_real hash order template defs parameters d names table p w0 b0 :
  (forall v, digest (hash v)) -> (forall l, Permutation (order l) l) ->
  section_of "Conditions" template defs -> section_of "Parameters" template parameters ->
  NoDup (keys defs) -> (forall n v, In (n, v) defs -> well_formed defs v) ->
  NoDup (keys parameters) -> (forall n p, In (n, p) parameters -> plain_parameter p) -> told_apart hash parameters ->
  plain_object d -> NoDup names -> names <> [] -> (forall n, In n names <-> members_look_at d n) -> (forall n, In n names -> In n (keys defs)) ->
  (List.length names <= 4 \/ some_related defs names) -> deployment hash parameters w0 -> gives defs w0 names b0 ->
  exists limit, forall fuel, limit <= fuel ->
  exists ms, inclusive_check order (load hash fuel template) (VDict d) table p = Ok ms /\
    forall m, In m ms -> exists sc b k e, Permutation sc (scenario_of names b) /\ lists table k e /\
      (forall d', deployed b d d' -> only_first (keys d') k e) /\ m = mkRM p ("Property " ++ e ++ " should exist with " ++ k ++ " " ++ scenario_text sc ++ " for " ++ path_text p) /\
      ((some_related defs names \/ forall n, In n names -> exists w, deployment hash parameters w /\ gives defs w [n] b) ->
       exists w, deployment hash parameters w /\ gives defs w names b).
Proof.
  intros Hh Ho Hc Hp Hcn Hcw Hpn Hpp Hta Hd Hnd Hne Hn Hdef Hsz Hw0 Hg0.
  destruct (pair_real negb inclusive_match eq_refl hash order template defs parameters d names table p w0 b0 Hh Ho Hc Hp Hcn Hcw Hpn Hpp Hta Hd Hnd Hne Hn Hdef Hsz Hw0 Hg0) as [limit H].
  exists limit. intros fuel Hf. destruct (H fuel Hf) as [ms [E Hms]]. exists ms. split; [rewrite inclusive_pairs; [exact E|]|].
  { intros ->. destruct names as [|n names]; [congruence|]. destruct (proj1 (Hn n) (or_introl eq_refl)) as [? [? [[] _]]]. }
  intros m Hm. destruct (Hms m Hm) as [sc [b [k [e [H1 [H2 [H3 [-> H4]]]]]]]].
  exists sc, b, k, e. split; [exact H1|]. split; [exact H2|]. split; [exact H3|]. split; [|exact H4]. unfold inclusive_match. cbn [with_scenario]. rewrite append_assoc. reflexivity.
Qed.

(** * Findings of a run *)
Definition in_object (pd : list (string * val)) (p : path) (m : rulematch) : Prop := rm_path m = p \/ exists k, In k (keys pd) /\ rm_path m = (p ++ [PKey k])%list.
Lemma in_object_at pd p m t : NoDup (keys pd) -> p <> [] -> at_path p t = Some (VDict pd) -> in_object pd p m -> rm_path m <> [] /\ exists x, at_path (rm_path m) t = Some x.
Proof.
  intros Hn Hp Ha [->|[k [Hk ->]]]; [eauto|]. split; [now destruct p|]. rewrite at_path_app, Ha. cbn [at_path].
  apply in_map_iff in Hk as [[k' x] [E Hk]]. cbn in E. subst k'. apply (assoc_NoDup k x) in Hk; [|exact Hn]. rewrite Hk. eauto.
Qed.
Lemma table_in_run {A} hash fuel id (rts pts : list (string * list A)) check sp k c raw name rt attrs pd m0 d0 ms m :
  snd (coll_run sp k c) = Ok raw -> In (table_rule hash fuel id rts pts check) (k_all k) -> enabled (k_set k) (table_rule hash fuel id rts pts check) = true ->
  wf (template c) -> c_tmpl c = MDict m0 d0 -> resource_of (template c) name rt attrs -> assoc "Properties" attrs = Some (VDict pd) -> NoDup (keys pd) -> In rt (keys rts) ->
  check (load hash fuel (template c)) (VDict pd) (table_of rt rts) (props_path name) = Ok ms -> (forall m, In m ms -> in_object pd (props_path name) m) ->
  In m ms -> exists f, locate_match c id m = Ok f /\ In f raw.
Proof.
  intros Hrun Hr He Hw Hc Hres Hp Hnd Hrt Hms Hin Hm. refine (reported_props sp k c raw _ _ name rt attrs pd ms m m0 d0 Hrun Hr He eq_refl _ Hc Hres Hp Hms _ Hm).
  - cbn. rewrite app_nil_r. exact Hrt.
  - intros x Hx. apply (in_object_at pd (props_path name)); [exact Hnd | discriminate | exact (resource_at c name rt attrs pd Hw Hres Hp) | now apply Hin].
Qed.
Lemma table_nested_in_run {A} hash fuel id (rts pts : list (string * list A)) check sp k c raw name rt attrs pd n d q m0 d0 ms m :
  snd (coll_run sp k c) = Ok raw -> In (table_rule hash fuel id rts pts check) (k_all k) -> enabled (k_set k) (table_rule hash fuel id rts pts check) = true ->
  wf (template c) -> c_tmpl c = MDict m0 d0 -> resource_of (template c) name rt attrs -> assoc "Properties" attrs = Some (VDict pd) ->
  resource_nested sp rt (VDict pd) (props_path name) n (VDict d) q -> ~ is_if (VDict d) -> NoDup (keys d) -> In n (keys pts) ->
  check (load hash fuel (template c)) (VDict d) (table_of n pts) q = Ok ms -> (forall m, In m ms -> in_object d q m) ->
  In m ms -> exists f, locate_match c id m = Ok f /\ In f raw.
Proof.
  intros Hrun Hr He Hw Hc Hres Hp Hne Hif Hnd Hrt Hms Hin Hm. refine (reported_subs sp k c raw _ _ name rt attrs pd n (VDict d) q ms m m0 d0 Hrun Hr He eq_refl _ Hc Hres Hp Hne Hif Hms _ Hm).
  - cbn. rewrite app_nil_r. exact Hrt.
  - intros x Hx. eapply in_object_at; [exact Hnd | exact (resource_nested_nonempty _ _ _ _ _ _ _ Hne) | exact (resource_nested_at sp rt _ _ _ _ _ _ Hw (resource_at c name rt attrs pd Hw Hres Hp) Hne) | now apply Hin].
Qed.
Lemma group_in_object order c words bad d groups p ms : group_check order c words bad (VDict d) groups p = Ok ms -> forall m, In m ms -> in_object d p m.
Proof. intros E m Hm. apply (group_in _ _ _ _ _ _ _ _ E) in Hm as [group [w [q [sets [s [o [n [_ [_ [_ [_ [_ [_ ->]]]]]]]]]]]]]. now left. Qed.
Lemma pair_in_object order c d table p ms : plain_object d -> exclusive_check order c (VDict d) table p = Ok ms -> forall m, In m ms -> in_object d p m.
Proof.
  intros Hd E m Hm. rewrite exclusive_pairs in E. unfold pair_check in E. destruct (get_object_without_conditions order c (VDict d) []) as [sets|] eqn:Es; [|discriminate].
  assert (E' : pair_check (fun b => b) exclusive_match order c (VDict d) table p = Ok ms) by (unfold pair_check; rewrite Es; exact E).
  apply (pair_in (fun b => b) exclusive_match eq_refl _ _ _ _ _ _ _ E' Es (sets_objects _ _ _ _ Hd Es)) in Hm as [s [d' [k [e [Hi [_ [[Hk _] ->]]]]]]]. right. exists k. split; [|reflexivity].
  assert (Hk' : In k (keys d')) by (apply in_map_iff in Hk as [[k' x] [<- Hk]]; apply filter_In in Hk as [Hk _]; apply in_map_iff; now exists (k', x)).
  destruct Hd as [H1 [H2 H3]]. destruct (c18_only order c d [] sets s (VDict d') H1 H2 H3 Es Hi) as [[_ [= ->]]|[sc [d2 [_ [Hr [= ->]]]]]]; [exact Hk' | now apply (resolved_members_keys _ _ _ Hr)].
Qed.
Lemma inclusive_in_object order c v table p ms pd : inclusive_check order c v table p = Ok ms -> forall m, In m ms -> in_object pd p m.
Proof.
  intros E m Hm. unfold inclusive_check in E. destruct (truthy v); [|injection E as <-; destruct Hm]. destruct (get_object_without_conditions order c v []) as [sets|]; cbn [bind] in E; [|discriminate].
  apply (concat_res_ok_iff _ _ _ E) in Hm as [[s o] [out [_ [Eo Hm]]]]. unfold inclusive_set in Eo. cbn [fst snd] in Eo. destruct (cleaned o) as [obj|]; cbn [bind] in Eo; [|discriminate]. injection Eo as <-.
  apply in_flat_map in Hm as [[k x] [_ Hm]]. cbn [fst] in Hm. destruct (assoc k table) as [l|]; [|destruct Hm]. apply in_flat_map in Hm as [e [_ Hm]]. destruct (mem_assoc e obj); [destruct Hm|]. destruct Hm as [<-|[]]. now left.
Qed.
Lemma exclusive_in_run hash order fuel rts pts sp k c raw name rt attrs pd m0 d0 ms m :
  snd (coll_run sp k c) = Ok raw -> In (exclusive_rule hash order fuel rts pts) (k_all k) -> enabled (k_set k) (exclusive_rule hash order fuel rts pts) = true ->
  wf (template c) -> c_tmpl c = MDict m0 d0 -> resource_of (template c) name rt attrs -> assoc "Properties" attrs = Some (VDict pd) -> plain_object pd -> In rt (keys rts) ->
  exclusive_check order (load hash fuel (template c)) (VDict pd) (table_of rt rts) [PKey "Resources"; PKey name; PKey "Properties"] = Ok ms -> In m ms ->
  exists f, locate_match c "E2520" m = Ok f /\ In f raw.
Proof.
  intros Hrun Hr He Hw Hc Hres Hp Hpl Hrt Hms Hm. apply (table_in_run hash fuel "E2520" rts pts (exclusive_check order) sp k c raw name rt attrs pd m0 d0 ms m Hrun Hr He Hw Hc Hres Hp (proj1 Hpl) Hrt Hms); [|exact Hm].
  apply (pair_in_object _ _ _ _ _ _ Hpl Hms).
Qed.
Lemma exclusive_nested_in_run hash order fuel rts pts sp k c raw name rt attrs pd n d q m0 d0 ms m :
  snd (coll_run sp k c) = Ok raw -> In (exclusive_rule hash order fuel rts pts) (k_all k) -> enabled (k_set k) (exclusive_rule hash order fuel rts pts) = true ->
  wf (template c) -> c_tmpl c = MDict m0 d0 -> resource_of (template c) name rt attrs -> assoc "Properties" attrs = Some (VDict pd) ->
  resource_nested sp rt (VDict pd) [PKey "Resources"; PKey name; PKey "Properties"] n (VDict d) q -> plain_object d -> In n (keys pts) ->
  exclusive_check order (load hash fuel (template c)) (VDict d) (table_of n pts) q = Ok ms -> In m ms ->
  exists f, locate_match c "E2520" m = Ok f /\ In f raw.
Proof.
  intros Hrun Hr He Hw Hc Hres Hp Hne Hpl Hrt Hms Hm.
  assert (Hif : ~ is_if (VDict d)) by (intros [x E]; injection E as E; destruct Hpl as [_ [H _]]; now apply (H x)).
  apply (table_nested_in_run hash fuel "E2520" rts pts (exclusive_check order) sp k c raw name rt attrs pd n d q m0 d0 ms m Hrun Hr He Hw Hc Hres Hp Hne Hif (proj1 Hpl) Hrt Hms); [|exact Hm].
  apply (pair_in_object _ _ _ _ _ _ Hpl Hms).
Qed.

Lemma inclusive_in_run hash order fuel rts pts sp k c raw name rt attrs pd m0 d0 ms m :
  snd (coll_run sp k c) = Ok raw -> In (inclusive_rule hash order fuel rts pts) (k_all k) -> enabled (k_set k) (inclusive_rule hash order fuel rts pts) = true ->
  wf (template c) -> c_tmpl c = MDict m0 d0 -> resource_of (template c) name rt attrs -> assoc "Properties" attrs = Some (VDict pd) -> plain_object pd -> In rt (keys rts) ->
  inclusive_check order (load hash fuel (template c)) (VDict pd) (table_of rt rts) [PKey "Resources"; PKey name; PKey "Properties"] = Ok ms -> In m ms ->
  exists f, locate_match c "E2521" m = Ok f /\ In f raw.
Proof.
  intros Hrun Hr He Hw Hc Hres Hp Hpl Hrt Hms Hm. apply (table_in_run hash fuel "E2521" rts pts (inclusive_check order) sp k c raw name rt attrs pd m0 d0 ms m Hrun Hr He Hw Hc Hres Hp (proj1 Hpl) Hrt Hms); [|exact Hm].
  apply (inclusive_in_object _ _ _ _ _ _ _ Hms).
Qed.
Lemma inclusive_nested_in_run hash order fuel rts pts sp k c raw name rt attrs pd n d q m0 d0 ms m :
  snd (coll_run sp k c) = Ok raw -> In (inclusive_rule hash order fuel rts pts) (k_all k) -> enabled (k_set k) (inclusive_rule hash order fuel rts pts) = true ->
  wf (template c) -> c_tmpl c = MDict m0 d0 -> resource_of (template c) name rt attrs -> assoc "Properties" attrs = Some (VDict pd) ->
  resource_nested sp rt (VDict pd) [PKey "Resources"; PKey name; PKey "Properties"] n (VDict d) q -> plain_object d -> In n (keys pts) ->
  inclusive_check order (load hash fuel (template c)) (VDict d) (table_of n pts) q = Ok ms -> In m ms ->
  exists f, locate_match c "E2521" m = Ok f /\ In f raw.
Proof.
  intros Hrun Hr He Hw Hc Hres Hp Hne Hpl Hrt Hms Hm.
  assert (Hif : ~ is_if (VDict d)) by (intros [x E]; injection E as E; destruct Hpl as [_ [H _]]; now apply (H x)).
  apply (table_nested_in_run hash fuel "E2521" rts pts (inclusive_check order) sp k c raw name rt attrs pd n d q m0 d0 ms m Hrun Hr He Hw Hc Hres Hp Hne Hif (proj1 Hpl) Hrt Hms); [|exact Hm].
  apply (inclusive_in_object _ _ _ _ _ _ _ Hms).
Qed.

Lemma at_least_one_in_run hash order fuel rts pts sp k c raw name rt attrs pd m0 d0 ms m :
  snd (coll_run sp k c) = Ok raw -> In (at_least_one_rule hash order fuel rts pts) (k_all k) -> enabled (k_set k) (at_least_one_rule hash order fuel rts pts) = true ->
  wf (template c) -> c_tmpl c = MDict m0 d0 -> resource_of (template c) name rt attrs -> assoc "Properties" attrs = Some (VDict pd) -> plain_object pd -> In rt (keys rts) ->
  at_least_one_check order (load hash fuel (template c)) (VDict pd) (table_of rt rts) [PKey "Resources"; PKey name; PKey "Properties"] = Ok ms -> In m ms ->
  exists f, locate_match c "E2522" m = Ok f /\ In f raw.
Proof.
  intros Hrun Hr He Hw Hc Hres Hp Hpl Hrt Hms Hm. apply (table_in_run hash fuel "E2522" rts pts (at_least_one_check order) sp k c raw name rt attrs pd m0 d0 ms m Hrun Hr He Hw Hc Hres Hp (proj1 Hpl) Hrt Hms); [|exact Hm].
  apply (group_in_object _ _ _ _ _ _ _ _ Hms).
Qed.
Lemma at_least_one_nested_in_run hash order fuel rts pts sp k c raw name rt attrs pd n d q m0 d0 ms m :
  snd (coll_run sp k c) = Ok raw -> In (at_least_one_rule hash order fuel rts pts) (k_all k) -> enabled (k_set k) (at_least_one_rule hash order fuel rts pts) = true ->
  wf (template c) -> c_tmpl c = MDict m0 d0 -> resource_of (template c) name rt attrs -> assoc "Properties" attrs = Some (VDict pd) ->
  resource_nested sp rt (VDict pd) [PKey "Resources"; PKey name; PKey "Properties"] n (VDict d) q -> plain_object d -> In n (keys pts) ->
  at_least_one_check order (load hash fuel (template c)) (VDict d) (table_of n pts) q = Ok ms -> In m ms ->
  exists f, locate_match c "E2522" m = Ok f /\ In f raw.
Proof.
  intros Hrun Hr He Hw Hc Hres Hp Hne Hpl Hrt Hms Hm.
  assert (Hif : ~ is_if (VDict d)) by (intros [x E]; injection E as E; destruct Hpl as [_ [H _]]; now apply (H x)).
  apply (table_nested_in_run hash fuel "E2522" rts pts (at_least_one_check order) sp k c raw name rt attrs pd n d q m0 d0 ms m Hrun Hr He Hw Hc Hres Hp Hne Hif (proj1 Hpl) Hrt Hms); [|exact Hm].
  apply (group_in_object _ _ _ _ _ _ _ _ Hms).
Qed.

Lemma only_one_in_run hash order fuel rts pts sp k c raw name rt attrs pd m0 d0 ms m :
  snd (coll_run sp k c) = Ok raw -> In (only_one_rule hash order fuel rts pts) (k_all k) -> enabled (k_set k) (only_one_rule hash order fuel rts pts) = true ->
  wf (template c) -> c_tmpl c = MDict m0 d0 -> resource_of (template c) name rt attrs -> assoc "Properties" attrs = Some (VDict pd) -> plain_object pd -> In rt (keys rts) ->
  only_one_check order (load hash fuel (template c)) (VDict pd) (table_of rt rts) [PKey "Resources"; PKey name; PKey "Properties"] = Ok ms -> In m ms ->
  exists f, locate_match c "E2523" m = Ok f /\ In f raw.
Proof.
  intros Hrun Hr He Hw Hc Hres Hp Hpl Hrt Hms Hm. apply (table_in_run hash fuel "E2523" rts pts (only_one_check order) sp k c raw name rt attrs pd m0 d0 ms m Hrun Hr He Hw Hc Hres Hp (proj1 Hpl) Hrt Hms); [|exact Hm].
  apply (group_in_object _ _ _ _ _ _ _ _ Hms).
Qed.
Lemma only_one_nested_in_run hash order fuel rts pts sp k c raw name rt attrs pd n d q m0 d0 ms m :
  snd (coll_run sp k c) = Ok raw -> In (only_one_rule hash order fuel rts pts) (k_all k) -> enabled (k_set k) (only_one_rule hash order fuel rts pts) = true ->
  wf (template c) -> c_tmpl c = MDict m0 d0 -> resource_of (template c) name rt attrs -> assoc "Properties" attrs = Some (VDict pd) ->
  resource_nested sp rt (VDict pd) [PKey "Resources"; PKey name; PKey "Properties"] n (VDict d) q -> plain_object d -> In n (keys pts) ->
  only_one_check order (load hash fuel (template c)) (VDict d) (table_of n pts) q = Ok ms -> In m ms ->
  exists f, locate_match c "E2523" m = Ok f /\ In f raw.
Proof.
  intros Hrun Hr He Hw Hc Hres Hp Hne Hpl Hrt Hms Hm.
  assert (Hif : ~ is_if (VDict d)) by (intros [x E]; injection E as E; destruct Hpl as [_ [H _]]; now apply (H x)).
  apply (table_nested_in_run hash fuel "E2523" rts pts (only_one_check order) sp k c raw name rt attrs pd n d q m0 d0 ms m Hrun Hr He Hw Hc Hres Hp Hne Hif (proj1 Hpl) Hrt Hms); [|exact Hm].
  apply (group_in_object _ _ _ _ _ _ _ _ Hms).
Qed.
