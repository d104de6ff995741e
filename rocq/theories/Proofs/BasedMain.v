(** The statements of C66. *)
From Coq Require Import Permutation Lia.
From Verif.Model Require Import Base Helpers Locate Node Conditions Search Resolve Rules Refs Relationship PropertyRules BasedOn.
From Verif.Spec Require Import Paths Branches Walk Required Truth Resolved Groups Based.
From Verif.Proofs Require Import BaseFacts BranchProofs SearchProofs ConditionProofs ResolveProofs ScenarioMain SetProofs PropertyRuleProofs GroupProofs GroupMain BasedProofs.
Import ListNotations.
Import Verif.Model.Rules.
Local Open Scope string_scope.

Lemma based_in_run matches hash order fuel id which wrong words rts pts sp k c raw name rt attrs pd m0 d0 ms m :
  snd (coll_run sp k c) = Ok raw -> In (based_rule matches hash order fuel id which wrong words rts pts) (k_all k) -> enabled (k_set k) (based_rule matches hash order fuel id which wrong words rts pts) = true ->
  wf (template c) -> c_tmpl c = MDict m0 d0 -> resource_of (template c) name rt attrs -> assoc "Properties" attrs = Some (VDict pd) -> In rt (based_types which rts) ->
  based_check matches (template c) order (load hash fuel (template c)) which wrong words (VDict pd) (table_of rt rts) (props_path name) = Ok ms ->
  In m ms -> exists f, locate_match c id m = Ok f /\ In f raw.
Proof.
  intros Hrun Hr He Hw Hc Hres Hp Hrt Hms Hm. refine (reported_props sp k c raw _ _ name rt attrs pd ms m m0 d0 Hrun Hr He eq_refl _ Hc Hres Hp Hms _ Hm).
  - cbn. rewrite app_nil_r. exact Hrt.
  - intros x Hx. apply (entry_in _ _ _ _ _ _ _ _ _ _ _ Hms) in Hx as [k0 [s [o [_ [Es Hx]]]]]. unfold based_spec in Es. destruct (which s) as [|w ws]; [injection Es as <-; destruct Hx|].
    destruct (get_object_without_conditions order (load hash fuel (template c)) (VDict pd) (k0 :: w :: ws)) as [sets|]; cbn [bind] in Es; [|discriminate].
    apply (concat_res_ok_iff _ _ _ Es) in Hx as [[sc o'] [o2 [_ [E2 Hx]]]]. unfold based_set in E2. cbn [fst snd] in E2. destruct (vget k0 o') as [v|]; cbn [bind] in E2; [|discriminate].
    destruct (value_fits matches (template c) v s) as [b|]; cbn [bind] in E2; [|discriminate]. injection E2 as <-. destruct b; [|destruct Hx]. apply in_flat_map in Hx as [prop [_ Hx]].
    destruct (wrong (mem_assoc prop (dict_of o'))); [|destruct Hx]. destruct Hx as [<-|[]]. cbn [based_match rm_path]. split; [discriminate|]. exists (VDict pd). exact (resource_at c name rt attrs pd Hw Hres Hp).
Qed.
Lemma based_nested_in_run matches hash order fuel id which wrong words rts pts sp k c raw name rt attrs pd n d q m0 d0 ms m :
  snd (coll_run sp k c) = Ok raw -> In (based_rule matches hash order fuel id which wrong words rts pts) (k_all k) -> enabled (k_set k) (based_rule matches hash order fuel id which wrong words rts pts) = true ->
  wf (template c) -> c_tmpl c = MDict m0 d0 -> resource_of (template c) name rt attrs -> assoc "Properties" attrs = Some (VDict pd) ->
  resource_nested sp rt (VDict pd) (props_path name) n (VDict d) q -> ~ is_if (VDict d) -> In n (based_types which pts) ->
  based_check matches (template c) order (load hash fuel (template c)) which wrong words (VDict d) (table_of n pts) q = Ok ms ->
  In m ms -> exists f, locate_match c id m = Ok f /\ In f raw.
Proof.
  intros Hrun Hr He Hw Hc Hres Hp Hne Hif Hrt Hms Hm. refine (reported_subs sp k c raw _ _ name rt attrs pd n (VDict d) q ms m m0 d0 Hrun Hr He eq_refl _ Hc Hres Hp Hne Hif Hms _ Hm).
  - cbn. rewrite app_nil_r. exact Hrt.
  - intros x Hx. apply (entry_in _ _ _ _ _ _ _ _ _ _ _ Hms) in Hx as [k0 [s [o [_ [Es Hx]]]]]. unfold based_spec in Es. destruct (which s) as [|w ws]; [injection Es as <-; destruct Hx|].
    destruct (get_object_without_conditions order (load hash fuel (template c)) (VDict d) (k0 :: w :: ws)) as [sets|]; cbn [bind] in Es; [|discriminate].
    apply (concat_res_ok_iff _ _ _ Es) in Hx as [[sc o'] [o2 [_ [E2 Hx]]]]. unfold based_set in E2. cbn [fst snd] in E2. destruct (vget k0 o') as [v|]; cbn [bind] in E2; [|discriminate].
    destruct (value_fits matches (template c) v s) as [b|]; cbn [bind] in E2; [|discriminate]. injection E2 as <-. destruct b; [|destruct Hx]. apply in_flat_map in Hx as [prop [_ Hx]].
    destruct (wrong (mem_assoc prop (dict_of o'))); [|destruct Hx]. destruct Hx as [<-|[]]. cbn [based_match rm_path]. split; [exact (resource_nested_nonempty _ _ _ _ _ _ _ Hne)|].
    exists (VDict d). exact (resource_nested_at sp rt _ _ _ _ _ _ Hw (resource_at c name rt attrs pd Hw Hres Hp) Hne).
Qed.
Lemma entry_type which rts rt k s prop : entry (table_of rt rts) k s -> In prop (which s) -> In rt (based_types which rts).
Proof.
  intros [l [Hl Hs]] Hp. unfold table_of in Hl. destruct (assoc rt rts) as [t|] eqn:E; [|destruct Hl]. apply assoc_In in E. unfold based_types, keys. apply in_map_iff. exists (rt, t). split; [reflexivity|].
  apply filter_In. split; [exact E|]. cbn [snd]. apply existsb_exists. exists (k, l). split; [exact Hl|]. cbn [snd]. apply existsb_exists. exists s. split; [exact Hs|]. destruct (which s); [destruct Hp | reflexivity].
Qed.

Lemma c66_needed_plain matches template order c d specs p :
  (forall l, Permutation (order l) l) -> plain_object d -> VDict d <> no_value ->
  (forall k s, entry specs k s -> ~ In "Fn::If" (k :: bs_required s) /\ (forall n, ~ group_looks_at d (k :: bs_required s) n) /\ forall x, assoc k d = Some x -> judged template x) ->
  exists ms, based_check matches template order c bs_required negb "should be specified" (VDict d) specs p = Ok ms /\
    forall m, In m ms <-> exists k s prop, entry specs k s /\ asks matches template s (bs_required s) k prop d /\ ~ In prop (keys d) /\
      m = mkRM p ("When property '" ++ k ++ "' has its current value property '" ++ prop ++ "' should be specified at " ++ path_text p).
Proof.
  intros Ho Hd Hnv H. destruct (based_plain matches template order Ho bs_required negb "should be specified" c d specs p Hd Hnv H) as [ms [E Hms]].
  exists ms. split; [exact E|]. intros m. rewrite Hms. split; intros [k [s [prop H1]]]; exists k, s, prop; rewrite ?needed_iff in *; tauto.
Qed.
Lemma c66_needed_found matches order hash template defs parameters fuel w b d names specs p k s prop d' ms :
  (forall v, digest (hash v)) -> (forall l, Permutation (order l) l) ->
  section_of "Conditions" template defs -> section_of "Parameters" template parameters ->
  plain_object d -> entry specs k s -> ~ In "Fn::If" (k :: bs_required s) ->
  NoDup names -> names <> [] -> (forall n, In n names <-> group_looks_at d (k :: bs_required s) n) ->
  (forall n, In n names -> mem_assoc n (cs_conditions (load hash fuel template)) = true) ->
  (List.length names <= 4 \/ some_related defs names) ->
  deployment hash parameters w -> gives defs w names b ->
  deployed b d d' -> asks matches template s (bs_required s) k prop d' -> ~ In prop (keys d') ->
  based_check matches template order (load hash fuel template) bs_required negb "should be specified" (VDict d) specs p = Ok ms ->
  exists sc, Permutation sc (scenario_of names b) /\
    In (mkRM p ("When property '" ++ k ++ "' has its current value property '" ++ prop ++ "' should be specified when " ++ scenario_text sc)) ms.
Proof.
  intros Hh Ho Hc Hp Hd He Hif Hnd Hne Hn Hl Hs Hw Hg Hdep H1 H2 E.
  apply (based_found matches template order Ho bs_required negb "should be specified" hash defs parameters fuel w b d names specs p k s prop d' ms); auto. now apply needed_iff.
Qed.
Lemma c66_needed_real matches order hash template defs parameters d specs p w0 b0 :
  (forall v, digest (hash v)) -> (forall l, Permutation (order l) l) ->
  section_of "Conditions" template defs -> section_of "Parameters" template parameters ->
  NoDup (keys defs) -> (forall n v, In (n, v) defs -> well_formed defs v) ->
  NoDup (keys parameters) -> (forall n p, In (n, p) parameters -> plain_parameter p) -> told_apart hash parameters ->
  plain_object d -> VDict d <> no_value -> deployment hash parameters w0 -> gives defs w0 (keys defs) b0 ->
  (forall k s, entry specs k s -> ~ In "Fn::If" (k :: bs_required s) /\
     (forall x, assoc k d = Some x -> judged template x) /\ (forall b d' x, deployed b d d' -> assoc k d' = Some x -> judged template x) /\
     exists names, NoDup names /\ (forall n, In n names <-> group_looks_at d (k :: bs_required s) n) /\
       (forall n, In n names -> In n (keys defs)) /\ (List.length names <= 4 \/ some_related defs names)) ->
  exists limit, forall fuel, limit <= fuel ->
  exists ms, based_check matches template order (load hash fuel template) bs_required negb "should be specified" (VDict d) specs p = Ok ms /\
    forall m, In m ms -> exists k s prop, entry specs k s /\
      ((forall n, ~ group_looks_at d (k :: bs_required s) n) /\ asks matches template s (bs_required s) k prop d /\ ~ In prop (keys d) /\
         m = mkRM p ("When property '" ++ k ++ "' has its current value property '" ++ prop ++ "' should be specified at " ++ path_text p) \/
       exists names b sc, NoDup names /\ names <> [] /\ (forall n, In n names <-> group_looks_at d (k :: bs_required s) n) /\ Permutation sc (scenario_of names b) /\
         (forall d', deployed b d d' -> asks matches template s (bs_required s) k prop d' /\ ~ In prop (keys d')) /\
         m = mkRM p ("When property '" ++ k ++ "' has its current value property '" ++ prop ++ "' should be specified when " ++ scenario_text sc) /\
         ((some_related defs names \/ forall n, In n names -> exists w, deployment hash parameters w /\ gives defs w [n] b) ->
          exists w, deployment hash parameters w /\ gives defs w names b)).
Proof.
  intros Hh Ho Hc Hp Hcn Hcw Hpn Hpp Hta Hd Hnv Hw0 Hg0 H.
  destruct (based_real matches template order Ho bs_required negb "should be specified" hash defs parameters d specs p w0 b0 Hh Hc Hp Hcn Hcw Hpn Hpp Hta Hd Hnv Hw0 Hg0 H) as [limit Hl].
  exists limit. intros fuel Hf. destruct (Hl fuel Hf) as [ms [E Hms]]. exists ms. split; [exact E|]. intros m Hm. destruct (Hms m Hm) as [k [s [prop [He [[H1 [H2 H3]]|[names [b [sc [N1 [N2 [N3 [N4 [N5 [N6 N7]]]]]]]]]]]]]]; exists k, s, prop; (split; [exact He|]).
  - left. destruct (proj1 (needed_iff _ _ _ _ _ _) H2) as [K K']. split; [exact H1|]. split; [exact K|]. split; [exact K' | exact H3].
  - right. exists names, b, sc. split; [exact N1|]. split; [exact N2|]. split; [exact N3|]. split; [exact N4|]. split; [|split; [exact N6 | exact N7]].
    intros d' Hd'. now apply needed_iff, N5.
Qed.
Lemma c66_needed_run matches hash order fuel rts pts sp cl c raw name rt attrs pd m0 d0 k s prop :
  (forall l, Permutation (order l) l) ->
  snd (coll_run sp cl c) = Ok raw -> In (required_based_rule matches hash order fuel rts pts) (k_all cl) -> enabled (k_set cl) (required_based_rule matches hash order fuel rts pts) = true ->
  wf (template c) -> c_tmpl c = MDict m0 d0 -> resource_of (template c) name rt attrs -> assoc "Properties" attrs = Some (VDict pd) ->
  plain_object pd -> VDict pd <> no_value ->
  (forall k s, entry (table_of rt rts) k s -> ~ In "Fn::If" (k :: bs_required s) /\ (forall n, ~ group_looks_at pd (k :: bs_required s) n) /\ forall x, assoc k pd = Some x -> judged (template c) x) ->
  entry (table_of rt rts) k s -> asks matches (template c) s (bs_required s) k prop pd -> ~ In prop (keys pd) ->
  exists f, locate_match c "E3017" (mkRM (props_path name) ("When property '" ++ k ++ "' has its current value property '" ++ prop ++ "' should be specified at " ++ path_text (props_path name))) = Ok f /\ In f raw.
Proof.
  intros Ho Hrun Hr He Hw Hc Hres Hp Hd Hnv H Hk H1 H2.
  destruct (c66_needed_plain matches (template c) order (load hash fuel (template c)) pd (table_of rt rts) (props_path name) Ho Hd Hnv H) as [ms [E Hms]].
  refine (based_in_run matches hash order fuel "E3017" bs_required negb "should be specified" rts pts sp cl c raw name rt attrs pd m0 d0 ms _ Hrun Hr He Hw Hc Hres Hp _ E _).
  - destruct H1 as [x [_ [_ Hpr]]]. now apply (entry_type _ _ _ _ _ _ Hk Hpr).
  - apply Hms. exists k, s, prop. auto.
Qed.
Lemma c66_needed_nested_run matches hash order fuel rts pts sp cl c raw name rt attrs pd n d q m0 d0 k s prop :
  (forall l, Permutation (order l) l) ->
  snd (coll_run sp cl c) = Ok raw -> In (required_based_rule matches hash order fuel rts pts) (k_all cl) -> enabled (k_set cl) (required_based_rule matches hash order fuel rts pts) = true ->
  wf (template c) -> c_tmpl c = MDict m0 d0 -> resource_of (template c) name rt attrs -> assoc "Properties" attrs = Some (VDict pd) ->
  resource_nested sp rt (VDict pd) (props_path name) n (VDict d) q -> plain_object d -> VDict d <> no_value ->
  (forall k s, entry (table_of n pts) k s -> ~ In "Fn::If" (k :: bs_required s) /\ (forall n, ~ group_looks_at d (k :: bs_required s) n) /\ forall x, assoc k d = Some x -> judged (template c) x) ->
  entry (table_of n pts) k s -> asks matches (template c) s (bs_required s) k prop d -> ~ In prop (keys d) ->
  exists f, locate_match c "E3017" (mkRM q ("When property '" ++ k ++ "' has its current value property '" ++ prop ++ "' should be specified at " ++ path_text q)) = Ok f /\ In f raw.
Proof.
  intros Ho Hrun Hr He Hw Hc Hres Hp Hne Hd Hnv H Hk H1 H2.
  destruct (c66_needed_plain matches (template c) order (load hash fuel (template c)) d (table_of n pts) q Ho Hd Hnv H) as [ms [E Hms]].
  refine (based_nested_in_run matches hash order fuel "E3017" bs_required negb "should be specified" rts pts sp cl c raw name rt attrs pd n d q m0 d0 ms _ Hrun Hr He Hw Hc Hres Hp Hne _ _ E _).
  - intros [x Ex]. destruct Hd as [_ [Hd _]]. injection Ex as Ex. now apply (Hd x).
  - destruct H1 as [x [_ [_ Hpr]]]. now apply (entry_type _ _ _ _ _ _ Hk Hpr).
  - apply Hms. exists k, s, prop. auto.
Qed.

Lemma c66_unwanted_plain matches template order c d specs p :
  (forall l, Permutation (order l) l) -> plain_object d -> VDict d <> no_value ->
  (forall k s, entry specs k s -> ~ In "Fn::If" (k :: bs_unwanted s) /\ (forall n, ~ group_looks_at d (k :: bs_unwanted s) n) /\ forall x, assoc k d = Some x -> judged template x) ->
  exists ms, based_check matches template order c bs_unwanted (fun b => b) "should not be specified" (VDict d) specs p = Ok ms /\
    forall m, In m ms <-> exists k s prop, entry specs k s /\ asks matches template s (bs_unwanted s) k prop d /\ In prop (keys d) /\
      m = mkRM p ("When property '" ++ k ++ "' has its current value property '" ++ prop ++ "' should not be specified at " ++ path_text p).
Proof.
  intros Ho Hd Hnv H. destruct (based_plain matches template order Ho bs_unwanted (fun b => b) "should not be specified" c d specs p Hd Hnv H) as [ms [E Hms]].
  exists ms. split; [exact E|]. intros m. rewrite Hms. split; intros [k [s [prop H1]]]; exists k, s, prop; rewrite ?unwanted_iff in *; tauto.
Qed.
Lemma c66_unwanted_found matches order hash template defs parameters fuel w b d names specs p k s prop d' ms :
  (forall v, digest (hash v)) -> (forall l, Permutation (order l) l) ->
  section_of "Conditions" template defs -> section_of "Parameters" template parameters ->
  plain_object d -> entry specs k s -> ~ In "Fn::If" (k :: bs_unwanted s) ->
  NoDup names -> names <> [] -> (forall n, In n names <-> group_looks_at d (k :: bs_unwanted s) n) ->
  (forall n, In n names -> mem_assoc n (cs_conditions (load hash fuel template)) = true) ->
  (List.length names <= 4 \/ some_related defs names) ->
  deployment hash parameters w -> gives defs w names b ->
  deployed b d d' -> asks matches template s (bs_unwanted s) k prop d' -> In prop (keys d') ->
  based_check matches template order (load hash fuel template) bs_unwanted (fun b => b) "should not be specified" (VDict d) specs p = Ok ms ->
  exists sc, Permutation sc (scenario_of names b) /\
    In (mkRM p ("When property '" ++ k ++ "' has its current value property '" ++ prop ++ "' should not be specified when " ++ scenario_text sc)) ms.
Proof.
  intros Hh Ho Hc Hp Hd He Hif Hnd Hne Hn Hl Hs Hw Hg Hdep H1 H2 E.
  apply (based_found matches template order Ho bs_unwanted (fun b => b) "should not be specified" hash defs parameters fuel w b d names specs p k s prop d' ms); auto. now apply unwanted_iff.
Qed.
Lemma c66_unwanted_real matches order hash template defs parameters d specs p w0 b0 :
  (forall v, digest (hash v)) -> (forall l, Permutation (order l) l) ->
  section_of "Conditions" template defs -> section_of "Parameters" template parameters ->
  NoDup (keys defs) -> (forall n v, In (n, v) defs -> well_formed defs v) ->
  NoDup (keys parameters) -> (forall n p, In (n, p) parameters -> plain_parameter p) -> told_apart hash parameters ->
  plain_object d -> VDict d <> no_value -> deployment hash parameters w0 -> gives defs w0 (keys defs) b0 ->
  (forall k s, entry specs k s -> ~ In "Fn::If" (k :: bs_unwanted s) /\
     (forall x, assoc k d = Some x -> judged template x) /\ (forall b d' x, deployed b d d' -> assoc k d' = Some x -> judged template x) /\
     exists names, NoDup names /\ (forall n, In n names <-> group_looks_at d (k :: bs_unwanted s) n) /\
       (forall n, In n names -> In n (keys defs)) /\ (List.length names <= 4 \/ some_related defs names)) ->
  exists limit, forall fuel, limit <= fuel ->
  exists ms, based_check matches template order (load hash fuel template) bs_unwanted (fun b => b) "should not be specified" (VDict d) specs p = Ok ms /\
    forall m, In m ms -> exists k s prop, entry specs k s /\
      ((forall n, ~ group_looks_at d (k :: bs_unwanted s) n) /\ asks matches template s (bs_unwanted s) k prop d /\ In prop (keys d) /\
         m = mkRM p ("When property '" ++ k ++ "' has its current value property '" ++ prop ++ "' should not be specified at " ++ path_text p) \/
       exists names b sc, NoDup names /\ names <> [] /\ (forall n, In n names <-> group_looks_at d (k :: bs_unwanted s) n) /\ Permutation sc (scenario_of names b) /\
         (forall d', deployed b d d' -> asks matches template s (bs_unwanted s) k prop d' /\ In prop (keys d')) /\
         m = mkRM p ("When property '" ++ k ++ "' has its current value property '" ++ prop ++ "' should not be specified when " ++ scenario_text sc) /\
         ((some_related defs names \/ forall n, In n names -> exists w, deployment hash parameters w /\ gives defs w [n] b) ->
          exists w, deployment hash parameters w /\ gives defs w names b)).
Proof.
  intros Hh Ho Hc Hp Hcn Hcw Hpn Hpp Hta Hd Hnv Hw0 Hg0 H.
  destruct (based_real matches template order Ho bs_unwanted (fun b => b) "should not be specified" hash defs parameters d specs p w0 b0 Hh Hc Hp Hcn Hcw Hpn Hpp Hta Hd Hnv Hw0 Hg0 H) as [limit Hl].
  exists limit. intros fuel Hf. destruct (Hl fuel Hf) as [ms [E Hms]]. exists ms. split; [exact E|]. intros m Hm. destruct (Hms m Hm) as [k [s [prop [He [[H1 [H2 H3]]|[names [b [sc [N1 [N2 [N3 [N4 [N5 [N6 N7]]]]]]]]]]]]]]; exists k, s, prop; (split; [exact He|]).
  - left. destruct (proj1 (unwanted_iff _ _ _ _ _ _) H2) as [K K']. split; [exact H1|]. split; [exact K|]. split; [exact K' | exact H3].
  - right. exists names, b, sc. split; [exact N1|]. split; [exact N2|]. split; [exact N3|]. split; [exact N4|]. split; [|split; [exact N6 | exact N7]].
    intros d' Hd'. now apply unwanted_iff, N5.
Qed.
Lemma c66_unwanted_run matches hash order fuel rts pts sp cl c raw name rt attrs pd m0 d0 k s prop :
  (forall l, Permutation (order l) l) ->
  snd (coll_run sp cl c) = Ok raw -> In (unwanted_based_rule matches hash order fuel rts pts) (k_all cl) -> enabled (k_set cl) (unwanted_based_rule matches hash order fuel rts pts) = true ->
  wf (template c) -> c_tmpl c = MDict m0 d0 -> resource_of (template c) name rt attrs -> assoc "Properties" attrs = Some (VDict pd) ->
  plain_object pd -> VDict pd <> no_value ->
  (forall k s, entry (table_of rt rts) k s -> ~ In "Fn::If" (k :: bs_unwanted s) /\ (forall n, ~ group_looks_at pd (k :: bs_unwanted s) n) /\ forall x, assoc k pd = Some x -> judged (template c) x) ->
  entry (table_of rt rts) k s -> asks matches (template c) s (bs_unwanted s) k prop pd -> In prop (keys pd) ->
  exists f, locate_match c "E3018" (mkRM (props_path name) ("When property '" ++ k ++ "' has its current value property '" ++ prop ++ "' should not be specified at " ++ path_text (props_path name))) = Ok f /\ In f raw.
Proof.
  intros Ho Hrun Hr He Hw Hc Hres Hp Hd Hnv H Hk H1 H2.
  destruct (c66_unwanted_plain matches (template c) order (load hash fuel (template c)) pd (table_of rt rts) (props_path name) Ho Hd Hnv H) as [ms [E Hms]].
  refine (based_in_run matches hash order fuel "E3018" bs_unwanted (fun b => b) "should not be specified" rts pts sp cl c raw name rt attrs pd m0 d0 ms _ Hrun Hr He Hw Hc Hres Hp _ E _).
  - destruct H1 as [x [_ [_ Hpr]]]. now apply (entry_type _ _ _ _ _ _ Hk Hpr).
  - apply Hms. exists k, s, prop. auto.
Qed.
Lemma c66_unwanted_nested_run matches hash order fuel rts pts sp cl c raw name rt attrs pd n d q m0 d0 k s prop :
  (forall l, Permutation (order l) l) ->
  snd (coll_run sp cl c) = Ok raw -> In (unwanted_based_rule matches hash order fuel rts pts) (k_all cl) -> enabled (k_set cl) (unwanted_based_rule matches hash order fuel rts pts) = true ->
  wf (template c) -> c_tmpl c = MDict m0 d0 -> resource_of (template c) name rt attrs -> assoc "Properties" attrs = Some (VDict pd) ->
  resource_nested sp rt (VDict pd) (props_path name) n (VDict d) q -> plain_object d -> VDict d <> no_value ->
  (forall k s, entry (table_of n pts) k s -> ~ In "Fn::If" (k :: bs_unwanted s) /\ (forall n, ~ group_looks_at d (k :: bs_unwanted s) n) /\ forall x, assoc k d = Some x -> judged (template c) x) ->
  entry (table_of n pts) k s -> asks matches (template c) s (bs_unwanted s) k prop d -> In prop (keys d) ->
  exists f, locate_match c "E3018" (mkRM q ("When property '" ++ k ++ "' has its current value property '" ++ prop ++ "' should not be specified at " ++ path_text q)) = Ok f /\ In f raw.
Proof.
  intros Ho Hrun Hr He Hw Hc Hres Hp Hne Hd Hnv H Hk H1 H2.
  destruct (c66_unwanted_plain matches (template c) order (load hash fuel (template c)) d (table_of n pts) q Ho Hd Hnv H) as [ms [E Hms]].
  refine (based_nested_in_run matches hash order fuel "E3018" bs_unwanted (fun b => b) "should not be specified" rts pts sp cl c raw name rt attrs pd n d q m0 d0 ms _ Hrun Hr He Hw Hc Hres Hp Hne _ _ E _).
  - intros [x Ex]. destruct Hd as [_ [Hd _]]. injection Ex as Ex. now apply (Hd x).
  - destruct H1 as [x [_ [_ Hpr]]]. now apply (entry_type _ _ _ _ _ _ Hk Hpr).
  - apply Hms. exists k, s, prop. auto.
Qed.
