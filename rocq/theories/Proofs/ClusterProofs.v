(** E3026: replication groups of clusters. *)
From Coq Require Import QArith Permutation Lia.
From Verif.Model Require Import Base Helpers Locate Node Conditions Search Resolve Rules Relationship PropertyRules ElastiCache.
From Verif.Spec Require Import Paths Branches References Required Walk Values Truth Resolved Groups Protect Clusters.
From Verif.Proofs Require Import RelationRule BaseFacts SearchProofs BranchProofs ConditionProofs ResolveProofs ScenarioMain SetProofs GroupProofs RelationProofs PolicyProofs PropertyRuleProofs Places Says.
Import ListNotations.
Import Verif.Model.Rules.
Local Open Scope string_scope.

(** * One scenario *)
Lemma enabled_iff d : NoDup (keys d) -> is_cluster_enabled (VDict d) = true <-> clustered d.
Proof.
  intros Hd. cbn [is_cluster_enabled]. rewrite existsb_exists. unfold clustered. split.
  - intros [[k x] [Hi H]]. cbn [fst snd] in H. apply andb_true_iff in H as [H1 H2]. apply String.eqb_eq in H1 as ->. apply eq_str_true in H2 as ->. now apply assoc_NoDup.
  - intros H. apply assoc_In in H. eexists. split; [exact H | reflexivity].
Qed.
Lemma no_iff (o : option val) : bool_compare (match o with Some x => x | None => VNull end) (VBool false) = true <-> exists x, o = Some x /\ says_no x.
Proof.
  destruct o as [x|]; [|split; [discriminate | intros [x [[=] _]]]].
  assert (H : bool_compare x (VBool false) = true <-> says_no x).
  { unfold says_no, bool_compare. destruct x as [|[|]| | |s| |]; cbn [str_to_bool Bool.eqb]; try (split; [discriminate | intros [[=]|[s' [[=] _]]]]).
    - split; [now left | reflexivity].
    - assert (E : smem (lower s) ["true"; "True"] = true <-> lower s = "true").
      { rewrite smem_iff. split; [|intros ->; now left]. intros [H|[H|[]]]; [now symmetry|]. exfalso.
        assert (K : lower s = lower (lower s)) by (unfold lower; clear; induction s as [|a s IH]; [reflexivity|]; cbn [map_str]; f_equal; [destruct a as [[] [] [] [] [] [] [] []]; reflexivity | exact IH]).
        rewrite <- H in K. discriminate K. }
      destruct (smem (lower s) ["true"; "True"]); cbn [Bool.eqb]; split; try discriminate; try reflexivity.
      + intros [[=]|[s' [[= <-] K]]]. now elim K; apply E.
      + intros _. right. exists s. split; [reflexivity|]. intros K. apply E in K. discriminate. }
  rewrite H. split; [intros K; eauto | intros [y [[= <-] K]]; exact K].
Qed.
Lemma groups_iff d : truthy (match assoc "NumNodeGroups" d with Some x => x | None => VNull end) = false <-> no_node_groups d.
Proof. unfold no_node_groups. destruct (assoc "NumNodeGroups" d) as [x|]; [split; [intros H y [= <-]; exact H | intros H; now apply H] | split; [discriminate | reflexivity]]. Qed.
Lemma few_iff x : counts x -> exists b, at_most_one x = Ok b /\ (b = true <-> one_or_less x).
Proof.
  destruct x; intros []; cbn [at_most_one one_or_less]; eexists; (split; [reflexivity|]); [tauto | apply Z.leb_le | apply Qle_bool_iff].
Qed.

Lemma core_says template props p group gp sc pc d s : get_conditions_from_path template gp true true false = Ok pc ->
  scenario_value group sc = Ok (VDict s) -> scenario_value props sc = Ok (VDict d) -> NoDup (keys s) -> cluster_shaped d s ->
  says (cluster_scenario template props p group gp sc) (fun m => rules_out (fst pc) sc = false /\ exists key, cluster_fault d s key /\ m = cluster_found p sc key).
Proof.
  intros Hpc Hg Hd Hs Hsh. unfold cluster_scenario. rewrite Hpc. cbn [bind]. destruct (rules_out (fst pc) sc).
  { eapply says_ext; [apply says_none|]. intros m. split; [intros [] | intros [[=] _]]. }
  rewrite Hg. cbn [bind]. pose proof (enabled_iff s Hs) as He. destruct (is_cluster_enabled (VDict s)).
  2:{ eapply says_ext; [apply says_none|]. intros m. split; [intros []|]. intros [_ [key [F _]]]. exfalso. enough (false = true) by discriminate. apply He. destruct F; assumption. }
  assert (Hc : clustered s) by (now apply He). clear He. rewrite Hd. cbn [bind]. cbv zeta.
  pose proof (no_iff (assoc "AutomaticFailoverEnabled" d)) as Hno. destruct (bool_compare _ _) eqn:Eb in Hno |- *.
  - assert (Hx : exists x, assoc "AutomaticFailoverEnabled" d = Some x /\ says_no x) by (now apply Hno). destruct Hx as [x0 [Hx0 Hx1]].
    pose proof (groups_iff d) as Hgr. destruct (truthy _) eqn:Et in Hgr |- *.
    + eapply says_ext; [apply says_one|]. intros m. split; [intros ->; split; [reflexivity|]; eexists; split; [now apply (cf_failover _ _ x0) | reflexivity]|].
      intros [_ [key [F ->]]]. destruct F as [x H1 H2 H3|H1 H2 H3|x H1 H2 H3 H4]; [reflexivity| |]; apply Hgr in H2; discriminate.
    + assert (Hn : no_node_groups d) by (now apply Hgr). destruct (assoc "NumCacheClusters" d) as [y|] eqn:Ey.
      * destruct (few_iff y (Hsh Hc Hn y Ey)) as [b [-> Hb]]. cbn [bind]. eapply says_ext; [apply says_ok|]. intros m. cbn [app In]. split.
        -- intros [<-|H]; [split; [reflexivity|]; eexists; split; [now apply (cf_failover _ _ x0) | reflexivity]|]. destruct b; [|destruct H]. destruct H as [<-|[]]. split; [reflexivity|]. eexists; split; [apply (cf_nodes _ _ y); auto; now apply Hb | reflexivity].
        -- intros [_ [key [F ->]]]. destruct F as [x H1 H2 H3|H1 H2 H3|x H1 H2 H3 H4]; [now left | congruence|]. right. assert (x = y) as -> by congruence. apply Hb in H4 as ->. now left.
      * cbn [at_most_one bind]. change (Z.leb 0 1) with true. eapply says_ext; [apply says_ok|]. intros m. cbn [app In]. split.
        -- intros [<-|[<-|[]]]; (split; [reflexivity|]); eexists; (split; [|reflexivity]); [now apply (cf_failover _ _ x0) | now apply cf_no_nodes].
        -- intros [_ [key [F ->]]]. destruct F as [x H1 H2 H3|H1 H2 H3|x H1 H2 H3 H4]; [now left | right; now left | congruence].
  - assert (Hx : forall x, assoc "AutomaticFailoverEnabled" d = Some x -> ~ says_no x) by (intros x H1 H2; enough (false = true) by discriminate; apply Hno; eauto).
    pose proof (groups_iff d) as Hgr. destruct (truthy _) eqn:Et in Hgr |- *.
    + eapply says_ext; [apply says_none|]. intros m. split; [intros []|].
      intros [_ [key [F ->]]]. destruct F as [x H1 H2 H3|H1 H2 H3|x H1 H2 H3 H4]; [exact (Hx x H2 H3)| |]; apply Hgr in H2; discriminate.
    + assert (Hn : no_node_groups d) by (now apply Hgr). destruct (assoc "NumCacheClusters" d) as [y|] eqn:Ey.
      * destruct (few_iff y (Hsh Hc Hn y Ey)) as [b [-> Hb]]. cbn [bind]. eapply says_ext; [apply says_ok|]. intros m. cbn [app In]. split.
        -- intros H. destruct b; [|destruct H]. destruct H as [<-|[]]. split; [reflexivity|]. eexists; split; [apply (cf_nodes _ _ y); auto; now apply Hb | reflexivity].
        -- intros [_ [key [F ->]]]. destruct F as [x H1 H2 H3|H1 H2 H3|x H1 H2 H3 H4]; [now elim (Hx x H2) | congruence|]. assert (x = y) as -> by congruence. apply Hb in H4 as ->. now left.
      * cbn [at_most_one bind]. change (Z.leb 0 1) with true. eapply says_ext; [apply says_ok|]. intros m. cbn [app In]. split.
        -- intros [<-|[]]. split; [reflexivity|]. eexists; (split; [|reflexivity]). now apply cf_no_nodes.
        -- intros [_ [key [F ->]]]. destruct F as [x H1 H2 H3|H1 H2 H3|x H1 H2 H3 H4]; [now elim (Hx x H2) | now left | congruence].
Qed.

(** * Objects without conditions *)
Lemma unresolved_eq sc v : plain_ifs v -> (forall n, ~ looks_at v n) -> unresolved_value v = resolve_value sc v.
Proof.
  induction 1 as [c t e _ _ _ _| | | | | |d Hd|l _ IH]; intros Hn; try reflexivity.
  - now elim (Hn c); apply la_here.
  - destruct d as [|[k x] [|? ?]]; try reflexivity. cbn [unresolved_value resolve_value]. destruct (String.eqb_spec k "Fn::If") as [->|_]; [now elim (Hd x) | reflexivity].
  - cbn [unresolved_value resolve_value]. f_equal.
    assert (Hl : forall x, In x l -> unresolved_value x = resolve_value sc x) by (intros x Hx; apply IH; [exact Hx|]; intros n K; exact (Hn n (la_item l x n Hx K))).
    clear IH Hn. induction l as [|x l IHl]; [reflexivity|]. rewrite (Hl x (or_introl eq_refl)). destruct (resolve_value sc x) as [y|]; cbn [bind]; [|reflexivity].
    rewrite IHl by (intros z Hz; apply Hl; now right). reflexivity.
Qed.
Lemma unresolved_members_eq sc d : (forall k x, In (k, x) d -> plain_ifs x) -> (forall n, ~ members_look_at d n) -> forall acc, unresolved_members d acc = resolve_members sc d acc.
Proof.
  induction d as [|[k x] d IH]; intros Hp Hn acc; [reflexivity|]. cbn [unresolved_members resolve_members].
  rewrite (unresolved_eq sc x); [|apply (Hp k); now left | intros n K; apply (Hn n); exists k, x; split; [now left | exact K]].
  destruct (resolve_value sc x) as [y|]; cbn [bind]; [|reflexivity]. apply IH; [intros k' z Hz; apply (Hp k'); now right | intros n [k' [z [H1 H2]]]; apply (Hn n); exists k', z; split; [now right | exact H2]].
Qed.
Lemma plain_value b d d' : plain_object d -> (forall n, ~ members_look_at d n) -> deployed b d d' -> scenario_value (VDict d) None = Ok (VDict d').
Proof.
  intros [Hk [Hif Hp]] Hn Hd. cbn [scenario_value]. rewrite <- (c18_members [] d d' Hk Hif).
  - unfold get_value_without_scenario, get_value_from_scenario. destruct d as [|[k x] [|y d]]; try reflexivity.
    + destruct (String.eqb_spec k "Fn::If") as [->|_]; [now elim (Hif x)|]. cbn [andb]. now rewrite (unresolved_members_eq [] _ Hp Hn).
    + now rewrite (unresolved_members_eq [] _ Hp Hn).
  - apply (resolved_members_ext (fun n => Some (b n))); [exact Hd|]. intros n K. now elim (Hn n).
Qed.

(** * The conditions of two objects *)
Lemma two_conditions order d s : plain_object d -> plain_object s ->
  exists con, NoDup con /\ (forall n, In n con <-> members_look_at d n \/ members_look_at s n) /\
    forall c, get_conditions_scenarios_from_object order c [VDict d; VDict s] = get_scenarios order c (order con).
Proof.
  intros [_ [Hd1 Hd2]] [_ [Hs1 Hs2]]. unfold get_conditions_scenarios_from_object. cbn [objects_conditions].
  rewrite (object_conditions_members d Hd1), (object_conditions_members s Hs1). cbn [bind fst snd andb].
  eexists. split; [|split; [|reflexivity]].
  - apply set_union_NoDup, set_union_NoDup. constructor.
  - intros n. rewrite !set_union_in. rewrite !members_conditions_in by assumption. cbn. tauto.
Qed.

(** * Places below the properties *)
Section Resource.
Variables (template : val) (name rt : string) (attrs d : list (string * val)).
Hypothesis Hw : wf template.
Hypothesis Hr : resource_of template name rt attrs.
Hypothesis Hp : assoc "Properties" attrs = Some (VDict d).
Hypothesis Hname : name <> "Fn::If".
Lemma props_place rest : place (VDict d) rest -> place template (props_path name ++ rest)%list.
Proof using Hw Hr Hp Hname.
  intros H. destruct Hr as [top [rs [-> [H1 [H2 H3]]]]]. apply wf_dict in Hw as [_ Hw']. pose proof (assoc_In _ _ _ H1) as H1'. apply Hw' in H1'. apply wf_dict in H1' as [Hk _].
  apply (assoc_NoDup name (VDict attrs) rs Hk) in H2. cbn [props_path app].
  apply (pl_key top _ (VDict rs)); [discriminate | exact H1|]. apply (pl_key rs _ (VDict attrs)); [exact Hname | exact H2|]. apply (pl_key attrs _ (VDict d)); [discriminate | exact Hp | exact H].
Qed.
Lemma props_passes rest c b : passes template (props_path name ++ rest)%list c b <-> passes (VDict d) rest c b.
Proof using Hw Hr Hp.
  destruct Hr as [top [rs [E [H1 [H2 H3]]]]]. subst template. apply wf_dict in Hw as [_ Hw']. pose proof (assoc_In _ _ _ H1) as H1'. apply Hw' in H1'. apply wf_dict in H1' as [Hk _].
  apply (assoc_NoDup name (VDict attrs) rs Hk) in H2. cbn [props_path app]. split.
  - intros H. inversion H as [| |? ? ? ? ? ? E1 K1|]; subst. rewrite H1 in E1. injection E1 as <-. inversion K1 as [| |? ? ? ? ? ? E2 K2|]; subst. rewrite H2 in E2. injection E2 as <-.
    inversion K2 as [| |? ? ? ? ? ? E3 K3|]; subst. rewrite Hp in E3. injection E3 as <-. exact K3.
  - intros H. eapply ps_key; [exact H1|]. eapply ps_key; [exact H2|]. eapply ps_key; [exact Hp | exact H].
Qed.

(** Branches of a value, as paths: where they are and through which branches they pass. *)
Inductive chosen : val -> path -> val -> list (string * bool) -> Prop :=
| ch_here : forall v, chosen v [] v []
| ch_then : forall c t e r w l, chosen t r w l -> chosen (if_ c t e) (PKey "Fn::If" :: PIdx 1 :: r) w ((c, true) :: l)
| ch_else : forall c t e r w l, chosen e r w l -> chosen (if_ c t e) (PKey "Fn::If" :: PIdx 2 :: r) w ((c, false) :: l).
Lemma branch_chosen v p w q : branch v p w q -> plain_ifs v -> exists r u l, q = (p ++ r)%list /\ chosen v r u l /\ settled u w /\ ~ is_if u /\ u <> NoValue.
Proof.
  induction 1 as [c a b p w q H IH|c a b p w q H IH|v w p H1 H2 H3]; intros Hv.
  - inversion Hv as [c' t e Ht He| | | | | |d0 Hd|]; subst; [|now elim (Hd (VList [c; a; b]))]. destruct (IH Ht) as [r [u [l [-> [K1 K2]]]]].
    exists (PKey "Fn::If" :: PIdx 1 :: r), u, ((c', true) :: l). split; [now rewrite <- app_assoc|]. split; [now apply ch_then | exact K2].
  - inversion Hv as [c' t e Ht He| | | | | |d0 Hd|]; subst; [|now elim (Hd (VList [c; a; b]))]. destruct (IH He) as [r [u [l [-> [K1 K2]]]]].
    exists (PKey "Fn::If" :: PIdx 2 :: r), u, ((c', false) :: l). split; [now rewrite <- app_assoc|]. split; [now apply ch_else | exact K2].
  - exists [], v, []. split; [now rewrite app_nil_r|]. split; [constructor | auto].
Qed.
Lemma chosen_branch v r u l : chosen v r u l -> forall p w, settled u w -> ~ is_if u -> u <> NoValue -> branch v p w (p ++ r)%list.
Proof.
  induction 1 as [v|c t e r w l H IH|c t e r w l H IH]; intros p w' H1 H2 H3.
  - rewrite app_nil_r. now apply br_leaf.
  - change (if_ c t e) with (If_of (VList [VStr c; t; e])). apply br_then. replace (p ++ PKey "Fn::If" :: PIdx 1 :: r)%list with ((p ++ [PKey "Fn::If"; PIdx 1]) ++ r)%list by (now rewrite <- app_assoc). now apply IH.
  - change (if_ c t e) with (If_of (VList [VStr c; t; e])). apply br_else. replace (p ++ PKey "Fn::If" :: PIdx 2 :: r)%list with ((p ++ [PKey "Fn::If"; PIdx 2]) ++ r)%list by (now rewrite <- app_assoc). now apply IH.
Qed.
Lemma chosen_place v r u l : chosen v r u l -> place v r.
Proof.
  induction 1 as [v|c t e r w l H IH|c t e r w l H IH]; [constructor| |]; unfold if_; (eapply pl_if; [reflexivity | | exact IH]); reflexivity.
Qed.
Lemma chosen_passes v r u l : chosen v r u l -> forall c b, passes v r c b <-> In (c, b) l.
Proof.
  induction 1 as [v|c t e r w l H IH|c t e r w l H IH]; intros n b.
  - split; [intros H; inversion H | intros []].
  - unfold if_. split.
    + intros K. inversion K as [? ? ? ? ? E|? ? ? ? ? E|? ? ? ? ? ? E K1|]; subst; [injection E as <- <- <-; now left|]. injection E as <-. inversion K1 as [| | |? ? ? ? ? ? E2 K2]; subst. injection E2 as <-. right. now apply IH.
    + intros [[= <- <-]|K]; [eapply ps_then; reflexivity|]. eapply ps_key; [reflexivity|]. eapply ps_item; [reflexivity | now apply IH].
  - unfold if_. split.
    + intros K. inversion K as [? ? ? ? ? E|? ? ? ? ? E|? ? ? ? ? ? E K1|]; subst; [injection E as <- <- <-; now left|]. injection E as <-. inversion K1 as [| | |? ? ? ? ? ? E2 K2]; subst. injection E2 as <-. right. now apply IH.
    + intros [[= <- <-]|K]; [eapply ps_else; reflexivity|]. eapply ps_key; [reflexivity|]. eapply ps_item; [reflexivity | now apply IH].
Qed.
Lemma chosen_looks v r u l : chosen v r u l -> forall c b, In (c, b) l -> looks_at v c.
Proof.
  induction 1 as [v|c t e r w l H IH|c t e r w l H IH]; intros n b; [intros [] | |]; intros [[= <- <-]|K]; try apply la_here; [apply la_then | apply la_else]; eauto.
Qed.
(** Deciding the conditions as the branch has them leads to its value. *)
Lemma chosen_resolved_to f v r u l : chosen v r u l -> (forall c b, In (c, b) l -> f c = Some b) -> resolved f u (Some u) -> resolved f v (Some u).
Proof.
  induction 1 as [v|c t e r w l H IH|c t e r w l H IH]; intros Hl Hu; [exact Hu| |].
  - apply r_then; [apply Hl; now left|]. apply IH; [intros c' b Hi; apply Hl; now right | exact Hu].
  - apply r_else; [apply Hl; now left|]. apply IH; [intros c' b Hi; apply Hl; now right | exact Hu].
Qed.
Lemma resolved_chosen (b : string -> bool) v o : resolved (fun n => Some (b n)) v o -> forall e, o = Some (VDict e) -> exists r l, chosen v r (VDict e) l /\ forall c x, In (c, x) l -> b c = x.
Proof.
  induction 1 as [c t e r E H IH|c t e r E H IH|c t e E| | | | | | |d0 H1 H2|l l' H]; intros e0 Eo; try discriminate.
  - destruct (IH e0 Eo) as [q [l [K1 K2]]]. injection E as E. exists (PKey "Fn::If" :: PIdx 1 :: q), ((c, true) :: l). split; [now apply ch_then|]. intros n x [[= <- <-]|K]; eauto.
  - destruct (IH e0 Eo) as [q [l [K1 K2]]]. injection E as E. exists (PKey "Fn::If" :: PIdx 2 :: q), ((c, false) :: l). split; [now apply ch_else|]. intros n x [[= <- <-]|K]; eauto.
  - injection Eo as ->. exists [], []. split; [constructor | intros c x []].
Qed.
End Resource.

(** * Which scenarios the place of the reference rules out *)
Lemma rules_out_iff template q r names b sc : found r (needs template q) -> NoDup names -> Permutation sc (scenario_of names b) ->
  rules_out r (Some sc) = false <-> forall c x, In c names -> needs template q c x -> needs template q c (b c).
Proof.
  intros [F1 [F2 F3]] Hnd Hsc.
  assert (Hsc' : forall c o, In (c, o) sc <-> In c names /\ o = Some (b c)).
  { intros c o. split.
    - intros H. apply (Permutation_in _ Hsc) in H. apply in_map_iff in H as [n [[= <- <-] H]]. auto.
    - intros [H ->]. apply (Permutation_in _ (Permutation_sym Hsc)). apply in_map_iff. exists c. auto. }
  split.
  - intros H c x Hc Hx. apply F3 in Hx as [t [Ht Hx]]. apply F3. exists t. split; [exact Ht|].
    destruct (Bool.bool_dec (if b c then t_true t else t_false t) true) as [K|K]; [exact K|]. exfalso. enough (rules_out r (Some sc) = true) by congruence.
    cbn [rules_out]. apply existsb_exists. exists (c, Some (b c)). split; [now apply Hsc'|]. cbn [fst snd]. rewrite Ht. destruct (b c); cbn [taken_in]; apply not_true_is_false in K; now rewrite K.
  - intros H. destruct (rules_out r (Some sc)) eqn:E; [|reflexivity]. exfalso. cbn [rules_out] in E. apply existsb_exists in E as [[c o] [Hi E]]. apply Hsc' in Hi as [Hi ->]. cbn [fst snd] in E.
    destruct (assoc c r) as [t|] eqn:Et; [|discriminate]. assert (Hk : In c (keys r)) by (apply assoc_Some_key; eauto). destruct (in_has r c F2 Hk) as [x Hx]. apply F3 in Hx.
    specialize (H c x Hi Hx). apply F3 in H as [t' [Et' Ht']]. assert (t' = t) as -> by congruence. destruct (b c); cbn [taken_in] in E; rewrite Ht' in E; discriminate.
Qed.
Lemma settings_get template g s (P : val -> res (list rulematch)) : wf template -> settings_of template g s ->
  (do rs <- vget_def "Resources" (VDict []) template; do r <- vget_def g (VDict []) rs; do ps <- vget_def "Properties" (VDict []) r; do group <- vget_def "Properties" (VDict []) ps; P group) = P (VDict s).
Proof.
  intros _ [o [[[d [rs [-> [H1 H2]]]] _] H]]. cbn [vget_def]. rewrite H1. cbn [bind vget_def]. rewrite H2. cbn [bind vget_def].
  destruct H as [[-> ->]|[ps [-> [[H3 ->]|H3]]]]; cbn [bind vget_def]; [reflexivity | now rewrite H3 | now rewrite H3].
Qed.
Lemma value_for sc names b d d' : plain_object d -> NoDup names -> (forall n, members_look_at d n -> In n names) -> Permutation sc (scenario_of names b) ->
  deployed b d d' -> scenario_value (VDict d) (Some sc) = Ok (VDict d').
Proof.
  intros [Hk [Hif Hp]] Hnd Hn Hsc Hd. cbn [scenario_value]. apply c18_members; auto. apply (resolved_members_ext (fun n => Some (b n))); [exact Hd|].
  intros n K. apply Hn in K. unfold decides. assert (Hi : In (n, Some (b n)) sc) by (apply (Permutation_in _ (Permutation_sym Hsc)); apply in_map_iff; exists n; auto).
  rewrite (assoc_NoDup n (Some (b n)) sc); [reflexivity | | exact Hi]. apply (Permutation_NoDup (l := keys (scenario_of names b))); [apply Permutation_map; now symmetry|].
  unfold scenario_of, keys. rewrite map_map. cbn. now rewrite map_id.
Qed.

Section Conditional.
Variables (hash : val -> string) (order : list string -> list string) (template : val) (defs parameters : list (string * val)).
Hypothesis Hh : forall v, digest (hash v).
Hypothesis Ho : forall l, Permutation (order l) l.
Hypothesis Hc : section_of "Conditions" template defs.
Hypothesis Hpar : section_of "Parameters" template parameters.
Hypothesis Hcn : NoDup (keys defs).
Hypothesis Hcw : forall n v, In (n, v) defs -> well_formed defs v.
Hypothesis Hpan : NoDup (keys parameters).
Hypothesis Hpp : forall n p, In (n, p) parameters -> plain_parameter p.
Hypothesis Hta : told_apart hash parameters.
Hypothesis Hw : wf template.

Definition possible (names : list string) (b : string -> bool) : Prop :=
  (some_related defs names \/ forall n, In n names -> exists w, deployment hash parameters w /\ gives defs w [n] b) -> exists w, deployment hash parameters w /\ gives defs w names b.

Lemma scenarios_both names con w0 b0 : NoDup con -> NoDup names -> names <> [] -> (forall n, In n con <-> In n names) -> (forall n, In n names -> In n (keys defs)) ->
  (List.length names <= 4 \/ some_related defs names) -> deployment hash parameters w0 -> gives defs w0 names b0 ->
  exists limit, forall fuel, limit <= fuel -> exists scs, get_scenarios order (load hash fuel template) (order con) = Ok scs /\ scs <> [] /\
    (forall sc, In sc scs -> exists b, Permutation sc (scenario_of names b) /\ possible names b) /\
    (forall w b, deployment hash parameters w -> gives defs w names b -> exists sc, In sc scs /\ Permutation sc (scenario_of names b)).
Proof using Hh Ho Hc Hpar Hcn Hcw Hpan Hpp Hta.
  intros Hcd Hnd Hne Hin0 Hdef Hsz Hw0 Hg0.
  assert (Hpm : Permutation names (order con)) by (eapply Permutation_trans; [|symmetry; apply Ho]; apply NoDup_Permutation; auto; intros n; now rewrite Hin0).
  assert (Hin : forall n, In n (order con) <-> In n names) by (intros n; split; [apply Permutation_in; now symmetry | now apply Permutation_in]).
  assert (Hod : NoDup (order con)) by (now apply (Permutation_NoDup Hpm)).
  assert (Hone : order con <> []) by (intros E; rewrite E in Hpm; apply Permutation_sym, Permutation_nil in Hpm; contradiction).
  assert (Hrel : some_related defs names <-> some_related defs (order con)).
  { split; intros [n [n' [v [v' [H1 [H2 H3]]]]]]; exists n, n', v, v'; (split; [now apply Hin | split; [now apply Hin | exact H3]]). }
  destruct (c17 hash order template defs parameters (order con)) as [limit Hlim]; auto.
  { intros n Hi. now apply Hdef, Hin. }
  destruct (all_loaded hash template defs Hc Hcn Hcw) as [limit' Hlim']. exists (Nat.max limit limit'). intros fuel Hf.
  destruct (Hlim fuel ltac:(lia)) as [scs [Hsc [H1 H2]]]. exists scs. split; [exact Hsc|].
  assert (Hcov : forall w b, deployment hash parameters w -> gives defs w names b -> exists sc, In sc scs /\ Permutation sc (scenario_of names b)).
  { intros w b Hdw Hgw. destruct (c16 hash order template defs parameters fuel (order con) w b) as [out [Hout Hi]]; auto.
    - intros n Hi. apply Hlim'; [lia | now apply Hdef, Hin].
    - destruct Hsz as [K|K]; [left; now rewrite <- (Permutation_length Hpm) | right; now apply Hrel].
    - intros n Hi. now apply Hgw, Hin.
    - rewrite Hsc in Hout. injection Hout as <-. eexists. split; [exact Hi|]. apply Permutation_map. now symmetry. }
  split; [intros ->; destruct (Hcov w0 b0 Hw0 Hg0) as [sc [[] _]]|]. split; [|exact Hcov].
  intros sc Hi. destruct (H1 sc Hi) as [b [-> Hb]]. exists b. split; [apply Permutation_map; now symmetry|]. intros [Hr|Hr].
  - destruct (H2 (proj1 Hrel Hr) _ Hi) as [b' [w [E [Hw1 Hg]]]]. exists w. split; [exact Hw1|]. intros n K.
    assert (b n = b' n) as ->; [|now apply Hg, Hin].
    pose proof (decides_scenario (order con) b n Hod (proj2 (Hin n) K)) as K1. pose proof (decides_scenario (order con) b' n Hod (proj2 (Hin n) K)) as K2. rewrite E in K1. congruence.
  - destruct Hb as [w [Hw1 Hg]]; [intros n K; now apply Hr, Hin|]. exists w. split; [exact Hw1|]. intros n K. now apply Hg, Hin.
Qed.
Lemma group_both d s p g q names w0 b0 r :
  get_conditions_from_path template q true true false = Ok (r, true) -> found r (needs template q) ->
  plain_object d -> plain_object s -> settings_of template g s ->
  NoDup names -> names <> [] -> (forall n, In n names <-> members_look_at d n \/ members_look_at s n) -> (forall n, In n names -> In n (keys defs)) ->
  (List.length names <= 4 \/ some_related defs names) -> deployment hash parameters w0 -> gives defs w0 names b0 ->
  (forall b d' s', deployed b d d' -> deployed b s s' -> cluster_shaped d' s') ->
  exists limit, forall fuel, limit <= fuel ->
  exists ms, cluster_group order (load hash fuel template) template (VDict d) p g q = Ok ms /\
    (forall w b d' s' key, deployment hash parameters w -> gives defs w names b -> deployed b d d' -> deployed b s s' ->
       (forall c x, In c names -> needs template q c x -> needs template q c (b c)) -> cluster_fault d' s' key ->
       exists sc, Permutation sc (scenario_of names b) /\ In (cluster_found p (Some sc) key) ms) /\
    (forall m, In m ms -> exists b sc key, Permutation sc (scenario_of names b) /\ (forall c x, In c names -> needs template q c x -> needs template q c (b c)) /\
       (forall d' s', deployed b d d' -> deployed b s s' -> cluster_fault d' s' key) /\ m = cluster_found p (Some sc) key /\ possible names b).
Proof using Hh Ho Hc Hpar Hcn Hcw Hpan Hpp Hta Hw.
  intros Hr Hf Hd Hs Hset Hnd Hne Hn Hdef Hsz Hw0 Hg0 Hsh.
  destruct (two_conditions order d s Hd Hs) as [con [Hcd [Hcon Hget]]].
  destruct (scenarios_both names con w0 b0) as [limit Hlim]; auto.
  { intros n. now rewrite Hcon, Hn. }
  exists limit. intros fuel Hfu. destruct (Hlim fuel Hfu) as [scs [Esc [Hsne [Hreal Hcov]]]].
  assert (Hall : forall b, exists d' s', deployed b d d' /\ deployed b s s').
  { intros b. destruct (resolved_members_total (fun n => Some (b n)) d) as [d' K1]; [apply Hd|]. destruct (resolved_members_total (fun n => Some (b n)) s) as [s' K2]; [apply Hs|]. exists d', s'. auto. }
  assert (Hone : forall sc b d' s', Permutation sc (scenario_of names b) -> deployed b d d' -> deployed b s s' ->
    says (cluster_scenario template (VDict d) p (VDict s) q (Some sc)) (fun m => rules_out r (Some sc) = false /\ exists key, cluster_fault d' s' key /\ m = cluster_found p (Some sc) key)).
  { intros sc b d' s' Hsc Kd Ks. apply (core_says template (VDict d) p (VDict s) q (Some sc) (r, true) d' s' Hr).
    - apply (value_for sc names b); auto. intros n K. apply Hn. now right.
    - apply (value_for sc names b); auto. intros n K. apply Hn. now left.
    - apply (members_NoDup _ _ _ Ks). apply Hs.
    - exact (Hsh b d' s' Kd Ks). }
  unfold cluster_group. rewrite (settings_get template g s _ Hw Hset). rewrite Hget, Esc. cbn [bind].
  assert (Hms : exists ms, concat_res (fun s0 => cluster_scenario template (VDict d) p (VDict s) q (Some s0)) scs = Ok ms /\
    forall m, In m ms <-> exists sc b d' s' key, In sc scs /\ Permutation sc (scenario_of names b) /\ deployed b d d' /\ deployed b s s' /\ rules_out r (Some sc) = false /\ cluster_fault d' s' key /\ m = cluster_found p (Some sc) key).
  { destruct (says_concat (fun s0 => cluster_scenario template (VDict d) p (VDict s) q (Some s0)) scs
      (fun sc m => exists b d' s' key, Permutation sc (scenario_of names b) /\ deployed b d d' /\ deployed b s s' /\ rules_out r (Some sc) = false /\ cluster_fault d' s' key /\ m = cluster_found p (Some sc) key)) as [ms [E H]].
    - intros sc Hi. destruct (Hreal sc Hi) as [b [Hsc _]]. destruct (Hall b) as [d' [s' [Kd Ks]]]. destruct (Hone sc b d' s' Hsc Kd Ks) as [o [Eo Ho']]. exists o. split; [exact Eo|]. intros m. rewrite Ho'. split.
      + intros [K1 [key [K2 K3]]]. exists b, d', s', key. auto 8.
      + intros [b1 [d1 [s1 [key [K1 [K2 [K3 [K4 [K5 K6]]]]]]]]]. split; [exact K4|]. exists key. split; [|exact K6].
        pose proof (value_for sc names b d d' Hd Hnd (fun n K => proj2 (Hn n) (or_introl K)) Hsc Kd) as V1. pose proof (value_for sc names b1 d d1 Hd Hnd (fun n K => proj2 (Hn n) (or_introl K)) K1 K2) as V2.
        pose proof (value_for sc names b s s' Hs Hnd (fun n K => proj2 (Hn n) (or_intror K)) Hsc Ks) as V3. pose proof (value_for sc names b1 s s1 Hs Hnd (fun n K => proj2 (Hn n) (or_intror K)) K1 K3) as V4.
        rewrite V1 in V2. rewrite V3 in V4. injection V2 as ->. injection V4 as ->. exact K5.
    - exists ms. split; [exact E|]. intros m. rewrite H. split; [intros [sc [K [b [d' [s' [key K']]]]]]; exists sc, b, d', s', key; tauto | intros [sc [b [d' [s' [key [K K']]]]]]; exists sc; split; [exact K|]; exists b, d', s', key; tauto]. }
  destruct Hms as [ms [Ems Hms]]. exists ms. split; [destruct scs; [congruence | exact Ems]|]. split.
  - intros w b d' s' key K1 K2 K3 K4 K5 K6. destruct (Hcov w b K1 K2) as [sc [K7 K8]]. exists sc. split; [exact K8|]. apply Hms. exists sc, b, d', s', key.
    split; [exact K7|]. split; [exact K8|]. split; [exact K3|]. split; [exact K4|]. split; [|auto]. now apply (rules_out_iff template q r names b sc Hf Hnd K8).
  - intros m Hm. apply Hms in Hm as [sc [b [d' [s' [key [K1 [K2 [K3 [K4 [K5 [K6 ->]]]]]]]]]]]. destruct (Hreal sc K1) as [b1 [K7 K8]]. exists b1, sc, key.
    split; [exact K7|]. split; [now apply (rules_out_iff template q r names b1 sc Hf Hnd K7)|]. split; [|auto]. intros d1 s1 L1 L2.
    pose proof (value_for sc names b d d' Hd Hnd (fun n K => proj2 (Hn n) (or_introl K)) K2 K3) as V1. pose proof (value_for sc names b1 d d1 Hd Hnd (fun n K => proj2 (Hn n) (or_introl K)) K7 L1) as V2.
    pose proof (value_for sc names b s s' Hs Hnd (fun n K => proj2 (Hn n) (or_intror K)) K2 K4) as V3. pose proof (value_for sc names b1 s s1 Hs Hnd (fun n K => proj2 (Hn n) (or_intror K)) K7 L2) as V4.
    rewrite V1 in V2. rewrite V3 in V4. injection V2 as <-. injection V4 as <-. exact K6.
Qed.
End Conditional.

(** * All references *)
Lemma groups_given d p :
  exists l, get_safe d "CacheParameterGroupName" (VStr "") p None = Ok l /\
    forall e q, In (VDict e, q) l <-> exists x, assoc "CacheParameterGroupName" d = Some x /\ branch x (p ++ [PKey "CacheParameterGroupName"])%list (VDict e) q.
Proof.
  unfold get_safe. destruct (assoc "CacheParameterGroupName" d) as [x|].
  - assert (E1 : is_null x && is_null (VStr "") = false) by (destruct x; reflexivity). rewrite E1.
    exists (branches x (p ++ [PKey "CacheParameterGroupName"])%list). split.
    + destruct x; try reflexivity. cbn [branches]. f_equal. generalize (items_safe (VDict d0) (p ++ [PKey "CacheParameterGroupName"])%list). induction l as [|y l IH]; [reflexivity|]. cbn [filter]. now f_equal.
    + intros e q. rewrite branches_spec. split; [intros H; eauto | intros [y [[= <-] H]]; exact H].
  - cbn. eexists. split; [reflexivity|]. intros e q. split; [intros [[=]|[]] | intros [x [[=] _]]].
Qed.
Lemma members_no_ref order c template props p q e : ~ In "Ref" (keys e) -> concat_res (cluster_member order c template props p q) e = Ok [].
Proof.
  induction e as [|[k x] e IH]; intros H; [reflexivity|]. cbn [concat_res]. unfold cluster_member at 1. cbn [fst].
  destruct (String.eqb_spec k "Ref") as [->|_]; [elim H; now left|]. cbn [bind]. rewrite IH; [reflexivity|]. intros K. apply H. now right.
Qed.
Lemma member_ref order c template props p q g : wf template ->
  concat_res (cluster_member order c template props p q) [("Ref", VStr g)] =
  if mem_assoc g (get_resources template) then do a <- cluster_group order c template props p g q; Ok (a ++ [])%list else Ok [].
Proof. intros _. cbn [concat_res]. unfold cluster_member. cbn [fst snd]. rewrite String.eqb_refl. destruct (mem_assoc g (get_resources template)); reflexivity. Qed.
Lemma bounded_all {A} (l : list A) (P : A -> nat -> Prop) : (forall x, In x l -> exists k, forall f, k <= f -> P x f) -> exists k, forall f, k <= f -> forall x, In x l -> P x f.
Proof.
  induction l as [|x l IH]; intros H; [exists 0; intros f _ x []|].
  destruct IH as [k1 H1]; [intros y Hy; apply H; now right|]. destruct (H x (or_introl eq_refl)) as [k2 H2].
  exists (k1 + k2). intros f Hf y [<-|Hy]; [apply H2; lia | apply H1; [lia | exact Hy]].
Qed.
Lemma resource_needs template name rt attrs d rest c b : wf template -> resource_of template name rt attrs -> assoc "Properties" attrs = Some (VDict d) ->
  needs template (props_path name ++ rest)%list c b <-> passes (VDict d) rest c b \/ b = true /\ condition_of "Resources" name template c.
Proof.
  intros Hw Hr Hp. unfold needs. rewrite (props_passes template name rt attrs d Hw Hr Hp rest c b). split; (intros [H|[-> H]]; [now left | right; split; [reflexivity|]]).
  - destruct H as [s [n [r [E [_ H]]]]]. injection E as <- <- _. exact H.
  - exists "Resources", name, (PKey "Properties" :: rest). split; [reflexivity|]. split; [now left | exact H].
Qed.
Lemma chosen_alternative v r u l : chosen v r u l -> forall p, ~ is_if u -> u <> NoValue -> alternative v p u (p ++ r)%list.
Proof.
  induction 1 as [v|c t e r w l H IH|c t e r w l H IH]; intros p H2 H3.
  - rewrite app_nil_r. now apply alt_leaf.
  - change (if_ c t e) with (If_of (VList [VStr c; t; e])). apply alt_then. replace (p ++ PKey "Fn::If" :: PIdx 1 :: r)%list with ((p ++ [PKey "Fn::If"; PIdx 1]) ++ r)%list by (now rewrite <- app_assoc). now apply IH.
  - change (if_ c t e) with (If_of (VList [VStr c; t; e])). apply alt_else. replace (p ++ PKey "Fn::If" :: PIdx 2 :: r)%list with ((p ++ [PKey "Fn::If"; PIdx 2]) ++ r)%list by (now rewrite <- app_assoc). now apply IH.
Qed.
Lemma alternative_chosen v p w q : alternative v p w q -> plain_ifs v -> exists r l, q = (p ++ r)%list /\ chosen v r w l /\ ~ is_if w /\ w <> NoValue.
Proof.
  induction 1 as [c a b p w q H IH|c a b p w q H IH|v p H1 H2]; intros Hv.
  - inversion Hv as [c' t e Ht He| | | | | |d0 Hd|]; subst; [|now elim (Hd (VList [c; a; b]))]. destruct (IH Ht) as [r [l [-> [K1 K2]]]].
    exists (PKey "Fn::If" :: PIdx 1 :: r), ((c', true) :: l). split; [now rewrite <- app_assoc|]. split; [now apply ch_then | exact K2].
  - inversion Hv as [c' t e Ht He| | | | | |d0 Hd|]; subst; [|now elim (Hd (VList [c; a; b]))]. destruct (IH He) as [r [l [-> [K1 K2]]]].
    exists (PKey "Fn::If" :: PIdx 2 :: r), ((c', false) :: l). split; [now rewrite <- app_assoc|]. split; [now apply ch_else | exact K2].
  - exists [], []. split; [now rewrite app_nil_r|]. split; [constructor | auto].
Qed.
Lemma pruned_keys e e' k : pruned e e' -> In k (keys e') -> In k (keys e).
Proof. induction 1 as [|k0 d d' H IH|k0 x d d' Hx H IH]; cbn; intuition. Qed.
Lemma in_place template name rt attrs d x w q : wf template -> plain_conditions template -> resource_of template name rt attrs -> assoc "Properties" attrs = Some (VDict d) -> name <> "Fn::If" ->
  assoc "CacheParameterGroupName" d = Some x -> plain_ifs x -> alternative x (props_path name ++ [PKey "CacheParameterGroupName"])%list w q ->
  exists r l rr, q = (props_path name ++ PKey "CacheParameterGroupName" :: r)%list /\ chosen x r w l /\
    get_conditions_from_path template q true true false = Ok (rr, true) /\ found rr (needs template q) /\
    forall c b, needs template q c b <-> In (c, b) l \/ b = true /\ condition_of "Resources" name template c.
Proof.
  intros Hw Hpc Hr Hp Hname Hx Hpi Hb. destruct (alternative_chosen _ _ _ _ Hb Hpi) as [r [l [-> [Hch _]]]]. rewrite <- app_assoc. cbn [app].
  assert (Hpl : place template (props_path name ++ PKey "CacheParameterGroupName" :: r)%list).
  { apply (props_place template name rt attrs d Hw Hr Hp Hname). eapply pl_key; [discriminate | exact Hx|]. exact (chosen_place _ _ _ _ Hch). }
  destruct (path_needs template _ Hpl) as [rr [E Hf]]; [discriminate | exact Hpc|].
  exists r, l, rr. split; [reflexivity|]. split; [exact Hch|]. split; [exact E|]. split; [exact Hf|].
  intros c b. rewrite (resource_needs template name rt attrs d _ c b Hw Hr Hp). rewrite <- (chosen_passes _ _ _ _ Hch c b). split; (intros [H|H]; [left | now right]).
  - inversion H as [| |? ? ? ? ? ? E1 H1|]; subst. rewrite Hx in E1. injection E1 as <-. exact H1.
  - eapply ps_key; [exact Hx | exact H].
Qed.
(** What the loop looks at: the references that may be used. *)
Lemma refs_given d p : (forall x, assoc "CacheParameterGroupName" d = Some x -> plain_ifs x) -> group_shaped d ->
  exists l, get_safe d "CacheParameterGroupName" (VStr "") p None = Ok l /\
    (forall e q, In (VDict e, q) l -> ~ In "Ref" (keys e) \/ exists g, e = [("Ref", VStr g)] /\ may_use d p g q) /\
    (forall g q, may_use d p g q -> In (VDict [("Ref", VStr g)], q) l).
Proof.
  intros Hx Hs. destruct (groups_given d p) as [l [E H]]. exists l. split; [exact E|]. split.
  - intros e q Hi. apply H in Hi as [x [Ex Hb]]. destruct (branch_chosen _ _ _ _ Hb (Hx x Ex)) as [r [u [l' [-> [Hch [Hse [Hni Hnv]]]]]]].
    inversion Hse as [e0 e1 Hpr|? Hd]; subst; [|discriminate Hd]. pose proof (chosen_alternative _ _ _ _ Hch (p ++ [PKey "CacheParameterGroupName"])%list Hni Hnv) as Ha.
    destruct (in_dec string_dec "Ref" (keys e)) as [Hin|Hno]; [right | now left]. destruct (Hs x _ e0 _ Ex Ha (pruned_keys _ _ _ Hpr Hin)) as [g ->].
    exists g. split; [apply clean_pruned in Hpr; cbn in Hpr; now subst e|]. exists x, (VDict [("Ref", VStr g)]). split; [exact Ex|]. split; [exact Ha|]. split; [intros ->; now apply Hnv | reflexivity].
  - intros g q [x [w [Ex [Ha [_ ->]]]]]. apply H. exists x. split; [exact Ex|]. destruct (alternative_chosen _ _ _ _ Ha (Hx x Ex)) as [r [l' [-> [Hch [K1 K2]]]]].
    apply (chosen_branch _ _ _ _ Hch); auto. constructor. apply clean_pruned. reflexivity.
Qed.

Lemma member_plain (d : list (string * val)) k x : plain_object d -> assoc k d = Some x -> plain_ifs x.
Proof. intros [_ [_ H]] E. apply assoc_In in E. eauto. Qed.
Lemma use_direct (d : list (string * val)) p g q : plain_object d -> (forall n, ~ members_look_at d n) -> may_use d p g q <-> uses_group d g /\ q = (p ++ [PKey "CacheParameterGroupName"])%list.
Proof.
  intros Hd Hn. split.
  - intros [x [w [Ex [Ha Hg]]]]. destruct (alternative_chosen _ _ _ _ Ha (member_plain _ _ _ Hd Ex)) as [r [l [-> [Hch _]]]].
    destruct l as [|[c b] l]; [|exfalso; apply (Hn c); exists "CacheParameterGroupName", x; split; [now apply assoc_In | eapply chosen_looks; [exact Hch | now left]]].
    inversion Hch; subst. rewrite app_nil_r. split; [|reflexivity]. exists w. auto.
  - intros [[w [Ex [Hg ->]]] ->]. exists (VDict [("Ref", VStr g)]), (VDict [("Ref", VStr g)]). split; [exact Ex|]. split; [|split; [exact Hg | reflexivity]]. apply alt_leaf; [intros [y [=]]|].
    intros [= ->]. now apply Hg.
Qed.
Lemma no_resource_mem template g : wf template -> no_resource template g -> mem_assoc g (get_resources template) = false.
Proof. intros Hw H. destruct (mem_assoc g (get_resources template)) eqn:E; [|reflexivity]. apply in_resources in E as [o K]; [now elim (H o) | exact Hw]. Qed.
Lemma settings_mem template g s : wf template -> settings_of template g s -> mem_assoc g (get_resources template) = true.
Proof. intros Hw [o [H _]]. apply in_resources; [exact Hw | eauto]. Qed.
Lemma settings_fun template g s s' : settings_of template g s -> settings_of template g s' -> s = s'.
Proof.
  intros [o [Ho H]] [o' [Ho' H']]. rewrite (resource_fun _ _ _ _ Ho' Ho) in H'.
  destruct H as [[E ->]|[ps [E [[E1 ->]|E1]]]], H' as [[E' ->]|[ps' [E' [[E1' ->]|E1']]]]; congruence.
Qed.

Lemma c83_plain order c template name rt attrs d b : wf template -> plain_conditions template -> (forall l, Permutation (order l) l) ->
  resource_of template name rt attrs -> assoc "Properties" attrs = Some (VDict d) -> name <> "Fn::If" ->
  plain_object d -> (forall n, ~ members_look_at d n) -> group_shaped d ->
  (forall g, uses_group d g -> no_resource template g \/ exists s, settings_of template g s) ->
  (forall g s, uses_group d g -> settings_of template g s -> plain_object s /\ (forall n, ~ members_look_at s n) /\
     forall d' s', deployed b d d' -> deployed b s s' -> cluster_shaped d' s') ->
  exists ms, cluster_match order c template (VDict d) (props_path name) = Ok ms /\
  forall m, In m ms <-> exists g s d' s' key, uses_group d g /\ settings_of template g s /\ deployed b d d' /\ deployed b s s' /\ cluster_fault d' s' key /\
    m = mkRM (props_path name ++ [PKey key])%list (cluster_words key ++ " at " ++ path_text (props_path name ++ [PKey key])%list).
Proof.
  intros Hw Hpc Ho Hr Hp Hname Hd Hn Hgs Hk Hsh. cbn [cluster_match].
  destruct (refs_given d (props_path name) (fun x => member_plain d _ x Hd) Hgs) as [l [-> [H1 H2]]]. cbn [bind].
  set (said := fun (g : string) m => exists s d' s' key, settings_of template g s /\ deployed b d d' /\ deployed b s s' /\ cluster_fault d' s' key /\ m = cluster_found (props_path name) None key).
  eapply says_ext; [apply says_concat with (P := fun x m => exists g, fst x = VDict [("Ref", VStr g)] /\ uses_group d g /\ said g m)|].
  - intros [w q] Hi. cbn [fst snd]. assert (Hnone : (forall e, w = VDict e -> ~ In "Ref" (keys e)) -> says (Ok []) (fun m => exists g, w = VDict [("Ref", VStr g)] /\ uses_group d g /\ said g m)).
    { intros K. eapply says_ext; [apply says_none|]. intros m. split; [intros []|]. intros [g [E _]]. apply (K _ E). now left. }
    destruct w as [| | | | | |e]; try (apply Hnone; intros e [=]). destruct (H1 e q Hi) as [Hno|[g [-> Hu]]].
    { rewrite members_no_ref by exact Hno. apply Hnone. intros e' [= <-]. exact Hno. }
    pose proof Hu as Hu0. apply (use_direct d _ g q Hd Hn) in Hu as [Hu Hq]. rewrite member_ref by exact Hw. destruct (Hk g Hu) as [Hno|[s Hs]].
    { rewrite (no_resource_mem _ _ Hw Hno). eapply says_ext; [apply says_none|]. intros m. split; [intros []|]. intros [g' [[= <-] [_ [s [_ [_ [_ [[o [K _]] _]]]]]]]]. exact (Hno o K). }
    rewrite (settings_mem _ _ _ Hw Hs). destruct (Hsh g s Hu Hs) as [Hso [Hsn Hsh']].
    destruct (resolved_members_total (fun n => Some (b n)) d) as [d' Kd]; [apply Hd|]. destruct (resolved_members_total (fun n => Some (b n)) s) as [s' Ks]; [apply Hso|].
    destruct Hu0 as [x [w [Ex [Ha _]]]]. destruct (in_place template name rt attrs d x w q Hw Hpc Hr Hp Hname Ex (member_plain _ _ _ Hd Ex) Ha) as [r [l' [rr [_ [_ [Epc _]]]]]].
    pose proof (core_says template (VDict d) (props_path name) (VDict s) q None (rr, true) d' s' Epc (plain_value b s s' Hso Hsn Ks) (plain_value b d d' Hd Hn Kd)
      (members_NoDup _ _ _ Ks (proj1 Hso)) (Hsh' d' s' Kd Ks)) as [o [Eo Ho']].
    destruct (two_conditions order d s Hd Hso) as [con [_ [Hcon Hget]]].
    assert (con = []) as -> by (destruct con as [|y con]; [reflexivity|]; destruct (proj1 (Hcon y) (or_introl eq_refl)) as [K|K]; [now elim (Hn y) | now elim (Hsn y)]).
    unfold cluster_group. rewrite (settings_get template g s _ Hw Hs). rewrite Hget. assert (E : order [] = []) by (apply Permutation_nil; symmetry; apply Ho). rewrite E.
    assert (Es : get_scenarios order c [] = Ok []) by (unfold get_scenarios; destruct (cs_conditions c); reflexivity). rewrite Es. cbn [bind]. rewrite Eo. cbn [bind]. rewrite app_nil_r.
    exists o. split; [reflexivity|]. intros m. rewrite Ho'. split.
    + intros [_ [key [F ->]]]. exists g. split; [reflexivity|]. split; [exact Hu|]. exists s, d', s', key. auto.
    + intros [g' [[= <-] [_ [s1 [d1 [s1' [key [K1 [K2 [K3 [K4 ->]]]]]]]]]]]. split; [reflexivity|]. exists key. split; [|reflexivity].
      rewrite (settings_fun _ _ _ _ K1 Hs) in K3. pose proof (plain_value b d d1 Hd Hn K2) as V. rewrite (plain_value b d d' Hd Hn Kd) in V. injection V as <-.
      pose proof (plain_value b s s1' Hso Hsn K3) as V. rewrite (plain_value b s s' Hso Hsn Ks) in V. injection V as <-. exact K4.
  - intros m. cbv beta. split.
    + intros [[w q] [_ [g [_ [Hu [s [d' [s' [key [K1 [K2 [K3 [K4 ->]]]]]]]]]]]]]. exists g, s, d', s', key. auto 8.
    + intros [g [s [d' [s' [key [Hu [K1 [K2 [K3 [K4 ->]]]]]]]]]]. exists (VDict [("Ref", VStr g)], (props_path name ++ [PKey "CacheParameterGroupName"])%list). split; [apply H2; apply (use_direct d _ g _ Hd Hn); auto|].
      exists g. split; [reflexivity|]. split; [exact Hu|]. exists s, d', s', key. auto.
Qed.
Lemma c83_conditional hash order template defs parameters name rt attrs d (names : string -> list string) :
  (forall v, digest (hash v)) -> (forall l, Permutation (order l) l) ->
  section_of "Conditions" template defs -> section_of "Parameters" template parameters ->
  NoDup (keys defs) -> (forall n v, In (n, v) defs -> well_formed defs v) ->
  NoDup (keys parameters) -> (forall n p, In (n, p) parameters -> plain_parameter p) -> told_apart hash parameters ->
  wf template -> plain_conditions template -> resource_of template name rt attrs -> assoc "Properties" attrs = Some (VDict d) -> name <> "Fn::If" ->
  plain_object d -> group_shaped d ->
  (forall g q, may_use d (props_path name) g q -> no_resource template g \/ exists s, settings_of template g s) ->
  (forall g q s, may_use d (props_path name) g q -> settings_of template g s -> plain_object s /\
     NoDup (names g) /\ names g <> [] /\ (forall n, In n (names g) <-> members_look_at d n \/ members_look_at s n) /\ (forall n, In n (names g) -> In n (keys defs)) /\
     (List.length (names g) <= 4 \/ some_related defs (names g)) /\ (exists w b, deployment hash parameters w /\ gives defs w (names g) b) /\
     forall b d' s', deployed b d d' -> deployed b s s' -> cluster_shaped d' s') ->
  exists limit, forall fuel, limit <= fuel ->
  exists ms, cluster_match order (load hash fuel template) template (VDict d) (props_path name) = Ok ms /\
    (forall g s w b d' s' key, settings_of template g s -> deployment hash parameters w -> gives defs w (names g) b ->
       (forall c, condition_of "Resources" name template c -> In c (names g) -> b c = true) ->
       deployed b d d' -> deployed b s s' -> uses_group d' g -> cluster_fault d' s' key ->
       exists sc, Permutation sc (scenario_of (names g) b) /\
         In (mkRM (props_path name ++ [PKey key])%list (cluster_words key ++ " when " ++ scenario_text sc ++ " at " ++ path_text (props_path name ++ [PKey key])%list)) ms) /\
    (forall m, In m ms -> exists g q s b sc key, may_use d (props_path name) g q /\ settings_of template g s /\ Permutation sc (scenario_of (names g) b) /\
       (forall d' s', deployed b d d' -> deployed b s s' -> cluster_fault d' s' key) /\
       ((exists b', place_exists b' template q) -> (forall d', deployed b d d' -> uses_group d' g) /\ forall c, condition_of "Resources" name template c -> In c (names g) -> b c = true) /\
       m = mkRM (props_path name ++ [PKey key])%list (cluster_words key ++ " when " ++ scenario_text sc ++ " at " ++ path_text (props_path name ++ [PKey key])%list) /\
       ((some_related defs (names g) \/ forall n, In n (names g) -> exists w, deployment hash parameters w /\ gives defs w [n] b) ->
        exists w, deployment hash parameters w /\ gives defs w (names g) b)).
Proof.
  intros Hh Ho Hc Hpar Hcn Hcw Hpan Hpp Hta Hw Hpc Hr Hp Hname Hd Hgs Hk Hsh. cbn [cluster_match].
  destruct (refs_given d (props_path name) (fun x => member_plain d _ x Hd) Hgs) as [l [E [H1 H2]]]. rewrite E. cbn [bind].
  set (found_here := fun (g : string) (q : path) s (ms : list rulematch) => forall w b d' s' key, deployment hash parameters w -> gives defs w (names g) b -> deployed b d d' -> deployed b s s' ->
       (forall c x, In c (names g) -> needs template q c x -> needs template q c (b c)) -> cluster_fault d' s' key ->
       exists sc, Permutation sc (scenario_of (names g) b) /\ In (cluster_found (props_path name) (Some sc) key) ms).
  set (real_here := fun (g : string) (q : path) s (ms : list rulematch) => forall m, In m ms -> exists b sc key, Permutation sc (scenario_of (names g) b) /\ (forall c x, In c (names g) -> needs template q c x -> needs template q c (b c)) /\
       (forall d' s', deployed b d d' -> deployed b s s' -> cluster_fault d' s' key) /\ m = cluster_found (props_path name) (Some sc) key /\ possible hash defs parameters (names g) b).
  destruct (bounded_all l (fun x fuel => exists ms : list rulematch, (match fst x with VDict e => concat_res (cluster_member order (load hash fuel template) template (VDict d) (props_path name) (snd x)) e | _ => Ok [] end) = Ok ms /\
      (forall g s, fst x = VDict [("Ref", VStr g)] -> settings_of template g s -> found_here g (snd x) s ms) /\
      (ms = [] \/ exists g s, fst x = VDict [("Ref", VStr g)] /\ may_use d (props_path name) g (snd x) /\ settings_of template g s /\ real_here g (snd x) s ms))) as [limit Hlim].
  { intros [w q] Hi. cbn [fst snd].
    assert (Hnone : (forall e, w = VDict e -> ~ In "Ref" (keys e)) -> exists ms, @Ok (list rulematch) [] = Ok ms /\ (forall g s, w = VDict [("Ref", VStr g)] -> settings_of template g s -> found_here g q s ms) /\
      (ms = [] \/ exists g s, w = VDict [("Ref", VStr g)] /\ may_use d (props_path name) g q /\ settings_of template g s /\ real_here g q s ms)).
    { intros K. exists []. split; [reflexivity|]. split; [intros g s E'; elim (K _ E'); now left | now left]. }
    destruct w as [| | | | | |e]; try (exists 0; intros fuel _; apply Hnone; intros e [=]). destruct (H1 e q Hi) as [Hno|[g [-> Hu]]].
    { exists 0. intros fuel _. rewrite members_no_ref by exact Hno. apply Hnone. intros e' [= <-]. exact Hno. }
    destruct (Hk g q Hu) as [Hno|[s Hs]].
    { exists 0. intros fuel _. rewrite member_ref by exact Hw. rewrite (no_resource_mem _ _ Hw Hno). exists []. split; [reflexivity|]. split; [|now left]. intros g' s [= <-] [o [K _]]. now elim (Hno o). }
    destruct (Hsh g q s Hu Hs) as [Hso [Hnd [Hne [Hn [Hdef [Hsz [[w0 [b0 [Hw0 Hg0]]] Hshape]]]]]]].
    destruct Hu as [x [w [Ex [Ha Hg]]]]. destruct (in_place template name rt attrs d x w q Hw Hpc Hr Hp Hname Ex (member_plain _ _ _ Hd Ex) Ha) as [r [l' [rr [Hq [_ [Epc [Hf _]]]]]]].
    destruct (group_both hash order template defs parameters Hh Ho Hc Hpar Hcn Hcw Hpan Hpp Hta Hw d s (props_path name) g q (names g) w0 b0 rr) as [limit Hlim]; auto.
    exists limit. intros fuel Hfu. destruct (Hlim fuel Hfu) as [ms [Ems [K1 K2]]]. exists ms. rewrite member_ref by exact Hw. rewrite (settings_mem _ _ _ Hw Hs), Ems. cbn [bind]. rewrite app_nil_r. split; [reflexivity|]. split.
    - intros g' s1 [= <-] Hs1. rewrite (settings_fun _ _ _ _ Hs1 Hs). exact K1.
    - right. exists g, s. split; [reflexivity|]. split; [exists x, w; auto|]. split; [exact Hs | exact K2]. }
  exists limit. intros fuel Hfu. specialize (Hlim fuel Hfu).
  destruct (concat_res_total (fun wq => match fst wq with VDict e => concat_res (cluster_member order (load hash fuel template) template (VDict d) (props_path name) (snd wq)) e | _ => Ok [] end) l) as [ms Ems].
  { intros x Hx. destruct (Hlim x Hx) as [o [Eo _]]. eauto. }
  exists ms. split; [exact Ems|]. split.
  - intros g s w b d' s' key Hs Hdw Hgw Hrc Kd Ks [v [Ev [Hgn ->]]] HF.
    apply (resolved_members_assoc (fun n => Some (b n)) d d' (proj1 Hd) Kd) in Ev as [x [Ex Hx]].
    destruct (resolved_chosen b x _ Hx _ eq_refl) as [r [lc [Hch Hlc]]].
    assert (Ha : alternative x (props_path name ++ [PKey "CacheParameterGroupName"])%list (VDict [("Ref", VStr g)]) ((props_path name ++ [PKey "CacheParameterGroupName"]) ++ r)%list).
    { apply (chosen_alternative x r _ lc Hch); [intros [y [=]] | intros [= ->]; now apply Hgn]. }
    set (q := ((props_path name ++ [PKey "CacheParameterGroupName"]) ++ r)%list) in *.
    assert (Hu : may_use d (props_path name) g q) by (exists x, (VDict [("Ref", VStr g)]); split; [exact Ex|]; split; [exact Ha | split; [exact Hgn | reflexivity]]).
    pose proof (H2 g q Hu) as Hi. destruct (Hlim _ Hi) as [o [Eo [K1 _]]]. cbn [fst snd] in Eo, K1.
    destruct (K1 g s eq_refl Hs w b d' s' key Hdw Hgw Kd Ks) as [sc [Hsc Hin]]; [|exact HF|].
    + intros c y Hcn' Hy. unfold q in *. rewrite <- app_assoc in *. cbn [app] in *. apply (resource_needs template name rt attrs d _ c y Hw Hr Hp) in Hy. apply (resource_needs template name rt attrs d _ c (b c) Hw Hr Hp).
      destruct Hy as [Hy|[-> Hy]]; [|right; auto]. left. assert (y = b c) as <-; [|exact Hy].
      inversion Hy as [| |? ? ? ? ? ? E2 K2|]; subst. assert (x = x0) as <- by congruence. apply (chosen_passes _ _ _ _ Hch) in K2. symmetry. now apply Hlc.
    + exists sc. split; [exact Hsc|]. apply (concat_res_in _ _ _ _ Ems). exists (VDict [("Ref", VStr g)], q), o. auto.
  - intros m Hm. apply (concat_res_in _ _ _ _ Ems) in Hm as [[v q] [o [Hi [Eo Hm]]]]. destruct (Hlim _ Hi) as [o' [Eo' [_ K]]]. cbn [fst snd] in Eo', K. cbn [fst snd] in Eo. rewrite Eo in Eo'. injection Eo' as <-.
    destruct K as [->|[g [s [-> [Hu [Hs K]]]]]]; [destruct Hm|]. destruct (K m Hm) as [b [sc [key [Hsc [Hag [HF [-> Hpos]]]]]]].
    exists g, q, s, b, sc, key. split; [exact Hu|]. split; [exact Hs|]. split; [exact Hsc|]. split; [exact HF|]. split; [|split; [reflexivity | exact Hpos]].
    intros [b' Hb']. destruct (Hsh g q s Hu Hs) as [_ [_ [_ [Hn _]]]]. destruct Hu as [x [w [Ex [Ha [Hgn ->]]]]].
    destruct (in_place template name rt attrs d x _ q Hw Hpc Hr Hp Hname Ex (member_plain _ _ _ Hd Ex) Ha) as [r [lc [rr [Hq [Hch [_ [_ Hnd]]]]]]]. split.
    + intros d' Kd. exists (VDict [("Ref", VStr g)]). split; [|split; [exact Hgn | reflexivity]]. apply (resolved_members_assoc (fun n => Some (b n)) d d' (proj1 Hd) Kd). exists x. split; [exact Ex|].
      apply (chosen_resolved_to _ x r _ lc Hch).
      * intros c y Hcy. assert (Hcn' : In c (names g)) by (apply Hn; left; exists "CacheParameterGroupName", x; split; [now apply assoc_In | eapply chosen_looks; eauto]).
        assert (N : needs template q c y) by (apply Hnd; now left). pose proof (Hag c y Hcn' N) as N'. f_equal. rewrite <- (Hb' _ _ N'). now apply Hb'.
      * apply r_object; [intros y [=] | intros [= ->]; now apply Hgn].
    + intros c Hcc Hcn'. assert (N : needs template q c true) by (apply Hnd; right; auto). pose proof (Hag c true Hcn' N) as N'. rewrite <- (Hb' _ _ N'). now apply Hb'.
Qed.
Lemma c83_run hash order fuel sp k c raw name attrs d m0 d0 b g s d' s' key : wf (template c) -> plain_conditions (template c) -> (forall l, Permutation (order l) l) ->
  snd (coll_run sp k c) = Ok raw -> In (cluster_rule hash order fuel) (k_all k) -> enabled (k_set k) (cluster_rule hash order fuel) = true -> c_tmpl c = MDict m0 d0 ->
  resource_of (template c) name "AWS::ElastiCache::ReplicationGroup" attrs -> assoc "Properties" attrs = Some (VDict d) -> name <> "Fn::If" ->
  plain_object d -> (forall n, ~ members_look_at d n) -> group_shaped d ->
  (forall g, uses_group d g -> no_resource (template c) g \/ exists s, settings_of (template c) g s) ->
  (forall g s, uses_group d g -> settings_of (template c) g s -> plain_object s /\ (forall n, ~ members_look_at s n) /\
     forall d' s', deployed b d d' -> deployed b s s' -> cluster_shaped d' s') ->
  uses_group d g -> settings_of (template c) g s -> deployed b d d' -> deployed b s s' -> cluster_fault d' s' key ->
  exists f, locate_match c "E3026" (mkRM (props_path name ++ [PKey key])%list (cluster_words key ++ " at " ++ path_text (props_path name ++ [PKey key])%list)) = Ok f /\ In f raw.
Proof.
  intros Hw Hpc Ho Hrun Hr He Hc Hres Hp Hname Hd Hn Hgs Hk Hsh Hu Hs Kd Ks HF.
  destruct (c83_plain order (load hash fuel (template c)) (template c) name _ attrs d b Hw Hpc Ho Hres Hp Hname Hd Hn Hgs Hk Hsh) as [ms [E Hms]].
  refine (reported_props_ok sp k c raw _ _ name _ attrs d ms _ m0 d0 Hrun Hr He eq_refl _ Hc Hres Hp E _ _).
  - now left.
  - intros m Hm. apply Hms in Hm as [g' [s1 [d1 [s1' [key' [_ [_ [_ [_ [_ ->]]]]]]]]]]. cbn [rm_path]. split; [discriminate|].
    apply (indices_after _ _ _ (VDict d)); [exact (resource_at c name _ attrs d Hw Hres Hp)|]. intros t' _. apply indices_key.
  - apply Hms. exists g, s, d', s', key. auto 8.
Qed.
