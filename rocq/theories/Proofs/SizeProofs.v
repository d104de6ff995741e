(** C29: sizes of lists, texts and numbers. *)
From Coq Require Import Permutation Lia QArith.
From Verif.Model Require Import Base Locate Helpers Node Conditions Search Resolve Rules Relationship Parameters PropertyRules.
From Verif.Spec Require Import Paths Branches Walk Required Truth Resolved Groups Sizes.
From Verif.Proofs Require Import BaseFacts BranchProofs SearchProofs ConditionProofs ResolveProofs ScenarioMain SetProofs PropertyRuleProofs GroupProofs.
Import Verif.Model.Rules.
Import ListNotations.
Local Open Scope string_scope.

Lemma opt_eqb_some o s : opt_eqb o s = true <-> o = Some s.
Proof. destruct o as [x|]; cbn; [|split; discriminate]. rewrite String.eqb_eq. split; congruence. Qed.
Lemma between_iff lo hi n : (Z.leb lo (Z.of_nat n) && Z.leb (Z.of_nat n) hi)%bool = true <-> within lo hi n.
Proof. unfold within. rewrite andb_true_iff, !Z.leb_le. tauto. Qed.
Lemma between_false lo hi n : (Z.leb lo (Z.of_nat n) && Z.leb (Z.of_nat n) hi)%bool = false <-> ~ within lo hi n.
Proof. rewrite <- not_true_iff_false, between_iff. tauto. Qed.
Lemma value_spec_names rs key ps : ~ In "" (keys (rs_value_types rs)) -> forall vs, (vs = value_spec rs (value_type key ps) /\ vs <> no_vspec) -> names_type rs key ps vs.
Proof.
  intros He vs [-> Hn]. unfold value_spec, value_type, names_type in *. destruct (assoc key (ps_value ps)) as [t|].
  - exists t. split; [reflexivity|]. destruct (assoc t (rs_value_types rs)); congruence.
  - exfalso. destruct (assoc "" (rs_value_types rs)) eqn:E; [|congruence]. apply He, assoc_Some_key. eauto.
Qed.
Lemma names_value_spec rs key ps vs : names_type rs key ps vs -> value_spec rs (value_type key ps) = vs.
Proof. intros [t [H1 H2]]. unfold value_spec, value_type. now rewrite H1, H2. Qed.

(** * Lists *)
Lemma list_spec rs ps (f : vspec -> res (list rulematch)) :
  ~ In "" (keys (rs_value_types rs)) ->
  (forall vs, v_list_min vs = None \/ v_list_max vs = None -> f vs = Ok []) ->
  (exists lo hi vs, list_bounds rs ps lo hi /\ v_list_min vs = Some lo /\ v_list_max vs = Some hi /\
     match ps_value ps with [] => Ok [] | _ => if opt_eqb (ps_type ps) "List" then f (value_spec rs (value_type "ListValueType" ps)) else Ok [] end = f vs) \/
  ((forall lo hi, ~ list_bounds rs ps lo hi) /\
     match ps_value ps with [] => Ok [] | _ => if opt_eqb (ps_type ps) "List" then f (value_spec rs (value_type "ListValueType" ps)) else Ok [] end = Ok []).
Proof.
  intros He Hf. destruct (ps_value ps) as [|x y] eqn:Ev.
  - right. split; [|reflexivity]. intros lo hi [_ [vs [[t [Ht _]] _]]]. rewrite Ev in Ht. discriminate.
  - set (vs := value_spec rs (value_type "ListValueType" ps)). destruct (opt_eqb (ps_type ps) "List") eqn:Et.
    + apply opt_eqb_some in Et. destruct (v_list_min vs) as [lo|] eqn:E1; [destruct (v_list_max vs) as [hi|] eqn:E2|].
      * left. exists lo, hi, vs. split; [|split; [exact E1 | split; [exact E2|]]].
        -- split; [exact Et|]. exists vs. split; [|auto]. apply value_spec_names; [exact He|]. split; [reflexivity|]. intros E. rewrite E in E1. discriminate.
        -- reflexivity.
      * right. split; [|apply Hf; auto]. intros lo' hi [_ [vs' [Hn [_ H]]]]. apply names_value_spec in Hn. fold vs in Hn. congruence.
      * right. split; [|apply Hf; auto]. intros lo' hi [_ [vs' [Hn [H _]]]]. apply names_value_spec in Hn. fold vs in Hn. congruence.
    + right. split; [|reflexivity]. intros lo hi [H _]. apply opt_eqb_some in H. congruence.
Qed.
Definition list_size_words (prop : string) (lo hi : Z) : string := prop ++ " has to have between " ++ str_of_Z lo ++ " and " ++ str_of_Z hi ++ " items specified".
Lemma list_set_spec p prop lo hi s d :
  exists o, list_size_set p prop lo hi (s, VDict d) = Ok o /\
    forall m, In m o <-> exists l, assoc prop d = Some (VList l) /\ ~ within lo hi (List.length l) /\ m = list_size_match p prop lo hi s.
Proof.
  unfold list_size_set. cbn [fst snd]. unfold vget. cbn [bind]. eexists. split; [reflexivity|]. intros m.
  destruct (assoc prop d) as [v|]; [|split; [intros [] | intros [l [[=] _]]]].
  destruct v as [| | | | |l|d']; try (split; [intros [] | intros [l0 [[=] _]]]).
  destruct (Z.leb lo (Z.of_nat (List.length l)) && Z.leb (Z.of_nat (List.length l)) hi)%bool eqn:E.
  - apply between_iff in E. split; [intros [] | intros [l' [[= <-] [H _]]]; contradiction].
  - apply between_false in E. split; [intros [<-|[]]; eauto | intros [l' [[= <-] [_ ->]]]; now left].
Qed.
Lemma list_check_in order c rs props specs p ms : ~ In "" (keys (rs_value_types rs)) -> all_objects (VDict props) p ->
  (forall d q, branch (VDict props) p (VDict d) q -> plain_object d) ->
  list_size_check order c rs (VDict props) specs p = Ok ms ->
  forall m, In m ms <-> exists d q prop ps lo hi sets s d2 l, branch (VDict props) p (VDict d) q /\ In prop (keys d) /\ assoc prop specs = Some ps /\ list_bounds rs ps lo hi /\
    get_object_without_conditions order c (VDict d) [] = Ok sets /\ In (s, VDict d2) sets /\ assoc prop d2 = Some (VList l) /\ ~ within lo hi (List.length l) /\
    m = list_size_match q prop lo hi s.
Proof.
  intros He Ha Hpl E m. unfold list_size_check in E. rewrite (per_property_in _ _ _ _ _ Ha E).
  assert (Hf : forall d q prop vs, v_list_min vs = None \/ v_list_max vs = None -> list_size_value order c (VDict d) q prop vs = Ok []).
  { intros d q prop vs [H|H]; unfold list_size_value; rewrite H; [reflexivity|]. now destruct (v_list_min vs). }
  split.
  - intros [d [q [prop [ps [o [Hb [Hk [Hs [Ef Hm]]]]]]]]].
    destruct (list_spec rs ps (list_size_value order c (VDict d) q prop) He (Hf d q prop)) as [[lo [hi [vs [Hlb [H1 [H2 E2]]]]]]|[_ E2]]; rewrite E2 in Ef; [|injection Ef as <-; destruct Hm].
    unfold list_size_value in Ef. rewrite H1, H2 in Ef. destruct (get_object_without_conditions order c (VDict d) []) as [sets|] eqn:Es; cbn [bind] in Ef; [|discriminate].
    apply (concat_res_ok_iff _ _ _ Ef) in Hm as [[s x] [o' [Hi [Eo Hm]]]]. destruct (sets_objects _ _ _ _ (Hpl d q Hb) Es s x Hi) as [d2 ->].
    destruct (list_set_spec q prop lo hi s d2) as [o2 [Eo2 Hin]]. rewrite Eo2 in Eo. injection Eo as ->. apply Hin in Hm as [l [Hl [Hw ->]]].
    exists d, q, prop, ps, lo, hi, sets, s, d2, l. auto 12.
  - intros [d [q [prop [ps [lo [hi [sets [s [d2 [l [Hb [Hk [Hs [Hlb [Es [Hi [Hl [Hw ->]]]]]]]]]]]]]]]]]].
    destruct (per_property_each _ _ _ _ _ Ha E d q prop ps Hb Hk Hs) as [o Ef]. exists d, q, prop, ps, o. split; [exact Hb|]. split; [exact Hk|]. split; [exact Hs|]. split; [exact Ef|].
    destruct (list_spec rs ps (list_size_value order c (VDict d) q prop) He (Hf d q prop)) as [[lo' [hi' [vs [Hlb' [H1 [H2 E2]]]]]]|[Hno _]]; [|now destruct (Hno lo hi)].
    assert (lo' = lo /\ hi' = hi) as [-> ->].
    { destruct Hlb as [_ [v1 [N1 [A1 A2]]]], Hlb' as [_ [v2 [N2 [B1 B2]]]]. apply names_value_spec in N1, N2. split; congruence. }
    rewrite E2 in Ef. unfold list_size_value in Ef. rewrite H1, H2, Es in Ef. cbn [bind] in Ef. apply (concat_res_ok_iff _ _ _ Ef).
    destruct (list_set_spec q prop lo hi s d2) as [o2 [Eo2 Hin]]. exists (s, VDict d2), o2. split; [exact Hi|]. split; [exact Eo2|]. apply Hin. eauto.
Qed.
Lemma list_check_total order c rs props specs p : all_objects (VDict props) p ->
  (forall d q, branch (VDict props) p (VDict d) q -> plain_object d /\ exists sets, get_object_without_conditions order c (VDict d) [] = Ok sets) ->
  exists ms, list_size_check order c rs (VDict props) specs p = Ok ms.
Proof.
  intros Ha H. apply per_property_total; [exact Ha|]. intros d q prop ps Hb Hk Hs. destruct (H d q Hb) as [Hpl [sets Es]].
  assert (K : forall vs, exists o, list_size_value order c (VDict d) q prop vs = Ok o).
  { intros vs. unfold list_size_value. destruct (v_list_min vs) as [lo|]; [|eauto]. destruct (v_list_max vs) as [hi|]; [|eauto]. rewrite Es. cbn [bind]. apply concat_res_total.
    intros [s x] Hi. destruct (sets_objects _ _ _ _ Hpl Es s x Hi) as [d2 ->]. destruct (list_set_spec q prop lo hi s d2) as [o [Eo _]]. eauto. }
  destruct (ps_value ps); [eauto|]. destruct (opt_eqb (ps_type ps) "List"); eauto.
Qed.

Lemma c29_list_plain order c rs props specs p : (forall l, Permutation (order l) l) -> ~ In "" (keys (rs_value_types rs)) -> all_objects (VDict props) p ->
  (forall d q, branch (VDict props) p (VDict d) q -> plain_object d /\ VDict d <> no_value /\ forall n, ~ members_look_at d n) ->
  exists ms, list_size_check order c rs (VDict props) specs p = Ok ms /\
    forall m, In m ms <-> exists d q prop ps lo hi l, branch (VDict props) p (VDict d) q /\ assoc prop specs = Some ps /\ list_bounds rs ps lo hi /\
      assoc prop d = Some (VList l) /\ ~ within lo hi (List.length l) /\
      m = mkRM (q ++ [PKey prop])%list (prop ++ " has to have between " ++ str_of_Z lo ++ " and " ++ str_of_Z hi ++ " items specified").
Proof.
  intros Ho He Ha Hd.
  assert (Es : forall d q, branch (VDict props) p (VDict d) q -> get_object_without_conditions order c (VDict d) [] = Ok [(None, VDict d)]).
  { intros d q Hb. destruct (Hd d q Hb) as [H1 [H2 H3]]. apply sets_plain; auto. intros n K. apply part_all in K. now apply (H3 n). }
  destruct (list_check_total order c rs props specs p Ha) as [ms E].
  { intros d q Hb. split; [apply (Hd d q Hb) | rewrite (Es d q Hb); eauto]. }
  exists ms. split; [exact E|]. intros m. rewrite (list_check_in order c rs props specs p ms He Ha (fun d q Hb => proj1 (Hd d q Hb)) E). split.
  - intros [d [q [prop [ps [lo [hi [sets [s [d2 [l [Hb [Hk [Hs [Hlb [E2 [Hi [Hl [Hw ->]]]]]]]]]]]]]]]]]]. rewrite (Es d q Hb) in E2. injection E2 as <-. destruct Hi as [Hi|[]]. injection Hi as <- <-.
    exists d, q, prop, ps, lo, hi, l. split; [exact Hb|]. split; [exact Hs|]. split; [exact Hlb|]. split; [exact Hl|]. split; [exact Hw|]. reflexivity.
  - intros [d [q [prop [ps [lo [hi [l [Hb [Hs [Hlb [Hl [Hw ->]]]]]]]]]]]]. exists d, q, prop, ps, lo, hi, [(None, VDict d)], None, d, l.
    split; [exact Hb|]. split; [apply assoc_Some_key; eauto|]. split; [exact Hs|]. split; [exact Hlb|]. split; [now apply (Es d q)|]. split; [now left|]. split; [exact Hl|]. split; [exact Hw|]. reflexivity.
Qed.
Lemma c29_list_found hash order template defs parameters fuel w b rs props specs p d q names d' prop ps lo hi l ms :
  (forall v, digest (hash v)) -> (forall l, Permutation (order l) l) ->
  section_of "Conditions" template defs -> section_of "Parameters" template parameters ->
  ~ In "" (keys (rs_value_types rs)) -> all_objects (VDict props) p -> (forall d q, branch (VDict props) p (VDict d) q -> plain_object d) ->
  branch (VDict props) p (VDict d) q ->
  NoDup names -> names <> [] -> (forall n, In n names <-> members_look_at d n) ->
  (forall n, In n names -> mem_assoc n (cs_conditions (load hash fuel template)) = true) ->
  (List.length names <= 4 \/ some_related defs names) ->
  deployment hash parameters w -> gives defs w names b ->
  deployed b d d' -> assoc prop specs = Some ps -> list_bounds rs ps lo hi -> assoc prop d' = Some (VList l) -> ~ within lo hi (List.length l) ->
  list_size_check order (load hash fuel template) rs (VDict props) specs p = Ok ms ->
  exists sc, Permutation sc (scenario_of names b) /\
    In (mkRM (q ++ [PKey prop])%list (prop ++ " has to have between " ++ str_of_Z lo ++ " and " ++ str_of_Z hi ++ " items specified when " ++ scenario_text sc)) ms.
Proof.
  intros Hh Ho Hc Hp He Ha Hpl Hb Hnd Hne Hn Hl Hs Hw Hgv Hdep Hsp Hlb Hx Hwi E.
  destruct (sets_found hash order template defs parameters fuel w b d [] names) as [out [Eo Hout]]; auto.
  { eauto. }
  { intros n. rewrite Hn. symmetry. apply part_all. }
  assert (Hd' : d' <> []) by (intros ->; discriminate).
  destruct (Hout d' Hdep Hd') as [sc [d'' [Hi [Hperm Hag]]]]. exists sc. split; [exact Hperm|].
  apply (list_check_in order (load hash fuel template) rs props specs p ms He Ha Hpl E). exists d, q, prop, ps, lo, hi, out, (Some sc), d'', l.
  split; [exact Hb|]. split; [apply (resolved_members_keys _ _ _ Hdep), assoc_Some_key; eauto|]. split; [exact Hsp|]. split; [exact Hlb|]. split; [exact Eo|]. split; [exact Hi|].
  split; [rewrite Hag; [exact Hx | now left]|]. split; [exact Hwi|]. unfold list_size_match. reflexivity.
Qed.
Lemma c29_list_real hash order template defs parameters rs props specs p w0 b0 :
  (forall v, digest (hash v)) -> (forall l, Permutation (order l) l) ->
  section_of "Conditions" template defs -> section_of "Parameters" template parameters ->
  NoDup (keys defs) -> (forall n v, In (n, v) defs -> well_formed defs v) ->
  NoDup (keys parameters) -> (forall n p, In (n, p) parameters -> plain_parameter p) -> told_apart hash parameters ->
  ~ In "" (keys (rs_value_types rs)) -> all_objects (VDict props) p ->
  deployment hash parameters w0 -> gives defs w0 (keys defs) b0 ->
  (forall d q, branch (VDict props) p (VDict d) q -> plain_object d /\ VDict d <> no_value /\
     exists names, NoDup names /\ (forall n, In n names <-> members_look_at d n) /\
       (forall n, In n names -> In n (keys defs)) /\ (List.length names <= 4 \/ some_related defs names)) ->
  exists limit, forall fuel, limit <= fuel ->
  exists ms, list_size_check order (load hash fuel template) rs (VDict props) specs p = Ok ms /\
    forall m, In m ms -> exists d q prop ps lo hi, branch (VDict props) p (VDict d) q /\ assoc prop specs = Some ps /\ list_bounds rs ps lo hi /\
      ((forall n, ~ members_look_at d n) /\ (exists l, assoc prop d = Some (VList l) /\ ~ within lo hi (List.length l)) /\
         m = mkRM (q ++ [PKey prop])%list (prop ++ " has to have between " ++ str_of_Z lo ++ " and " ++ str_of_Z hi ++ " items specified") \/
       exists names b sc, NoDup names /\ names <> [] /\ (forall n, In n names <-> members_look_at d n) /\ Permutation sc (scenario_of names b) /\
         (forall d', deployed b d d' -> exists l, assoc prop d' = Some (VList l) /\ ~ within lo hi (List.length l)) /\
         m = mkRM (q ++ [PKey prop])%list (prop ++ " has to have between " ++ str_of_Z lo ++ " and " ++ str_of_Z hi ++ " items specified when " ++ scenario_text sc) /\
         ((some_related defs names \/ forall n, In n names -> exists w, deployment hash parameters w /\ gives defs w [n] b) ->
          exists w, deployment hash parameters w /\ gives defs w names b)).
Proof.
  intros Hh Ho Hc Hp Hcn Hcw Hpn Hpp Hta He Ha Hw0 Hg0 Hd.
  pose (ok := fun (x : val * path) fuel sets => get_object_without_conditions order (load hash fuel template) (fst x) [] = Ok sets /\
    forall s o, In (s, o) sets -> exists d, fst x = VDict d /\
      ((forall n, ~ members_look_at d n) /\ s = None /\ o = VDict d \/
       exists names b sc d'', NoDup names /\ names <> [] /\ (forall n, In n names <-> members_look_at d n) /\ s = Some sc /\ Permutation sc (scenario_of names b) /\
         o = VDict d'' /\ (forall d', deployed b d d' -> forall k, assoc k d'' = assoc k d') /\
         ((some_related defs names \/ forall n, In n names -> exists w, deployment hash parameters w /\ gives defs w [n] b) ->
          exists w, deployment hash parameters w /\ gives defs w names b))).
  assert (Hall : forall l, (forall x, In x l -> branch (VDict props) p (fst x) (snd x)) -> exists limit, forall fuel, limit <= fuel -> forall x, In x l -> exists sets, ok x fuel sets).
  { induction l as [|x l IH]; intros Hl; [exists 0; intros ? _ ? []|].
    destruct IH as [lim1 H1]; [intros x' Hi; apply Hl; now right|]. enough (exists lim, forall fuel, lim <= fuel -> exists sets, ok x fuel sets) as [lim2 H2].
    { exists (Nat.max lim1 lim2). intros fuel Hf x' [<-|Hi]; [apply H2; lia | apply H1; [lia | exact Hi]]. }
    pose proof (Hl x (or_introl eq_refl)) as Hb. destruct (Ha _ _ Hb) as [d Ed]. destruct x as [x q]. cbn [fst snd] in *. subst x.
    destruct (Hd d q Hb) as [Hpo [Hnv [names [N1 [N2 [N3 N4]]]]]]. destruct names as [|n0 names].
    - exists 0. intros fuel _. assert (Hno : forall n, ~ members_look_at d n) by (intros n K; now apply N2 in K). exists [(None, VDict d)]. split; cbn [fst snd].
      + apply sets_plain; auto. intros n K. apply part_all in K. now apply (Hno n).
      + intros s o [Hso|[]]. injection Hso as <- <-. exists d. auto.
    - destruct (sets_real hash order template defs parameters d [] (n0 :: names) w0 b0) as [lim H]; auto; try discriminate.
      { intros n. rewrite N2. symmetry. apply part_all. }
      { intros n Hi. now apply Hg0, N3. }
      exists lim. intros fuel Hf. destruct (H fuel Hf) as [out [E Hout]]. exists out. split; [exact E|]. cbn [fst snd]. intros s o Hi. exists d. split; [reflexivity|]. right.
      destruct (Hout s o Hi) as [sc [b [d'' [H3 [H4 [H5 [H6 H7]]]]]]]. exists (n0 :: names), b, sc, d''. split; [exact N1|]. split; [discriminate|]. split; [exact N2|].
      split; [exact H3|]. split; [exact H4|]. split; [exact H5|]. split; [|exact H7]. intros d' Hd' k. apply (H6 d' Hd'). now left. }
  destruct (Hall (items_safe (VDict props) p)) as [limit Hlim].
  { intros [x q] Hi. now apply items_safe_spec. }
  exists limit. intros fuel Hf.
  assert (Hget : forall d q, branch (VDict props) p (VDict d) q -> exists sets, ok (VDict d, q) fuel sets).
  { intros d q Hb. apply (Hlim fuel Hf). now apply items_safe_spec. }
  destruct (list_check_total order (load hash fuel template) rs props specs p Ha) as [ms E].
  { intros d q Hb. destruct (Hget d q Hb) as [sets [Es _]]. split; [apply (Hd d q Hb) | eauto]. }
  exists ms. split; [exact E|]. intros m Hm. apply (list_check_in order (load hash fuel template) rs props specs p ms He Ha (fun d q Hb => proj1 (Hd d q Hb)) E) in Hm.
  destruct Hm as [d [q [prop [ps [lo [hi [sets [s [d2 [l [Hb [Hk [Hs [Hlb [E2 [Hi [Hl [Hw ->]]]]]]]]]]]]]]]]]].
  exists d, q, prop, ps, lo, hi. split; [exact Hb|]. split; [exact Hs|]. split; [exact Hlb|].
  destruct (Hget d q Hb) as [sets' [E' Hset]]. cbn [fst] in E', Hset. rewrite E' in E2. injection E2 as ->.
  destruct (Hset s (VDict d2) Hi) as [d0 [E0 [[H1 [-> H2]]|[names [b [sc [d'' [H1 [H2 [H3 [-> [H4 [H5 [H6 H7]]]]]]]]]]]]]]; injection E0 as <-.
  - left. injection H2 as ->. split; [exact H1|]. split; [eauto|]. reflexivity.
  - right. injection H5 as ->. exists names, b, sc. split; [exact H1|]. split; [exact H2|]. split; [exact H3|]. split; [exact H4|]. split; [|split; [reflexivity | exact H7]].
    intros d' Hd'. exists l. rewrite <- (H6 d' Hd' prop). auto.
Qed.

(** * Single values *)
Lemma branch_plain props p w q : ~ is_if (VDict props) -> branch (VDict props) p w q -> q = p /\ w = VDict (clean props).
Proof.
  intros Hi H. inversion H; subst; try (exfalso; apply Hi; eexists; reflexivity). split; [reflexivity|].
  match goal with K : settled _ _ |- _ => inversion K; subst end; [|discriminate]. match goal with K : pruned _ _ |- _ => apply clean_pruned in K; now subst end.
Qed.
Lemma plain_branch props p : ~ is_if (VDict props) -> VDict props <> NoValue -> branch (VDict props) p (VDict (clean props)) p.
Proof. intros H1 H2. apply br_leaf; auto. apply st_dict, clean_pruned. reflexivity. Qed.
Lemma plain_objects props p : ~ is_if (VDict props) -> all_objects (VDict props) p.
Proof. intros Hi w q H. destruct (branch_plain props p w q Hi H) as [_ ->]. eauto. Qed.
Lemma single_novalue p w q : ~ single NoValue p w q.
Proof.
  assert (K : forall w q, ~ alternative NoValue p w q) by (intros w' q' H; inversion H; subst; congruence).
  intros H. inversion H; subst; eapply K; eauto.
Qed.
Lemma clean_keys (d : list (string * val)) k : NoDup (keys d) -> In k (keys (clean d)) <-> exists x, assoc k d = Some x /\ x <> NoValue.
Proof.
  intros Hn. unfold clean. split.
  - intros H. apply in_map_iff in H as [[k' x] [E H]]. cbn in E. subst k'. apply filter_In in H as [H Hx]. exists x. split; [now apply assoc_NoDup|]. cbn in Hx. apply negb_true_iff, is_novalue_false in Hx. exact Hx.
  - intros [x [H Hx]]. apply in_map_iff. exists (k, x). split; [reflexivity|]. apply filter_In. split; [now apply assoc_In|]. cbn. apply negb_true_iff, is_novalue_false. exact Hx.
Qed.
Section Single.
Variable f : val -> path -> res (list rulematch).
Hypothesis Hf : forall v p, exists o, f v p = Ok o.
Hypothesis Hfd : forall d p, f (VDict d) p = Ok [].
Lemma check_value_spec props prop x p : assoc prop props = Some x -> (forall q, ~ alternative x (p ++ [PKey prop])%list VNull q) ->
  exists o, check_value (VDict props) prop p f [] = Ok o /\ forall m, In m o <-> exists w r o', single x (p ++ [PKey prop])%list w r /\ f w r = Ok o' /\ In m o'.
Proof.
  intros Hx Hn. assert (Hx0 : x <> VNull) by (intros ->; apply (Hn (p ++ [PKey prop])%list); apply alt_leaf; [intros [y [=]] | discriminate]).
  destruct (get_values_spec props prop x (p ++ [PKey prop])%list Hx Hx0) as [H1 [H2 _]]. destruct (proj2 H2 Hn) as [l El]. specialize (H1 l El).
  unfold check_value. rewrite El. cbn [bind].
  match goal with |- exists o, concat_res ?g l = Ok o /\ _ => assert (E : concat_res g l = concat_res (fun qv => f (snd qv) (fst qv)) l) end.
  { apply concat_res_ext. intros [q v] _. cbn [fst snd]. destruct v as [| | | | | |d]; try reflexivity. destruct d as [|[k y] [|? ?]]; try reflexivity. destruct (smem k FUNCTIONS); [|reflexivity]. cbn [assoc]. now rewrite Hfd. }
  rewrite E. destruct (concat_res_total (fun qv => f (snd qv) (fst qv)) l) as [o Eo]; [intros [q v] _; apply Hf|]. exists o. split; [exact Eo|]. intros m. rewrite (concat_res_ok_iff _ _ _ Eo). split.
  - intros [[q v] [o' [Hi [E' Hm]]]]. exists v, q, o'. split; [now apply H1|]. auto.
  - intros [w [r [o' [Hs [E' Hm]]]]]. exists (r, w), o'. split; [now apply H1|]. auto.
Qed.
End Single.
(** The shared shape of the two checks. *)
Lemma single_check (test : pspec -> option (val -> path -> res (list rulematch))) props specs p :
  (forall ps f, test ps = Some f -> (forall v p, exists o, f v p = Ok o) /\ forall d p, f (VDict d) p = Ok []) ->
  ~ is_if (VDict props) -> VDict props <> NoValue -> NoDup (keys props) ->
  (forall prop x q, assoc prop props = Some x -> ~ alternative x (p ++ [PKey prop])%list VNull q) ->
  exists ms, per_property (VDict props) specs p (fun v q prop ps => match test ps with Some f => check_value (VDict props) prop q f [] | None => Ok [] end) = Ok ms /\
    forall m, In m ms <-> exists prop ps x f w r o, assoc prop props = Some x /\ assoc prop specs = Some ps /\ test ps = Some f /\
      single x (p ++ [PKey prop])%list w r /\ f w r = Ok o /\ In m o.
Proof.
  intros Ht Hif Hnv Hnd Hn. pose proof (plain_objects props p Hif) as Ha.
  destruct (per_property_total props specs p (fun v q prop ps => match test ps with Some f => check_value (VDict props) prop q f [] | None => Ok [] end) Ha) as [ms E].
  { intros d q prop ps Hb Hk Hs. destruct (branch_plain _ _ _ _ Hif Hb) as [-> E]. injection E as ->. apply clean_keys in Hk as [x [Hx _]]; [|exact Hnd].
    destruct (test ps) as [f|] eqn:Ef; [|eauto]. destruct (Ht ps f Ef) as [F1 F2]. destruct (check_value_spec f F1 F2 props prop x p Hx (fun q => Hn prop x q Hx)) as [o [Eo _]]. eauto. }
  exists ms. split; [exact E|]. intros m. rewrite (per_property_in _ _ _ _ _ Ha E). split.
  - intros [d [q [prop [ps [o [Hb [Hk [Hs [Ef Hm]]]]]]]]]. destruct (branch_plain _ _ _ _ Hif Hb) as [-> Ed]. injection Ed as ->. apply clean_keys in Hk as [x [Hx _]]; [|exact Hnd].
    destruct (test ps) as [f|] eqn:Et; [|injection Ef as <-; destruct Hm]. destruct (Ht ps f Et) as [F1 F2].
    destruct (check_value_spec f F1 F2 props prop x p Hx (fun q => Hn prop x q Hx)) as [o' [Eo Hin]]. rewrite Eo in Ef. injection Ef as ->. apply Hin in Hm as [w [r [o2 [H1 [H2 H3]]]]].
    exists prop, ps, x, f, w, r, o2. auto 10.
  - intros [prop [ps [x [f [w [r [o [Hx [Hs [Et [H1 [H2 H3]]]]]]]]]]]]. destruct (Ht ps f Et) as [F1 F2].
    destruct (check_value_spec f F1 F2 props prop x p Hx (fun q => Hn prop x q Hx)) as [o' [Eo Hin]]. exists (clean props), p, prop, ps, o'.
    split; [exact (plain_branch props p Hif Hnv)|]. split; [apply clean_keys; [exact Hnd|]; exists x; split; [exact Hx|]; intros K; rewrite K in H1; exact (single_novalue _ _ _ H1)|].
    split; [exact Hs|]. rewrite Et. split; [exact Eo|]. apply Hin. exists w, r, o. auto.
Qed.

Lemma of_texts_iff ps : opt_eqb (if opt_eqb (ps_type ps) "List" then ps_primitive_item ps else ps_primitive ps) "String" = true <-> of_texts ps.
Proof.
  unfold of_texts. destruct (opt_eqb (ps_type ps) "List") eqn:E; rewrite opt_eqb_some.
  - apply opt_eqb_some in E. tauto.
  - assert (ps_type ps <> Some "List") by (rewrite <- opt_eqb_some; congruence). tauto.
Qed.
Lemma names_nonempty rs key ps vs : ~ In "" (keys (rs_value_types rs)) -> names_type rs key ps vs -> String.eqb (value_type key ps) "" = false.
Proof.
  intros He [t [H1 H2]]. unfold value_type. rewrite H1. apply String.eqb_neq. intros ->. apply He, assoc_Some_key. eauto.
Qed.
Definition string_test (rs : rspec) (ps : pspec) : option (val -> path -> res (list rulematch)) :=
  let t := value_type "ValueType" ps in
  if String.eqb t "" then None
  else
    let kind := if opt_eqb (ps_type ps) "List" then ps_primitive_item ps else ps_primitive ps in
    match v_string_max (value_spec rs t), v_string_min (value_spec rs t) with
    | Some hi, Some lo => if negb (Z.eqb hi 0) && negb (Z.eqb lo 0) && opt_eqb kind "String" then Some (string_length lo hi) else None
    | _, _ => None
    end.
Lemma string_test_iff rs ps f : ~ In "" (keys (rs_value_types rs)) -> (string_test rs ps = Some f <-> exists lo hi, string_bounds rs ps lo hi /\ lo <> 0%Z /\ hi <> 0%Z /\ f = string_length lo hi).
Proof.
  intros He. unfold string_test. split.
  - destruct (String.eqb (value_type "ValueType" ps) ""); [discriminate|]. set (vs := value_spec rs (value_type "ValueType" ps)).
    destruct (v_string_max vs) as [hi|] eqn:E2; [|discriminate]. destruct (v_string_min vs) as [lo|] eqn:E1; [|discriminate].
    destruct (negb (Z.eqb hi 0) && negb (Z.eqb lo 0) && opt_eqb (if opt_eqb (ps_type ps) "List" then ps_primitive_item ps else ps_primitive ps) "String")%bool eqn:E; [|discriminate].
    apply andb_true_iff in E as [E Hk]. apply andb_true_iff in E as [Eh El]. apply of_texts_iff in Hk. apply negb_true_iff, Z.eqb_neq in Eh, El. intros Ef. injection Ef as <-. exists lo, hi.
    split; [|auto]. split; [exact Hk|]. exists vs. split; [|auto]. apply value_spec_names; [exact He|]. split; [reflexivity|]. intros K. rewrite K in E1. discriminate.
  - intros [lo [hi [[Hk [vs [Hn [H1 H2]]]] [Hl [Hh ->]]]]]. rewrite (names_nonempty _ _ _ _ He Hn), (names_value_spec _ _ _ _ Hn), H1, H2. apply of_texts_iff in Hk. rewrite Hk.
    apply Z.eqb_neq in Hl, Hh. rewrite Hl, Hh. reflexivity.
Qed.
Lemma c29_string rs props specs p : ~ In "" (keys (rs_value_types rs)) -> ~ is_if (VDict props) -> VDict props <> NoValue -> NoDup (keys props) ->
  (forall prop x q, assoc prop props = Some x -> ~ alternative x (p ++ [PKey prop])%list VNull q) ->
  exists ms, string_size_check rs (VDict props) specs p = Ok ms /\
    forall m, In m ms <-> exists prop ps x lo hi s r, assoc prop props = Some x /\ assoc prop specs = Some ps /\ string_bounds rs ps lo hi /\ lo <> 0%Z /\ hi <> 0%Z /\
      single x (p ++ [PKey prop])%list (VStr s) r /\ ~ within lo hi (String.length s) /\
      m = mkRM r ("String has to have length between " ++ str_of_Z lo ++ " and " ++ str_of_Z hi ++ " at " ++ path_text r).
Proof.
  intros He Hif Hnv Hnd Hn.
  assert (Ht : forall ps f, string_test rs ps = Some f -> (forall v p, exists o, f v p = Ok o) /\ forall d p, f (VDict d) p = Ok []).
  { intros ps f H. apply string_test_iff in H as [lo [hi [_ [_ [_ ->]]]]]; [|exact He]. split; [intros v q; unfold string_length; eauto | reflexivity]. }
  destruct (single_check (string_test rs) props specs p Ht Hif Hnv Hnd Hn) as [ms [E Hms]]. exists ms. split.
  - rewrite <- E. unfold string_size_check, per_property. destruct (obj_items_safe (VDict props) p) as [items|]; cbn [bind]; [|reflexivity].
    apply concat_res_ext. intros [v q] _. cbn [fst snd]. destruct (iter_val v) as [ks|]; cbn [bind]; [|reflexivity]. apply concat_res_ext. intros k _. destruct k; try reflexivity.
    destruct (assoc s specs) as [ps|]; [|reflexivity]. unfold string_test. destruct (String.eqb (value_type "ValueType" ps) ""); [reflexivity|].
    destruct (v_string_max (value_spec rs (value_type "ValueType" ps))) as [hi|]; [|reflexivity]. destruct (v_string_min (value_spec rs (value_type "ValueType" ps))) as [lo|]; [|reflexivity].
    now destruct (negb (Z.eqb hi 0) && negb (Z.eqb lo 0) && opt_eqb (if opt_eqb (ps_type ps) "List" then ps_primitive_item ps else ps_primitive ps) "String")%bool.
  - intros m. rewrite Hms. split.
    + intros [prop [ps [x [f [w [r [o [Hx [Hs [Et [H1 [H2 H3]]]]]]]]]]]]. apply string_test_iff in Et as [lo [hi [Hb [Hl [Hh ->]]]]]; [|exact He]. unfold string_length in H2. injection H2 as <-.
      destruct w as [| | | |s| |]; try (now destruct H3). destruct (Z.leb lo (Z.of_nat (String.length s)) && Z.leb (Z.of_nat (String.length s)) hi)%bool eqn:E2; [destruct H3|]. destruct H3 as [<-|[]].
      apply between_false in E2. exists prop, ps, x, lo, hi, s, r. unfold between_match. auto 12.
    + intros [prop [ps [x [lo [hi [s [r [Hx [Hs [Hb [Hl [Hh [H1 [H2 ->]]]]]]]]]]]]]]. exists prop, ps, x, (string_length lo hi), (VStr s), r, [between_match "String has to have length" (str_of_Z lo) (str_of_Z hi) r].
      split; [exact Hx|]. split; [exact Hs|]. split; [apply string_test_iff; eauto 10|]. split; [exact H1|]. split; [|now left]. unfold string_length. apply between_false in H2. now rewrite H2.
Qed.

(** * Numbers *)
Section Numbers.
Variable reads : string -> option (option QArith_base.Q).
Lemma outside_iff lo hi q : outside lo hi (Some q) = true <-> ~ (lo <= q <= hi)%Q.
Proof. unfold outside. rewrite negb_true_iff, andb_false_iff. rewrite <- !not_true_iff_false, !Qle_bool_iff. destruct (Qlt_le_dec q lo) as [A|A]; [apply Qlt_not_le in A; tauto|]. destruct (Qlt_le_dec hi q) as [B|B]; [apply Qlt_not_le in B; tauto|tauto]. Qed.
Lemma number_value_in lo hi v p : exists o, number_value reads lo hi v p = Ok o /\
  forall m, In m o <-> out_of_range reads (fst lo) (fst hi) v /\ m = mkRM p ("Value has to be between " ++ snd lo ++ " and " ++ snd hi ++ " at " ++ path_text p).
Proof.
  unfold number_value. eexists. split; [reflexivity|]. intros m.
  assert (K : forall (b : bool) (P : Prop), (b = true <-> P) -> In m (if b then [between_match "Value has to be" (snd lo) (snd hi) p] else []) <-> P /\ m = mkRM p ("Value has to be between " ++ snd lo ++ " and " ++ snd hi ++ " at " ++ path_text p)).
  { intros [|] P HP; split; [intros [<-|[]]; split; [now apply HP | reflexivity] | intros [_ ->]; now left | intros [] | intros [H _]; apply HP in H; discriminate]. }
  destruct v as [|b|z|q|s|l|d]; cbn [num_of].
  - split; [intros [] | intros [H _]; inversion H].
  - destruct b; apply K; rewrite outside_iff; (split; [intros H; now apply (or_bool _ _ _ _) | intros H; inversion H; subst; assumption]).
  - apply K. rewrite outside_iff. split; [apply or_int | intros H; inversion H; subst; assumption].
  - apply K. rewrite outside_iff. split; [apply or_float | intros H; inversion H; subst; assumption].
  - destruct (reads s) as [x|] eqn:E.
    + apply K. destruct x as [q|].
      * rewrite outside_iff. split; [exact (or_text reads _ _ s q E)|]. intros H. inversion H as [s' E'|s' E'|s' q' E' N| | |]; rewrite E in E'; try discriminate. injection E' as <-. exact N.
      * split; [intros _; exact (or_infinite reads _ _ s E) | reflexivity].
    + rewrite <- (K true (out_of_range reads (fst lo) (fst hi) (VStr s))); [reflexivity|]. split; [intros _; now apply or_no_number | reflexivity].
  - split; [intros [] | intros [H _]; inversion H].
  - split; [intros [] | intros [H _]; inversion H].
Qed.
End Numbers.

Section NumberCheck.
Variable reads : string -> option (option QArith_base.Q).
Definition number_test (rs : rspec) (ps : pspec) : option (val -> path -> res (list rulematch)) :=
  let t := value_type "ValueType" ps in
  if String.eqb t "" then None
  else
    match v_number_max (value_spec rs t), v_number_min (value_spec rs t) with
    | Some hi, Some lo => if match ps_primitive ps with Some k => smem k ["Integer"; "Double"; "Long"; "String"] | None => false end then Some (number_value reads lo hi) else None
    | _, _ => None
    end.
Lemma number_kind ps : match ps_primitive ps with Some k => smem k ["Integer"; "Double"; "Long"; "String"] | None => false end = true <-> exists k, ps_primitive ps = Some k /\ In k ["Integer"; "Double"; "Long"; "String"].
Proof. destruct (ps_primitive ps) as [k|]; [|split; [discriminate | intros [k [[=] _]]]]. rewrite smem_iff. split; [eauto | intros [k' [E H]]; injection E as ->; exact H]. Qed.
Lemma number_test_iff rs ps f : ~ In "" (keys (rs_value_types rs)) -> (number_test rs ps = Some f <-> exists lo hi, number_bounds rs ps lo hi /\ f = number_value reads lo hi).
Proof.
  intros He. unfold number_test. split.
  - destruct (String.eqb (value_type "ValueType" ps) ""); [discriminate|]. set (vs := value_spec rs (value_type "ValueType" ps)).
    destruct (v_number_max vs) as [hi|] eqn:E2; [|discriminate]. destruct (v_number_min vs) as [lo|] eqn:E1; [|discriminate].
    destruct (match ps_primitive ps with Some k => smem k ["Integer"; "Double"; "Long"; "String"] | None => false end) eqn:E; [|discriminate].
    apply number_kind in E. intros Ef. injection Ef as <-. exists lo, hi. split; [|reflexivity]. split; [exact E|]. exists vs. split; [|auto]. apply value_spec_names; [exact He|]. split; [reflexivity|]. intros K. rewrite K in E1. discriminate.
  - intros [lo [hi [[Hk [vs [Hn [H1 H2]]]] ->]]]. rewrite (names_nonempty _ _ _ _ He Hn), (names_value_spec _ _ _ _ Hn), H1, H2. apply number_kind in Hk. now rewrite Hk.
Qed.
Lemma c29_number rs props specs p : ~ In "" (keys (rs_value_types rs)) -> ~ is_if (VDict props) -> VDict props <> NoValue -> NoDup (keys props) ->
  (forall prop x q, assoc prop props = Some x -> ~ alternative x (p ++ [PKey prop])%list VNull q) ->
  exists ms, number_size_check reads rs (VDict props) specs p = Ok ms /\
    forall m, In m ms <-> exists prop ps x lo hi w r, assoc prop props = Some x /\ assoc prop specs = Some ps /\ number_bounds rs ps lo hi /\
      single x (p ++ [PKey prop])%list w r /\ out_of_range reads (fst lo) (fst hi) w /\
      m = mkRM r ("Value has to be between " ++ snd lo ++ " and " ++ snd hi ++ " at " ++ path_text r).
Proof.
  intros He Hif Hnv Hnd Hn.
  assert (Ht : forall ps f, number_test rs ps = Some f -> (forall v p, exists o, f v p = Ok o) /\ forall d p, f (VDict d) p = Ok []).
  { intros ps f H. apply number_test_iff in H as [lo [hi [_ ->]]]; [|exact He]. split; [intros v q; unfold number_value; eauto | reflexivity]. }
  destruct (single_check (number_test rs) props specs p Ht Hif Hnv Hnd Hn) as [ms [E Hms]]. exists ms. split.
  - rewrite <- E. unfold number_size_check, per_property. destruct (obj_items_safe (VDict props) p) as [items|]; cbn [bind]; [|reflexivity].
    apply concat_res_ext. intros [v q] _. cbn [fst snd]. destruct (iter_val v) as [ks|]; cbn [bind]; [|reflexivity]. apply concat_res_ext. intros k _. destruct k; try reflexivity.
    destruct (assoc s specs) as [ps|]; [|reflexivity]. unfold number_test. destruct (String.eqb (value_type "ValueType" ps) ""); [reflexivity|].
    destruct (v_number_max (value_spec rs (value_type "ValueType" ps))) as [hi|]; [|reflexivity]. destruct (v_number_min (value_spec rs (value_type "ValueType" ps))) as [lo|]; [|reflexivity].
    now destruct (match ps_primitive ps with Some k => smem k ["Integer"; "Double"; "Long"; "String"] | None => false end).
  - intros m. rewrite Hms. split.
    + intros [prop [ps [x [f [w [r [o [Hx [Hs [Et [H1 [H2 H3]]]]]]]]]]]]. apply number_test_iff in Et as [lo [hi [Hb ->]]]; [|exact He].
      destruct (number_value_in reads lo hi w r) as [o' [Eo Ho]]. rewrite Eo in H2. injection H2 as ->. apply Ho in H3 as [H3 ->]. exists prop, ps, x, lo, hi, w, r. auto 12.
    + intros [prop [ps [x [lo [hi [w [r [Hx [Hs [Hb [H1 [H2 ->]]]]]]]]]]]]. destruct (number_value_in reads lo hi w r) as [o' [Eo Ho]]. exists prop, ps, x, (number_value reads lo hi), w, r, o'.
      split; [exact Hx|]. split; [exact Hs|]. split; [apply number_test_iff; eauto 10|]. split; [exact H1|]. split; [exact Eo|]. apply Ho. auto.
Qed.
End NumberCheck.

(** * Findings in a run *)
Lemma alternative_at t v p w q : alternative v p w q -> at_path p t = Some v -> at_path q t = Some w.
Proof.
  induction 1; intros Hp; [apply IHalternative | apply IHalternative | exact Hp]; rewrite at_path_app, Hp; reflexivity.
Qed.
Lemma single_at t v p w q : single v p w q -> at_path p t = Some v -> at_path q t = Some w.
Proof.
  destruct 1 as [v p w q H _|v p l q i x w r H Hx H']; intros Hp; [now apply (alternative_at t v p)|].
  apply (alternative_at t x (q ++ [PIdx i])%list); [exact H'|]. rewrite at_path_app, (alternative_at t v p _ q H Hp). cbn [at_path]. now rewrite Hx.
Qed.
Lemma alternative_nonempty v p w q : alternative v p w q -> p <> [] -> q <> [].
Proof. induction 1; intros Hp; [apply IHalternative | apply IHalternative | exact Hp]; now destruct p. Qed.
Lemma single_nonempty v p w q : single v p w q -> p <> [] -> q <> [].
Proof. destruct 1 as [v p w q H _|v p l q i x w r H Hx H']; intros Hp; [now apply alternative_nonempty in H|]. apply alternative_nonempty in H'; [exact H'|]. now destruct q. Qed.
Lemma spec_in_run hash fuel id rs check sp k c raw name rt attrs pd m0 d0 ms m :
  snd (coll_run sp k c) = Ok raw -> In (spec_rule hash fuel id rs check) (k_all k) -> enabled (k_set k) (spec_rule hash fuel id rs check) = true ->
  c_tmpl c = MDict m0 d0 -> resource_of (template c) name rt attrs -> assoc "Properties" attrs = Some (VDict pd) -> In rt (keys (rs_resource_types rs)) ->
  check (load hash fuel (template c)) (VDict pd) (specs_of rt (rs_resource_types rs)) (props_path name) = Ok ms ->
  (forall m, In m ms -> rm_path m <> [] /\ exists x, at_path (rm_path m) (template c) = Some x) ->
  In m ms -> exists f, locate_match c id m = Ok f /\ In f raw.
Proof.
  intros Hrun Hr He Hc Hres Hp Hrt Hms Hat Hm. refine (reported_props sp k c raw _ _ name rt attrs pd ms m m0 d0 Hrun Hr He eq_refl _ Hc Hres Hp Hms Hat Hm).
  cbn. exact Hrt.
Qed.
Lemma c29_string_run hash fuel sp k c raw rs name rt attrs pd specs m0 d0 prop ps x lo hi s r :
  snd (coll_run sp k c) = Ok raw -> In (string_size_rule hash fuel rs) (k_all k) -> enabled (k_set k) (string_size_rule hash fuel rs) = true ->
  wf (template c) -> c_tmpl c = MDict m0 d0 -> resource_of (template c) name rt attrs -> assoc "Properties" attrs = Some (VDict pd) -> assoc rt (rs_resource_types rs) = Some specs ->
  ~ In "" (keys (rs_value_types rs)) -> ~ is_if (VDict pd) -> VDict pd <> NoValue -> NoDup (keys pd) ->
  (forall prop x q, assoc prop pd = Some x -> ~ alternative x (props_path name ++ [PKey prop])%list VNull q) ->
  assoc prop pd = Some x -> assoc prop specs = Some ps -> string_bounds rs ps lo hi -> lo <> 0%Z -> hi <> 0%Z ->
  single x (props_path name ++ [PKey prop])%list (VStr s) r -> ~ within lo hi (String.length s) ->
  exists f, locate_match c "E3033" (mkRM r ("String has to have length between " ++ str_of_Z lo ++ " and " ++ str_of_Z hi ++ " at " ++ path_text r)) = Ok f /\ In f raw.
Proof.
  intros Hrun Hr He Hw Hc Hres Hp Hrt Hv Hif Hnv Hnd Hn Hx Hs Hb Hl Hh H1 H2.
  destruct (c29_string rs pd specs (props_path name) Hv Hif Hnv Hnd Hn) as [ms [E Hms]].
  refine (spec_in_run hash fuel "E3033" rs (fun _ => string_size_check rs) sp k c raw name rt attrs pd m0 d0 ms _ Hrun Hr He Hc Hres Hp _ _ _ _).
  - apply assoc_Some_key. eauto.
  - unfold specs_of. now rewrite Hrt.
  - intros m Hm. apply Hms in Hm as [pr [ps' [x' [lo' [hi' [s' [r' [Hx' [_ [_ [_ [_ [H1' [_ ->]]]]]]]]]]]]]]. cbn [rm_path]. split; [apply (single_nonempty _ _ _ _ H1'); discriminate|].
    exists (VStr s'). apply (single_at _ _ _ _ _ H1'). rewrite at_path_app. pose proof (resource_at c name rt attrs pd Hw Hres Hp) as K. rewrite K. cbn [at_path]. now rewrite Hx'.
  - apply Hms. exists prop, ps, x, lo, hi, s, r. auto 12.
Qed.
Lemma c29_number_run hash fuel reads sp k c raw rs name rt attrs pd specs m0 d0 prop ps x lo hi w r :
  snd (coll_run sp k c) = Ok raw -> In (number_size_rule hash fuel reads rs) (k_all k) -> enabled (k_set k) (number_size_rule hash fuel reads rs) = true ->
  wf (template c) -> c_tmpl c = MDict m0 d0 -> resource_of (template c) name rt attrs -> assoc "Properties" attrs = Some (VDict pd) -> assoc rt (rs_resource_types rs) = Some specs ->
  ~ In "" (keys (rs_value_types rs)) -> ~ is_if (VDict pd) -> VDict pd <> NoValue -> NoDup (keys pd) ->
  (forall prop x q, assoc prop pd = Some x -> ~ alternative x (props_path name ++ [PKey prop])%list VNull q) ->
  assoc prop pd = Some x -> assoc prop specs = Some ps -> number_bounds rs ps lo hi ->
  single x (props_path name ++ [PKey prop])%list w r -> out_of_range reads (fst lo) (fst hi) w ->
  exists f, locate_match c "E3034" (mkRM r ("Value has to be between " ++ snd lo ++ " and " ++ snd hi ++ " at " ++ path_text r)) = Ok f /\ In f raw.
Proof.
  intros Hrun Hr He Hw Hc Hres Hp Hrt Hv Hif Hnv Hnd Hn Hx Hs Hb H1 H2.
  destruct (c29_number reads rs pd specs (props_path name) Hv Hif Hnv Hnd Hn) as [ms [E Hms]].
  refine (spec_in_run hash fuel "E3034" rs (fun _ => number_size_check reads rs) sp k c raw name rt attrs pd m0 d0 ms _ Hrun Hr He Hc Hres Hp _ _ _ _).
  - apply assoc_Some_key. eauto.
  - unfold specs_of. now rewrite Hrt.
  - intros m Hm. apply Hms in Hm as [pr [ps' [x' [lo' [hi' [w' [r' [Hx' [_ [_ [H1' [_ ->]]]]]]]]]]]]. cbn [rm_path]. split; [apply (single_nonempty _ _ _ _ H1'); discriminate|].
    exists w'. apply (single_at _ _ _ _ _ H1'). rewrite at_path_app. pose proof (resource_at c name rt attrs pd Hw Hres Hp) as K. rewrite K. cbn [at_path]. now rewrite Hx'.
  - apply Hms. exists prop, ps, x, lo, hi, w, r. auto 12.
Qed.

(** The same for the nested objects of a resource. *)
Lemma spec_in_run_nested hash fuel id rs check sp k c raw name rt attrs pd m0 d0 n d q ms m :
  snd (coll_run sp k c) = Ok raw -> In (spec_rule hash fuel id rs check) (k_all k) -> enabled (k_set k) (spec_rule hash fuel id rs check) = true ->
  c_tmpl c = MDict m0 d0 -> resource_of (template c) name rt attrs -> assoc "Properties" attrs = Some (VDict pd) ->
  resource_nested sp rt (VDict pd) (props_path name) n (VDict d) q -> ~ is_if (VDict d) -> In n (keys (rs_property_types rs)) ->
  check (load hash fuel (template c)) (VDict d) (specs_of n (rs_property_types rs)) q = Ok ms ->
  (forall m, In m ms -> rm_path m <> [] /\ exists x, at_path (rm_path m) (template c) = Some x) ->
  In m ms -> exists f, locate_match c id m = Ok f /\ In f raw.
Proof.
  intros Hrun Hr He Hc Hres Hp Hne Hif Hn Hms Hat Hm. refine (reported_subs sp k c raw _ _ name rt attrs pd n (VDict d) q ms m m0 d0 Hrun Hr He eq_refl _ Hc Hres Hp Hne Hif Hms Hat Hm).
  cbn. exact Hn.
Qed.
Lemma c29_string_nested_run hash fuel sp k c raw rs name rt attrs pd n d q specs m0 d0 prop ps x lo hi s r :
  snd (coll_run sp k c) = Ok raw -> In (string_size_rule hash fuel rs) (k_all k) -> enabled (k_set k) (string_size_rule hash fuel rs) = true ->
  wf (template c) -> c_tmpl c = MDict m0 d0 -> resource_of (template c) name rt attrs -> assoc "Properties" attrs = Some (VDict pd) ->
  resource_nested sp rt (VDict pd) (props_path name) n (VDict d) q -> assoc n (rs_property_types rs) = Some specs ->
  ~ In "" (keys (rs_value_types rs)) -> ~ is_if (VDict d) -> VDict d <> NoValue -> NoDup (keys d) ->
  (forall prop x r, assoc prop d = Some x -> ~ alternative x (q ++ [PKey prop])%list VNull r) ->
  assoc prop d = Some x -> assoc prop specs = Some ps -> string_bounds rs ps lo hi -> lo <> 0%Z -> hi <> 0%Z ->
  single x (q ++ [PKey prop])%list (VStr s) r -> ~ within lo hi (String.length s) ->
  exists f, locate_match c "E3033" (mkRM r ("String has to have length between " ++ str_of_Z lo ++ " and " ++ str_of_Z hi ++ " at " ++ path_text r)) = Ok f /\ In f raw.
Proof.
  intros Hrun Hr He Hw Hc Hres Hp Hne Hrt Hv Hif Hnv Hnd Hn Hx Hs Hb Hl Hh H1 H2.
  destruct (c29_string rs d specs q Hv Hif Hnv Hnd Hn) as [ms [E Hms]].
  refine (spec_in_run_nested hash fuel "E3033" rs (fun _ => string_size_check rs) sp k c raw name rt attrs pd m0 d0 n d q ms _ Hrun Hr He Hc Hres Hp Hne Hif _ _ _ _).
  - apply assoc_Some_key. eauto.
  - unfold specs_of. now rewrite Hrt.
  - intros m Hm. apply Hms in Hm as [pr [ps' [x' [lo' [hi' [s' [r' [Hx' [_ [_ [_ [_ [H1' [_ ->]]]]]]]]]]]]]]. cbn [rm_path].
    pose proof (resource_nested_nonempty _ _ _ _ _ _ _ Hne) as Hq. split; [apply (single_nonempty _ _ _ _ H1'); now destruct q|].
    exists (VStr s'). apply (single_at _ _ _ _ _ H1'). rewrite at_path_app. pose proof (resource_at c name rt attrs pd Hw Hres Hp) as K. rewrite (resource_nested_at sp rt _ _ _ _ _ _ Hw K Hne). cbn [at_path]. now rewrite Hx'.
  - apply Hms. exists prop, ps, x, lo, hi, s, r. auto 12.
Qed.
Lemma c29_number_nested_run hash fuel reads sp k c raw rs name rt attrs pd n d q specs m0 d0 prop ps x lo hi w r :
  snd (coll_run sp k c) = Ok raw -> In (number_size_rule hash fuel reads rs) (k_all k) -> enabled (k_set k) (number_size_rule hash fuel reads rs) = true ->
  wf (template c) -> c_tmpl c = MDict m0 d0 -> resource_of (template c) name rt attrs -> assoc "Properties" attrs = Some (VDict pd) ->
  resource_nested sp rt (VDict pd) (props_path name) n (VDict d) q -> assoc n (rs_property_types rs) = Some specs ->
  ~ In "" (keys (rs_value_types rs)) -> ~ is_if (VDict d) -> VDict d <> NoValue -> NoDup (keys d) ->
  (forall prop x r, assoc prop d = Some x -> ~ alternative x (q ++ [PKey prop])%list VNull r) ->
  assoc prop d = Some x -> assoc prop specs = Some ps -> number_bounds rs ps lo hi ->
  single x (q ++ [PKey prop])%list w r -> out_of_range reads (fst lo) (fst hi) w ->
  exists f, locate_match c "E3034" (mkRM r ("Value has to be between " ++ snd lo ++ " and " ++ snd hi ++ " at " ++ path_text r)) = Ok f /\ In f raw.
Proof.
  intros Hrun Hr He Hw Hc Hres Hp Hne Hrt Hv Hif Hnv Hnd Hn Hx Hs Hb H1 H2.
  destruct (c29_number reads rs d specs q Hv Hif Hnv Hnd Hn) as [ms [E Hms]].
  refine (spec_in_run_nested hash fuel "E3034" rs (fun _ => number_size_check reads rs) sp k c raw name rt attrs pd m0 d0 n d q ms _ Hrun Hr He Hc Hres Hp Hne Hif _ _ _ _).
  - apply assoc_Some_key. eauto.
  - unfold specs_of. now rewrite Hrt.
  - intros m Hm. apply Hms in Hm as [pr [ps' [x' [lo' [hi' [w' [r' [Hx' [_ [_ [H1' [_ ->]]]]]]]]]]]]. cbn [rm_path].
    pose proof (resource_nested_nonempty _ _ _ _ _ _ _ Hne) as Hq. split; [apply (single_nonempty _ _ _ _ H1'); now destruct q|].
    exists w'. apply (single_at _ _ _ _ _ H1'). rewrite at_path_app. pose proof (resource_at c name rt attrs pd Hw Hres Hp) as K. rewrite (resource_nested_at sp rt _ _ _ _ _ _ Hw K Hne). cbn [at_path]. now rewrite Hx'.
  - apply Hms. exists prop, ps, x, lo, hi, w, r. auto 12.
Qed.

(** * What is not checked *)
(** When the properties are a condition, neither check looks at any value: they look the values up in the condition. *)
Lemma check_value_absent props prop p f : assoc prop props = None -> check_value (VDict props) prop p f [] = Ok [].
Proof. intros H. unfold check_value. rewrite (get_values_absent props prop _ (or_introl H)). reflexivity. Qed.
Lemma if_lookup x prop p f : prop <> "Fn::If" -> check_value (If_of x) prop p f [] = Ok [].
Proof. intros H. apply check_value_absent. cbn [assoc]. destruct (String.eqb prop "Fn::If") eqn:E; [apply String.eqb_eq in E; contradiction|]. reflexivity. Qed.
Lemma per_property_none props specs p f : all_objects (VDict props) p -> (forall d q prop ps, assoc prop specs = Some ps -> f (VDict d) q prop ps = Ok []) -> per_property (VDict props) specs p f = Ok [].
Proof.
  intros Ha Hf. destruct (per_property_total props specs p f Ha) as [ms E]; [intros; rewrite Hf by assumption; eauto|]. rewrite E. destruct ms as [|m ms]; [reflexivity|]. exfalso.
  assert (Hi : In m (m :: ms)) by now left. apply (per_property_in _ _ _ _ _ Ha E) in Hi as [d [q [prop [ps [o [_ [_ [Hs [Ho Hm]]]]]]]]]. rewrite Hf in Ho by assumption. injection Ho as <-. destruct Hm.
Qed.
Lemma c29_if_unchecked rs reads x specs p : ~ In "Fn::If" (keys specs) -> all_objects (If_of x) p ->
  string_size_check rs (If_of x) specs p = Ok [] /\ number_size_check reads rs (If_of x) specs p = Ok [].
Proof.
  intros Hk Ha. assert (K : forall prop ps, assoc prop specs = Some ps -> prop <> "Fn::If") by (intros prop ps H ->; apply Hk, assoc_Some_key; eauto).
  split; (apply per_property_none; [exact Ha|]; intros d q prop ps Hs; apply K in Hs; cbv zeta; destruct (String.eqb (value_type "ValueType" ps) ""); [reflexivity|]).
  - destruct (v_string_max (value_spec rs (value_type "ValueType" ps))) as [hi|]; [|reflexivity]. destruct (v_string_min (value_spec rs (value_type "ValueType" ps))) as [lo|]; [|reflexivity].
    destruct (negb (Z.eqb hi 0) && negb (Z.eqb lo 0) && opt_eqb (if opt_eqb (ps_type ps) "List" then ps_primitive_item ps else ps_primitive ps) "String")%bool; [|reflexivity]. now apply if_lookup.
  - destruct (v_number_max (value_spec rs (value_type "ValueType" ps))) as [hi|]; [|reflexivity]. destruct (v_number_min (value_spec rs (value_type "ValueType" ps))) as [lo|]; [|reflexivity].
    destruct (match ps_primitive ps with Some k => smem k ["Integer"; "Double"; "Long"; "String"] | None => false end); [|reflexivity]. now apply if_lookup.
Qed.
