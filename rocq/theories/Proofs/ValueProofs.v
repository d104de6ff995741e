(** C57-C60: allowed values, patterns, primitive types and secure references. *)
From Coq Require Import Lia.
From Verif.Model Require Import Base Locate Helpers Node Conditions Search Resolve Rules Refs Relationship Limits Parameters JsonDump PropertyRules Functions ValueRules.
From Verif.Spec Require Import Paths Branches Required Values.
From Verif.Proofs Require Import BaseFacts BranchProofs SearchProofs PropertyRuleProofs GroupProofs SizeProofs.
Import Verif.Model.Rules.
Import ListNotations.
Local Open Scope string_scope.

(** * Template.check_value with functions for calls *)
Definition call_split (w : val) : {fa | call_of w (fst fa) (snd fa)} + {~ is_call w}.
Proof.
  destruct w as [| | | | | |d]; try (right; intros [k [y [E _]]]; discriminate E).
  destruct d as [|[k y] [|? ?]]; try (right; intros [k' [y' [E _]]]; discriminate E).
  destruct (smem k FUNCTIONS) eqn:E.
  - left. exists (k, y). split; [reflexivity|]. now apply smem_iff.
  - right. intros [k' [y' [E1 E2]]]. injection E1 as -> ->. apply smem_iff in E2. congruence.
Defined.
Definition judge (f : val -> path -> res (list rulematch)) (handlers : list (string * (val -> path -> res (list rulematch)))) (qv : path * val) : res (list rulematch) :=
  match snd qv with
  | VDict [(k, x)] =>
      if smem k FUNCTIONS then
        match assoc k handlers with Some h => h x (fst qv ++ [PKey k])%list | None => Ok [] end
      else f (snd qv) (fst qv)
  | v => f v (fst qv)
  end.
Lemma judge_call f handlers q k y : In k FUNCTIONS ->
  judge f handlers (q, VDict [(k, y)]) = match assoc k handlers with Some h => h y (q ++ [PKey k])%list | None => Ok [] end.
Proof. intros H. unfold judge. cbn [fst snd]. apply smem_iff in H. now rewrite H. Qed.
Lemma judge_plain f handlers q v : ~ is_call v -> judge f handlers (q, v) = f v q.
Proof.
  intros H. unfold judge. cbn [fst snd]. destruct v as [| | | | | |d]; try reflexivity. destruct d as [|[k y] [|? ?]]; try reflexivity.
  destruct (smem k FUNCTIONS) eqn:E; [|reflexivity]. exfalso. apply H. exists k, y. split; [reflexivity|]. now apply smem_iff.
Qed.
Definition handled (f : val -> path -> res (list rulematch)) (handlers : list (string * (val -> path -> res (list rulematch)))) (w : val) (r : path) (m : rulematch) : Prop :=
  (~ is_call w /\ exists o, f w r = Ok o /\ In m o) \/
  (exists fn y h o, call_of w fn y /\ assoc fn handlers = Some h /\ h y (r ++ [PKey fn])%list = Ok o /\ In m o).
Definition handles (f : val -> path -> res (list rulematch)) (handlers : list (string * (val -> path -> res (list rulematch)))) (w : val) (r : path) : Prop :=
  (~ is_call w -> exists o, f w r = Ok o) /\
  (forall fn y h, call_of w fn y -> assoc fn handlers = Some h -> exists o, h y (r ++ [PKey fn])%list = Ok o).
Lemma judge_handled f handlers w r o m : judge f handlers (r, w) = Ok o -> (In m o <-> handled f handlers w r m).
Proof.
  intros E. unfold handled. destruct (call_split w) as [[[k y] [-> Hk]]|Hn].
  - cbn [fst snd] in *. rewrite judge_call in E by exact Hk. split.
    + intros Hm. right. destruct (assoc k handlers) as [h|] eqn:Eh; [|injection E as <-; destruct Hm]. exists k, y, h, o. split; [split; [reflexivity | exact Hk]|]. auto.
    + intros [[Hn _]|[fn [y' [h [o' [[E1 Hfn] [Eh [Eo Hm]]]]]]]]; [exfalso; apply Hn; exists k, y; split; auto|]. injection E1 as <- <-. rewrite Eh, Eo in E. injection E as <-. exact Hm.
  - rewrite judge_plain in E by exact Hn. split.
    + intros Hm. left. eauto.
    + intros [[_ [o' [E' Hm]]]|[fn [y [h [o' [Hc _]]]]]]; [|exfalso; apply Hn; exists fn, y; exact Hc]. rewrite E in E'. injection E' as <-. exact Hm.
Qed.
Lemma judge_total f handlers w r : handles f handlers w r -> exists o, judge f handlers (r, w) = Ok o.
Proof.
  intros [H1 H2]. destruct (call_split w) as [[[k y] [-> Hk]]|Hn].
  - cbn [fst snd] in *. rewrite judge_call by exact Hk. destruct (assoc k handlers) as [h|] eqn:Eh; [|eauto]. apply (H2 k y h); [split; auto | exact Eh].
  - rewrite judge_plain by exact Hn. auto.
Qed.
Lemma check_value_judge obj key p f handlers : check_value obj key p f handlers =
  do vs <- get_values obj key (p ++ [PKey key])%list; concat_res (judge f handlers) (match vs with Some l => l | None => [] end).
Proof. reflexivity. Qed.
Lemma check_value_calls f handlers props prop x p : assoc prop props = Some x -> (forall q, ~ alternative x (p ++ [PKey prop])%list VNull q) ->
  (forall w r, single x (p ++ [PKey prop])%list w r -> handles f handlers w r) ->
  exists o, check_value (VDict props) prop p f handlers = Ok o /\
    forall m, In m o <-> exists w r, single x (p ++ [PKey prop])%list w r /\ handled f handlers w r m.
Proof.
  intros Hx Hn Ht. assert (Hx0 : x <> VNull) by (intros ->; apply (Hn (p ++ [PKey prop])%list); apply alt_leaf; [intros [y [=]] | discriminate]).
  destruct (get_values_spec props prop x (p ++ [PKey prop])%list Hx Hx0) as [H1 [H2 _]]. destruct (proj2 H2 Hn) as [l El]. specialize (H1 l El).
  rewrite check_value_judge, El. cbn [bind]. destruct (concat_res_total (judge f handlers) l) as [o Eo].
  { intros [q v] Hi. apply judge_total, Ht, H1, Hi. }
  exists o. split; [exact Eo|]. intros m. rewrite (concat_res_ok_iff _ _ _ Eo). split.
  - intros [[q v] [o' [Hi [E' Hm]]]]. exists v, q. split; [now apply H1|]. now apply (judge_handled f handlers v q o' m E').
  - intros [w [r [Hs Hh]]]. destruct (judge_total f handlers w r (Ht w r Hs)) as [o' E']. exists (r, w), o'. split; [now apply H1|]. split; [exact E'|]. now apply (judge_handled f handlers w r o' m E').
Qed.
(** ** Rules that look at properties with value types *)
Lemma per_value_spec props specs p f handlers : all_objects (VDict props) p -> no_null_property (VDict props) p ->
  (forall prop x q ps w r, property_of (VDict props) p prop x q -> assoc prop specs = Some ps -> ps_value ps <> [] -> single x (q ++ [PKey prop])%list w r ->
     handles (f prop ps) (handlers prop ps) w r) ->
  exists ms, per_value (VDict props) specs p f handlers = Ok ms /\
    forall m, In m ms <-> exists prop x q ps w r, property_of (VDict props) p prop x q /\ assoc prop specs = Some ps /\ ps_value ps <> [] /\
      single x (q ++ [PKey prop])%list w r /\ handled (f prop ps) (handlers prop ps) w r m.
Proof.
  intros Ha Hn Ht.
  assert (K : forall d q prop ps, branch (VDict props) p (VDict d) q -> In prop (keys d) -> assoc prop specs = Some ps ->
    exists x o, assoc prop d = Some x /\ match ps_value ps with [] => Ok [] | _ => check_value (VDict d) prop q (f prop ps) (handlers prop ps) end = Ok o /\
      forall m, In m o <-> ps_value ps <> [] /\ exists w r, single x (q ++ [PKey prop])%list w r /\ handled (f prop ps) (handlers prop ps) w r m).
  { intros d q prop ps Hb Hk Hs. destruct (proj1 (assoc_Some_key _ _) Hk) as [x Hx]. exists x. assert (Hp : property_of (VDict props) p prop x q) by (exists d; auto).
    destruct (ps_value ps) as [|a l] eqn:Ev.
    - exists []. split; [exact Hx|]. split; [reflexivity|]. intros m. split; [intros [] | intros [H _]; congruence].
    - destruct (check_value_calls (f prop ps) (handlers prop ps) d prop x q Hx (fun r => Hn prop x q r Hp)) as [o [Eo Hin]].
      { intros w r Hw. apply (Ht prop x q ps w r Hp Hs); [rewrite Ev; discriminate | exact Hw]. }
      exists o. split; [exact Hx|]. split; [exact Eo|]. intros m. rewrite Hin. split; [intros H; split; [discriminate | exact H] | intros [_ H]; exact H]. }
  destruct (per_property_total props specs p (fun v q prop ps => match ps_value ps with [] => Ok [] | _ => check_value v prop q (f prop ps) (handlers prop ps) end) Ha) as [ms E].
  { intros d q prop ps Hb Hk Hs. destruct (K d q prop ps Hb Hk Hs) as [x [o [_ [Eo _]]]]. eauto. }
  exists ms. split; [exact E|]. intros m. rewrite (per_property_in _ _ _ _ _ Ha E). split.
  - intros [d [q [prop [ps [o [Hb [Hk [Hs [Ef Hm]]]]]]]]]. destruct (K d q prop ps Hb Hk Hs) as [x [o' [Hx [Eo Hin]]]]. rewrite Ef in Eo. injection Eo as <-.
    destruct (proj1 (Hin m) Hm) as [Hv [w [r [Hw Hh]]]]. exists prop, x, q, ps, w, r. split; [exists d; auto|]. auto.
  - intros [prop [x [q [ps [w [r [[d [Hb Hx]] [Hs [Hv [Hw Hh]]]]]]]]]]. assert (Hk : In prop (keys d)) by (apply assoc_Some_key; eauto).
    destruct (K d q prop ps Hb Hk Hs) as [x' [o' [Hx' [Eo Hin]]]]. rewrite Hx in Hx'. injection Hx' as <-. exists d, q, prop, ps, o'.
    split; [exact Hb|]. split; [exact Hk|]. split; [exact Hs|]. split; [exact Eo|]. apply Hin. split; [exact Hv|]. eauto.
Qed.
Lemma handled_plain f w r m : handled f [] w r m <-> ~ is_call w /\ exists o, f w r = Ok o /\ In m o.
Proof. unfold handled. split; [intros [H|[fn [y [h [o [_ [E _]]]]]]]; [exact H | discriminate E] | intros H; now left]. Qed.
Lemma handles_plain f w r : (exists o, f w r = Ok o) -> handles f [] w r.
Proof. intros H. split; [auto|]. intros fn y h _ E. discriminate E. Qed.
Lemma restricts_rule vs key ps vr : restricts vs key ps vr -> vrule_of vs (value_type key ps) = vr /\ ps_value ps <> [].
Proof. intros [t [H1 H2]]. unfold vrule_of, value_type. rewrite H1, H2. split; [reflexivity|]. intros E. rewrite E in H1. discriminate. Qed.
Lemma rule_restricts vs key ps : ~ In "" (keys vs) -> vrule_of vs (value_type key ps) <> no_vrule -> restricts vs key ps (vrule_of vs (value_type key ps)).
Proof.
  intros He Hn. unfold vrule_of, value_type, restricts in *. destruct (assoc key (ps_value ps)) as [t|].
  - exists t. split; [reflexivity|]. destruct (assoc t vs); congruence.
  - exfalso. destruct (assoc "" vs) eqn:E; [|congruence]. apply He, assoc_Some_key. eauto.
Qed.

(** * E3030 *)
Lemma contains_iff p s : contains_text p s = true <-> exists before after, s = before ++ p ++ after.
Proof.
  induction s as [|a s IH]; cbn [contains_text].
  - rewrite orb_false_r, prefix_iff. split.
    + intros [r E]. exists "", r. exact E.
    + intros [b [c E]]. destruct b; [|discriminate]. eauto.
  - rewrite orb_true_iff, prefix_iff, IH. split.
    + intros [[r E]|[b [c ->]]]; [exists "", r; exact E | exists (String a b), c; reflexivity].
    + intros [b [c E]]. destruct b as [|a' b]; [left; eauto|]. right. cbn in E. injection E as -> ->. eauto.
Qed.
Lemma mentions_false s : contains_text resolve_mark s = false <-> ~ mentions_resolve s.
Proof. rewrite <- not_true_iff_false, contains_iff. reflexivity. Qed.
Lemma mentions_true s : contains_text resolve_mark s = true <-> mentions_resolve s.
Proof. apply contains_iff. Qed.
Lemma allowed_value_in str_other allowed prop v p : exists o, allowed_value str_other allowed prop v p = Ok o /\
  forall m, In m o <-> allowed <> [] /\ ~ mentions_resolve (py_str str_other v) /\ ~ In (py_str str_other v) allowed /\
    m = mkRM p ("You must specify a valid value for " ++ prop ++ " (" ++ py_str str_other v ++ "). Valid values are " ++ dumps (fun _ => "") (VList (map VStr allowed))).
Proof.
  unfold allowed_value. eexists. split; [reflexivity|]. intros m. destruct allowed as [|a l]; [split; [intros [] | intros [H _]; congruence]|].
  unfold text_of. destruct (contains_text resolve_mark (py_str str_other v)) eqn:E1.
  - apply mentions_true in E1. split; [intros [] | intros [_ [H _]]; contradiction].
  - apply mentions_false in E1. destruct (smem (py_str str_other v) (a :: l)) eqn:E2.
    + apply smem_iff in E2. split; [intros [] | intros [_ [_ [H _]]]; contradiction].
    + assert (E3 : ~ In (py_str str_other v) (a :: l)) by (rewrite <- smem_iff; congruence). split.
      * intros [<-|[]]. split; [discriminate|]. split; [exact E1|]. split; [exact E3|]. reflexivity.
      * intros [_ [_ [_ ->]]]. now left.
Qed.
Lemma c57_allowed vs str_other props specs p : ~ In "" (keys vs) -> all_objects (VDict props) p -> no_null_property (VDict props) p ->
  exists ms, allowed_value_check vs str_other (VDict props) specs p = Ok ms /\
    forall m, In m ms <-> exists prop x q ps vr w r, property_of (VDict props) p prop x q /\ assoc prop specs = Some ps /\ restricts vs "ValueType" ps vr /\
      vr_allowed vr <> [] /\ single x (q ++ [PKey prop])%list w r /\ ~ is_call w /\
      ~ mentions_resolve (py_str str_other w) /\ ~ In (py_str str_other w) (vr_allowed vr) /\
      m = mkRM r ("You must specify a valid value for " ++ prop ++ " (" ++ py_str str_other w ++ "). Valid values are " ++ dumps (fun _ => "") (VList (map VStr (vr_allowed vr)))).
Proof.
  intros He Ha Hn. unfold allowed_value_check.
  destruct (per_value_spec props specs p (fun prop ps => allowed_value str_other (vr_allowed (vrule_of vs (value_type "ValueType" ps))) prop) (fun _ _ => []) Ha Hn) as [ms [E Hms]].
  { intros prop x q ps w r _ _ _ _. apply handles_plain. destruct (allowed_value_in str_other (vr_allowed (vrule_of vs (value_type "ValueType" ps))) prop w r) as [o [Eo _]]. eauto. }
  exists ms. split; [exact E|]. intros m. rewrite Hms. split.
  - intros [prop [x [q [ps [w [r [Hp [Hs [Hv [Hw Hh]]]]]]]]]]. apply handled_plain in Hh as [Hc [o [Eo Hm]]]. set (vr := vrule_of vs (value_type "ValueType" ps)) in *.
    destruct (allowed_value_in str_other (vr_allowed vr) prop w r) as [o' [Eo' Hin]]. rewrite Eo in Eo'. injection Eo' as <-. apply Hin in Hm as [H1 [H2 [H3 H4]]].
    exists prop, x, q, ps, vr, w, r. split; [exact Hp|]. split; [exact Hs|]. split; [apply rule_restricts; [exact He|]; intros K; apply H1; unfold vr; now rewrite K|]. auto 10.
  - intros [prop [x [q [ps [vr [w [r [Hp [Hs [Hr [H1 [Hw [Hc [H2 [H3 H4]]]]]]]]]]]]]]]. destruct (restricts_rule _ _ _ _ Hr) as [Er Hv]. exists prop, x, q, ps, w, r.
    split; [exact Hp|]. split; [exact Hs|]. split; [exact Hv|]. split; [exact Hw|]. apply handled_plain. split; [exact Hc|]. rewrite Er.
    destruct (allowed_value_in str_other (vr_allowed vr) prop w r) as [o [Eo Hin]]. exists o. split; [exact Eo|]. apply Hin. auto.
Qed.

(** * E3031 *)
Lemma pattern_value_in str_other matches regex shown prop v p : exists o, pattern_value str_other matches regex shown prop v p = Ok o /\
  forall m, In m o <-> has_text v /\ regex <> "" /\ ~ mentions_resolve (py_str str_other v) /\ matches regex (py_str str_other v) = false /\
    m = mkRM p (prop ++ " contains invalid characters (Pattern: " ++ shown ++ ") at " ++ path_text p).
Proof.
  unfold pattern_value. eexists. split; [reflexivity|]. intros m.
  assert (K : has_text v -> In m (pattern_text matches regex shown prop (py_str str_other v) p) <-> has_text v /\ regex <> "" /\ ~ mentions_resolve (py_str str_other v) /\ matches regex (py_str str_other v) = false /\
    m = mkRM p (prop ++ " contains invalid characters (Pattern: " ++ shown ++ ") at " ++ path_text p)).
  { intros Ht. unfold pattern_text. destruct (String.eqb regex "") eqn:E0; [apply String.eqb_eq in E0; split; [intros [] | intros [_ [H _]]; contradiction]|]. apply String.eqb_neq in E0.
    destruct (contains_text resolve_mark (py_str str_other v)) eqn:E1.
    - apply mentions_true in E1. split; [intros [] | intros [_ [_ [H _]]]; contradiction].
    - apply mentions_false in E1. destruct (matches regex (py_str str_other v)) eqn:E2; [split; [intros [] | intros [_ [_ [_ [H _]]]]; discriminate H]|].
      split; [intros [<-|[]]; auto 10 | intros [_ [_ [_ [_ ->]]]]; now left]. }
  destruct v; try (apply K; repeat split; reflexivity); (split; [intros [] | intros [[H1 [H2 H3]] _]; discriminate]).
Qed.
Lemma c58_pattern vs str_other matches props specs p : ~ In "" (keys vs) -> all_objects (VDict props) p -> no_null_property (VDict props) p ->
  exists ms, allowed_pattern_check vs str_other matches (VDict props) specs p = Ok ms /\
    forall m, In m ms <-> exists prop x q ps vr w r, property_of (VDict props) p prop x q /\ assoc prop specs = Some ps /\ restricts vs "ValueType" ps vr /\
      vr_pattern vr <> "" /\ single x (q ++ [PKey prop])%list w r /\ has_text w /\
      ~ mentions_resolve (py_str str_other w) /\ matches (vr_pattern vr) (py_str str_other w) = false /\
      m = mkRM r (prop ++ " contains invalid characters (Pattern: " ++ match vr_pattern_text vr with Some t => t | None => vr_pattern vr end ++ ") at " ++ path_text r).
Proof.
  intros He Ha Hn. unfold allowed_pattern_check.
  set (f := fun prop ps => let vr := vrule_of vs (value_type "ValueType" ps) in pattern_value str_other matches (vr_pattern vr) (shown_pattern vr) prop).
  destruct (per_value_spec props specs p f (fun _ _ => []) Ha Hn) as [ms [E Hms]].
  { intros prop x q ps w r _ _ _ _. apply handles_plain. unfold f. cbv zeta. set (vr := vrule_of vs (value_type "ValueType" ps)). destruct (pattern_value_in str_other matches (vr_pattern vr) (shown_pattern vr) prop w r) as [o [Eo _]]. eauto. }
  exists ms. split; [exact E|]. intros m. rewrite Hms. split.
  - intros [prop [x [q [ps [w [r [Hp [Hs [Hv [Hw Hh]]]]]]]]]]. apply handled_plain in Hh as [Hc [o [Eo Hm]]]. unfold f in Eo. cbv zeta in Eo. set (vr := vrule_of vs (value_type "ValueType" ps)) in *.
    destruct (pattern_value_in str_other matches (vr_pattern vr) (shown_pattern vr) prop w r) as [o' [Eo' Hin]]. rewrite Eo in Eo'. injection Eo' as <-. apply Hin in Hm as [H0 [H1 [H2 [H3 H4]]]].
    exists prop, x, q, ps, vr, w, r. split; [exact Hp|]. split; [exact Hs|]. split; [apply rule_restricts; [exact He|]; intros K; apply H1; unfold vr; now rewrite K|]. auto 10.
  - intros [prop [x [q [ps [vr [w [r [Hp [Hs [Hr [H1 [Hw [H0 [H2 [H3 H4]]]]]]]]]]]]]]]. destruct (restricts_rule _ _ _ _ Hr) as [Er Hv]. exists prop, x, q, ps, w, r.
    split; [exact Hp|]. split; [exact Hs|]. split; [exact Hv|]. split; [exact Hw|]. apply handled_plain. split; [intros [k [y [-> _]]]; destruct H0 as [_ [_ H0]]; discriminate H0|].
    unfold f. cbv zeta. rewrite Er. destruct (pattern_value_in str_other matches (vr_pattern vr) (shown_pattern vr) prop w r) as [o [Eo Hin]]. exists o. split; [exact Eo|]. apply Hin. auto 10.
Qed.
