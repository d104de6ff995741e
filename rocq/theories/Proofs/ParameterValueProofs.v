(** C69: parameters behind properties and imported outputs. *)
From Coq Require Import List Lia.
From Verif.Model Require Import Base Locate Helpers Node Conditions Search Resolve Rules Refs Relationship Limits Parameters JsonDump PropertyRules Functions ValueRules ParameterValues.
From Verif.Spec Require Import Paths Branches Attributes References ConditionUse Required Pipeline Walk Values ParameterValues.
From Verif.Proofs Require Import BaseFacts BranchProofs SearchProofs ConditionUseProofs PropertyRuleProofs GroupProofs SizeProofs ValueProofs ValueRefProofs MatchRun.
Import Verif.Model.Rules.
Import ListNotations.
Local Open Scope string_scope.

Definition value_finding (str_other : val -> string) (words : string) (p : path) (n : string) (v : val) (description : string) : rulematch :=
  mkRM p ("You must specify a valid " ++ words ++ " value for " ++ n ++ " (" ++ py_str str_other v ++ "). " ++ description).

(** * Paths *)
Lemma branch_below v p w q : branch v p w q -> exists l, q = (p ++ l)%list.
Proof.
  induction 1 as [c a b p w q _ [l ->]|c a b p w q _ [l ->]|v w p].
  - eexists. now rewrite <- app_assoc.
  - eexists. now rewrite <- app_assoc.
  - exists []. now rewrite app_nil_r.
Qed.
Lemma single_below x p w r : single x p w r -> exists l, r = (p ++ l)%list.
Proof.
  intros [v p0 w0 q Ha _|v p0 l q i y w0 r0 Ha _ Hb].
  - destruct (alternative_ifs _ _ _ _ Ha) as [l [_ ->]]. eauto.
  - destruct (alternative_ifs _ _ _ _ Ha) as [l1 [_ ->]]. destruct (alternative_ifs _ _ _ _ Hb) as [l2 [_ ->]]. eexists. now rewrite <- !app_assoc.
Qed.
Lemma value_below props p prop x q w r : property_of (VDict props) p prop x q -> single x (q ++ [PKey prop])%list w r -> exists l, r = (p ++ l)%list.
Proof.
  intros [d [Hb _]] Hs. destruct (branch_below _ _ _ _ Hb) as [l1 ->]. destruct (single_below _ _ _ _ Hs) as [l2 ->]. eexists. now rewrite <- !app_assoc.
Qed.
Lemma nested_below sp rt pt v p n w q : nested sp rt pt v p n w q -> exists l, q = (p ++ l)%list.
Proof.
  intros H. induction H as
    [pt name ts v p Hn Hl | pt name ts l i x p n w q _ _ _ _ Hx _ IH | pt name ts props d key pd l i x p n w q _ _ _ Hk _ _ Hx _ IH |
     pt name ts props d key pd t0 d' p n w q _ _ _ Hk _ _ _ _ _ IH | pt name ts props d c b1 b2 b i p n w q _ _ _ _ Hk _ Hb _ _ IH |
     pt name ts props d c b1 b2 l i j x p n w q _ _ _ _ Hk _ Hb Hx _ IH]; [exists []; now rewrite app_nil_r| | | | |];
    destruct IH as [l0 ->]; eexists; rewrite <- app_assoc; reflexivity.
Qed.
Lemma resource_nested_below sp rt v p n w q : resource_nested sp rt v p n w q -> exists l, q = (p ++ l)%list.
Proof.
  intros [d vp ts sps key pd l i x n0 w0 q0 Hb _ _ _ _ _ _ Hn|d vp ts sps key pd t d' n0 w0 q0 Hb _ _ _ _ _ _ _ Hn];
    destruct (branch_below _ _ _ _ Hb) as [l1 ->]; destruct (nested_below _ _ _ _ _ _ _ _ Hn) as [l2 ->]; eexists; rewrite <- !app_assoc; reflexivity.
Qed.

Section Values.
Variable str_other : val -> string.
Variable template : val.
Hypothesis Hplain : plain_sections template.
Hypothesis Hlists : allowed_lists template.

Lemma conditioned_iff n o rest : defined_in "Resources" template n o ->
  let p := (PKey "Resources" :: PKey n :: rest)%list in
  exists b, conditioned template (p ++ [PKey "Ref"])%list = Ok b /\ (b = false <-> unconditioned template p).
Proof.
  intros Hd p. destruct (plain_section "Resources" template Hplain (or_intror (or_introl eq_refl))) as [m [Hs [_ H2]]].
  unfold conditioned. destruct (existsb (pelem_eqb (PKey "Fn::If")) (p ++ [PKey "Ref"])%list) eqn:E.
  - exists true. split; [reflexivity|]. split; [discriminate|]. intros [Hn _]. exfalso. apply Hn. apply existsb_exists in E as [e [He Ee]]. apply pelem_eqb_eq in Ee. subst e.
    apply in_app_iff in He as [He|[[=]|[]]]. exact He.
  - unfold p. cbn [app]. rewrite String.eqb_refl, Hs. cbn [bind]. cbn [vget]. rewrite (H2 n o Hd). cbn [bind py_member].
    exists (mem_assoc "Condition" o). split; [reflexivity|]. split.
    + intros Hf. split.
      * intros Hi. assert (K : existsb (pelem_eqb (PKey "Fn::If")) (p ++ [PKey "Ref"])%list = true); [|congruence]. apply existsb_exists. exists (PKey "Fn::If").
        split; [apply in_app_iff; now left | now apply pelem_eqb_eq].
      * exists n, o, rest. split; [reflexivity|]. split; [exact Hd|]. intros Hi. apply mem_assoc_iff in Hi. congruence.
    + intros [_ [n' [o' [rest' [E' [Hd' Hc]]]]]]. injection E' as <- <-. destruct (mem_assoc "Condition" o) eqn:Em; [|reflexivity]. apply mem_assoc_iff in Em.
      exfalso. apply Hc. pose proof (H2 _ _ Hd) as A. rewrite (H2 _ _ Hd') in A. injection A as ->. exact Em.
Qed.
Lemma begins_true p s : starts_with p s = true <-> begins p s.
Proof. unfold begins. apply prefix_iff. Qed.
Lemma listed_false t : listed_type t = false <-> ~ begins "List<" t /\ ~ begins "AWS::SSM::Parameter::Value<" t /\ t <> "CommaDelimitedList".
Proof.
  unfold listed_type. rewrite <- !begins_true. destruct (starts_with "List<" t) eqn:E1; destruct (starts_with "AWS::SSM::Parameter::Value<" t) eqn:E2; cbn [orb].
  1-3: split; [discriminate | intros [H1 [H2 _]]; exfalso; first [now apply H1 | now apply H2]].
  rewrite smem_false. split.
  - intros H. split; [discriminate|]. split; [discriminate|]. intros ->. apply H. now left.
  - intros [_ [_ H]] [Hi|[Hi|[]]]; [congruence|]. subst t. discriminate E1.
Qed.
Lemma list_matches_in ok n d l : exists o, list_matches str_other ok n d (VList l) = Ok o /\
  forall m, In m o <-> exists j v, nth_error l j = Some v /\ ok (text_of str_other v) = false /\
    m = value_match str_other "allowed" [PKey "Parameters"; PKey n; PKey "AllowedValues"; PIdx j] n v d.
Proof.
  unfold list_matches. destruct l as [|a l].
  - exists []. split; [reflexivity|]. intros m. split; [intros [] | intros [[|j] [v [[=] _]]]].
  - cbn [truthy iter_val bind]. eexists. split; [reflexivity|]. intros m. rewrite in_flat_map. split.
    + intros [[j v] [Hj Hm]]. apply enum_nth in Hj. cbn [fst snd] in Hm. destruct (ok (text_of str_other v)) eqn:E; [destruct Hm|]. destruct Hm as [<-|[]]. eauto.
    + intros [j [v [Hj [E ->]]]]. exists (j, v). split; [now apply enum_nth|]. cbn [fst snd]. rewrite E. now left.
Qed.
Lemma parameter_matches_in ok d n : exists o, parameter_matches str_other template ok d (VStr n) = Ok o /\
  forall m, In m o <-> exists ob words p v, takes_one template n ob /\ unfit (fun v => ok (text_of str_other v) = true) n ob words p v /\
    m = value_finding str_other words p n v d.
Proof.
  destruct (plain_section "Parameters" template Hplain (or_introl eq_refl)) as [ms [Hs [H1 H2]]].
  unfold parameter_matches. rewrite Hs. cbn [bind py_member].
  assert (N : forall ob, defined_in "Parameters" template n ob -> assoc n ms = Some (VDict ob)) by (intros ob; apply H2).
  destruct (mem_assoc n ms) eqn:Em.
  2: { exists []. split; [reflexivity|]. intros m. split; [intros []|]. intros [ob [words [p [v [[Hd _] _]]]]]. exfalso.
       assert (K : mem_assoc n ms = true); [|congruence]. apply mem_assoc_iff, assoc_Some_key. eauto. }
  apply mem_assoc_iff, assoc_Some_key in Em as [x Hx]. destruct (H1 n x Hx) as [ob [-> Hd]]. cbn [vget_def]. rewrite Hx. cbn [bind vget].
  assert (U : forall ob', defined_in "Parameters" template n ob' -> ob' = ob) by (intros ob' H; apply N in H; congruence).
  assert (Z : forall m, ~ (exists t, assoc "Type" ob = Some (VStr t) /\ listed_type t = false) ->
     (In m (@nil rulematch) <-> exists ob words p v, takes_one template n ob /\ unfit (fun v => ok (text_of str_other v) = true) n ob words p v /\ m = value_finding str_other words p n v d)).
  { intros m Hz. split; [intros []|]. intros [ob' [words [p [v [[Hd' [t [Ht Hl]]] _]]]]]. exfalso. apply Hz. rewrite (U _ Hd') in Ht. exists t. split; [exact Ht|]. now apply listed_false. }
  destruct (assoc "Type" ob) as [t|] eqn:Et.
  2: { exists []. split; [reflexivity|]. intros m. apply Z. intros [t [[=] _]]. }
  destruct t as [|b0|z0|f0|t|l0|d0].
  5: { destruct (listed_type t) eqn:El.
       { exists []. split; [reflexivity|]. intros m. apply Z. intros [t' [[= <-] Hl]]. congruence. }
       clear Z. set (vals := match assoc "AllowedValues" ob with Some x => x | None => VNull end).
       set (def := match assoc "Default" ob with Some x => x | None => VNull end).
       assert (L : exists o, list_matches str_other ok n d vals = Ok o /\ forall m, In m o <-> exists l j v, assoc "AllowedValues" ob = Some (VList l) /\ nth_error l j = Some v /\ ok (text_of str_other v) = false /\
           m = value_match str_other "allowed" [PKey "Parameters"; PKey n; PKey "AllowedValues"; PIdx j] n v d).
       { unfold vals. destruct (assoc "AllowedValues" ob) as [v|] eqn:Ev.
         - destruct (Hlists n ob v Hd Ev) as [l ->]. destruct (list_matches_in ok n d l) as [o [Eo Ho]]. exists o. split; [exact Eo|]. intros m. rewrite Ho. split.
           + intros [j [v H]]. exists l, j, v. auto.
           + intros [l' [j [v [[= <-] H]]]]. eauto.
         - exists []. split; [reflexivity|]. intros m. split; [intros [] | intros [l [j [v [[=] _]]]]]. }
       destruct L as [o [-> Ho]]. cbn [bind]. eexists. split; [reflexivity|]. intros m. rewrite in_app_iff, Ho. unfold default_matches. split.
       - intros [[l [j [v [Ev [Ej [Eo ->]]]]]]|Hm].
         + exists ob, "allowed", [PKey "Parameters"; PKey n; PKey "AllowedValues"; PIdx j], v. split; [split; [exact Hd|]; exists t; split; [exact Et | now apply listed_false]|]. split; [|reflexivity].
           apply un_allowed with l; [exact Ev | exact Ej | congruence].
         + destruct (truthy def) eqn:Ed; [|destruct Hm]. destruct (ok (text_of str_other def)) eqn:Eo; [destruct Hm|]. destruct Hm as [<-|[]].
           exists ob, "Default", [PKey "Parameters"; PKey n; PKey "Default"], def. split; [split; [exact Hd|]; exists t; split; [exact Et | now apply listed_false]|]. split; [|reflexivity].
           apply un_default; [|exact Ed | congruence]. unfold def in *. destruct (assoc "Default" ob); [reflexivity | discriminate Ed].
       - intros [ob' [words [p [v [[Hd' _] [Hu ->]]]]]]. rewrite (U _ Hd') in *. destruct Hu as [l j v Ev Ej Hf|v Ev Hv Hf].
         + left. exists l, j, v. split; [exact Ev|]. split; [exact Ej|]. split; [|reflexivity]. now apply Bool.not_true_is_false.
         + right. unfold def. rewrite Ev, Hv. apply Bool.not_true_is_false in Hf. rewrite Hf. now left. }
  all: exists []; (split; [reflexivity|]); intros m; apply Z; intros [t [[=] _]].
Qed.
Lemma behind_ref_in test n res_ ob rest : defined_in "Resources" template res_ ob ->
  let r := (PKey "Resources" :: PKey res_ :: rest)%list in
  exists o, behind_ref str_other template test (VStr n) (r ++ [PKey "Ref"])%list = Ok o /\
  forall m, In m o <-> unconditioned template r /\ exists ok d ob words p v, test = Some (ok, d) /\ takes_one template n ob /\
    unfit (fun v => ok (text_of str_other v) = true) n ob words p v /\ m = value_finding str_other words p n v d.
Proof.
  intros Hd r. destruct (conditioned_iff res_ ob rest Hd) as [b [Eb Hb]]. fold r in Eb, Hb. unfold behind_ref. rewrite Eb. cbn [bind]. destruct b.
  - exists []. split; [reflexivity|]. intros m. split; [intros []|]. intros [Hu _]. apply Hb in Hu. discriminate.
  - assert (Hu := proj1 Hb eq_refl). destruct test as [[ok d]|].
    + destruct (parameter_matches_in ok d n) as [o [Eo Ho]]. exists o. split; [exact Eo|]. intros m. rewrite Ho. split.
      * intros [ob' [words [p [v H]]]]. split; [exact Hu|]. exists ok, d, ob', words, p, v. auto.
      * intros [_ [ok' [d' [ob' [words [p [v [Et H]]]]]]]]. injection Et as <- <-. eauto.
    + exists []. split; [reflexivity|]. intros m. split; [intros []|]. intros [_ [ok [d [? [? [? [? [[=] _]]]]]]]].
Qed.
Lemma behind_check test props specs res_ ob rest : defined_in "Resources" template res_ ob ->
  let p := (PKey "Resources" :: PKey res_ :: rest)%list in
  all_objects (VDict props) p -> no_null_property (VDict props) p -> refs_are_names props p ->
  exists ms, per_value (VDict props) specs p (fun _ _ _ _ => Ok []) (fun _ ps => [("Ref", behind_ref str_other template (test ps))]) = Ok ms /\
  forall m, In m ms <-> exists ps n ok d ob words pa v, refers template props specs p ps n /\ ps_value ps <> [] /\ test ps = Some (ok, d) /\
    takes_one template n ob /\ unfit (fun v => ok (text_of str_other v) = true) n ob words pa v /\ m = value_finding str_other words pa n v d.
Proof.
  intros Hd p Ha Hn Hr.
  assert (B : forall prop x q y r ps, property_of (VDict props) p prop x q -> single x (q ++ [PKey prop])%list (VDict [("Ref", y)]) r ->
    exists n o, y = VStr n /\ behind_ref str_other template (test ps) y (r ++ [PKey "Ref"])%list = Ok o /\
      forall m, In m o <-> unconditioned template r /\ exists ok d ob words p v, test ps = Some (ok, d) /\ takes_one template n ob /\
        unfit (fun v => ok (text_of str_other v) = true) n ob words p v /\ m = value_finding str_other words p n v d).
  { intros prop x q y r ps Hp Hs. destruct (Hr prop x q r y Hp Hs) as [n ->]. destruct (value_below _ _ _ _ _ _ _ Hp Hs) as [l ->].
    destruct (behind_ref_in (test ps) n res_ ob (rest ++ l)%list Hd) as [o [Eo Ho]]. exists n, o. split; [reflexivity|]. split; [exact Eo | exact Ho]. }
  destruct (per_value_spec props specs p (fun _ _ _ _ => Ok []) (fun _ ps => [("Ref", behind_ref str_other template (test ps))]) Ha Hn) as [ms [E Hin]].
  { intros prop x q ps w r Hp _ _ Hs. split; [eauto|]. intros fn y h [-> _] Eh. cbn [assoc] in Eh. destruct (String.eqb fn "Ref") eqn:Ef; [|discriminate Eh]. injection Eh as <-.
    apply String.eqb_eq in Ef. subst fn. destruct (B prop x q y r ps Hp Hs) as [n [o [_ [Eo _]]]]. eauto. }
  exists ms. split; [exact E|]. intros m. rewrite Hin. split.
  - intros [prop [x [q [ps [w [r [Hp [Hs [Hv [Hw Hh]]]]]]]]]]. destruct Hh as [[_ [o [[= <-] []]]]|[fn [y [h [o [[-> _] [Eh [Eo Hm]]]]]]]].
    cbn [assoc] in Eh. destruct (String.eqb fn "Ref") eqn:Ef; [|discriminate Eh]. injection Eh as <-. apply String.eqb_eq in Ef. subst fn.
    destruct (B prop x q y r ps Hp Hw) as [n [o' [-> [Eo' Ho]]]]. rewrite Eo in Eo'. injection Eo' as <-. destruct (proj1 (Ho m) Hm) as [Hu [ok [d [ob' [words [pa [v H]]]]]]].
    exists ps, n, ok, d, ob', words, pa, v. split; [exists prop, x, q, r; auto|]. auto.
  - intros [ps [n [ok [d [ob' [words [pa [v [[prop [x [q [r [Hp [Hs [Hw Hu]]]]]]] [Hv H]]]]]]]]]].
    exists prop, x, q, ps, (VDict [("Ref", VStr n)]), r. split; [exact Hp|]. split; [exact Hs|]. split; [exact Hv|]. split; [exact Hw|]. right.
    destruct (B prop x q (VStr n) r ps Hp Hw) as [n' [o [En [Eo Ho]]]]. injection En as <-. exists "Ref", (VStr n). do 2 eexists.
    split; [split; [reflexivity | apply smem_iff; reflexivity]|]. split; [reflexivity|]. split; [exact Eo|]. apply Ho. split; [exact Hu|]. exists ok, d, ob', words, pa, v. exact H.
Qed.
End Values.

Definition values_words (l : list string) : string := "Valid values are " ++ dumps (fun _ => "") (VList (map VStr l)).
Lemma c69_values str_other template vs props specs res_ ob rest : ~ In "" (keys vs) -> plain_sections template -> allowed_lists template ->
  defined_in "Resources" template res_ ob ->
  let p := (PKey "Resources" :: PKey res_ :: rest)%list in
  all_objects (VDict props) p -> no_null_property (VDict props) p -> refs_are_names props p ->
  exists ms, parameter_values_check str_other template vs (VDict props) specs p = Ok ms /\
  forall m, In m ms <-> exists ps vr n o words pa v, refers template props specs p ps n /\ restricts vs "ValueType" ps vr /\ vr_allowed vr <> [] /\
    takes_one template n o /\ unfit (fun v => In (py_str str_other v) (vr_allowed vr)) n o words pa v /\ m = value_finding str_other words pa n v (values_words (vr_allowed vr)).
Proof.
  intros He Hpl Hl Hd p Ha Hn Hr.
  destruct (behind_check str_other template Hpl Hl (fun ps => values_test (vrule_of vs (value_type "ValueType" ps))) props specs res_ ob rest Hd Ha Hn Hr) as [ms [E Hin]].
  exists ms. split; [exact E|]. intros m. rewrite Hin. clear Hin E. split.
  - intros [ps [n [ok [d [o [words [pa [v [Hre [Hv [Ht [Ho [Hu ->]]]]]]]]]]]]]. set (vr := vrule_of vs (value_type "ValueType" ps)) in *.
    assert (Hvr : vr_allowed vr <> []) by (unfold values_test in Ht; destruct (vr_allowed vr); [discriminate Ht | discriminate]).
    assert (Ev : ok = (fun s => smem s (vr_allowed vr)) /\ d = values_words (vr_allowed vr)).
    { unfold values_test in Ht. destruct (vr_allowed vr) as [|a l]; [discriminate Ht|]. injection Ht as <- <-. auto. }
    destruct Ev as [-> ->]. exists ps, vr, n, o, words, pa, v. split; [exact Hre|]. split; [apply rule_restricts; [exact He|]; fold vr; intros E; rewrite E in Hvr; now apply Hvr|].
    split; [exact Hvr|]. split; [exact Ho|]. split; [|reflexivity].
    destruct Hu as [l j v H1 H2 H3|v H1 H2 H3]; [apply un_allowed with l; [exact H1 | exact H2|] | apply un_default; [exact H1 | exact H2|]]; now rewrite <- smem_iff.
  - intros [ps [vr [n [o [words [pa [v [Hre [Hv [Hvr [Ho [Hu ->]]]]]]]]]]]]. destruct (restricts_rule vs _ ps vr Hv) as [Ev Hps].
    exists ps, n, (fun s => smem s (vr_allowed vr)), (values_words (vr_allowed vr)), o, words, pa, v. split; [exact Hre|]. split; [exact Hps|].
    split; [rewrite Ev; unfold values_test; destruct (vr_allowed vr) eqn:E; [now elim Hvr | reflexivity]|]. split; [exact Ho|]. split; [|reflexivity].
    destruct Hu as [l j v H1 H2 H3|v H1 H2 H3]; [apply un_allowed with l; [exact H1 | exact H2|] | apply un_default; [exact H1 | exact H2|]]; now rewrite smem_iff.
Qed.
(** The pattern of a value type, and its description. *)
Lemma c69_patterns str_other template vs matches description props specs res_ ob rest : ~ In "" (keys vs) -> plain_sections template -> allowed_lists template ->
  defined_in "Resources" template res_ ob ->
  let p := (PKey "Resources" :: PKey res_ :: rest)%list in
  all_objects (VDict props) p -> no_null_property (VDict props) p -> refs_are_names props p ->
  exists ms, parameter_pattern_check str_other template vs matches description (VDict props) specs p = Ok ms /\
  forall m, In m ms <-> exists ps t vr n o words pa v, refers template props specs p ps n /\ assoc "ValueType" (ps_value ps) = Some t /\ assoc t vs = Some vr /\ vr_pattern vr <> "" /\
    takes_one template n o /\ unfit (fun v => matches (vr_pattern vr) (py_str str_other v) = true) n o words pa v /\ m = value_finding str_other words pa n v (description t).
Proof.
  intros He Hpl Hl Hd p Ha Hn Hr.
  destruct (behind_check str_other template Hpl Hl (fun ps => pattern_test vs matches description (value_type "ValueType" ps)) props specs res_ ob rest Hd Ha Hn Hr) as [ms [E Hin]].
  exists ms. split; [exact E|]. intros m. rewrite Hin. clear Hin E. split.
  - intros [ps [n [ok [d [o [words [pa [v [Hre [Hv [Ht [Ho [Hu ->]]]]]]]]]]]]]. unfold pattern_test in Ht.
    destruct (String.eqb (vr_pattern (vrule_of vs (value_type "ValueType" ps))) "") eqn:Ee; [discriminate Ht|]. injection Ht as <- <-. apply String.eqb_neq in Ee.
    destruct (rule_restricts vs "ValueType" ps He) as [t [H1 H2]]. { intros E. rewrite E in Ee. now apply Ee. }
    assert (Et : value_type "ValueType" ps = t) by (unfold value_type; now rewrite H1). rewrite Et in *. set (vr := vrule_of vs t) in *.
    exists ps, t, vr, n, o, words, pa, v. auto 10.
  - intros [ps [t [vr [n [o [words [pa [v [Hre [H1 [H2 [Hvr [Ho [Hu ->]]]]]]]]]]]]]].
    assert (Et : value_type "ValueType" ps = t) by (unfold value_type; now rewrite H1). assert (Ev : vrule_of vs t = vr) by (unfold vrule_of; now rewrite H2).
    exists ps, n, (matches (vr_pattern vr)), (description t), o, words, pa, v. split; [exact Hre|]. split; [intros E; rewrite E in H1; discriminate H1|].
    split; [unfold pattern_test; rewrite Et, Ev; apply String.eqb_neq in Hvr; now rewrite Hvr|]. auto.
Qed.

(** * Runs *)
Lemma parameter_there t n o p w : defined_in "Parameters" t n o -> at_path p (VDict o) = Some w -> at_path (PKey "Parameters" :: PKey n :: p) t = Some w.
Proof. intros [d [s [-> [H1 H2]]]] H. cbn [at_path]. now rewrite H1, H2. Qed.
Lemma unfit_there t fine n o words pa v : takes_one t n o -> unfit fine n o words pa v -> pa <> [] /\ exists x, at_path pa t = Some x.
Proof.
  intros [Hd _] [l j w H1 H2 _|w H1 _ _]; (split; [discriminate|]); exists w; apply parameter_there with o; try exact Hd; cbn [at_path]; rewrite H1; [now rewrite H2 | reflexivity].
Qed.
Lemma resource_defined t name rt attrs : wf t -> resource_of t name rt attrs -> defined_in "Resources" t name attrs.
Proof.
  intros Hw [top [rs [-> [Hr [Hn _]]]]]. exists top, rs. split; [reflexivity|]. split; [exact Hr|]. apply wf_dict in Hw as [_ Hw]. pose proof (assoc_In _ _ _ Hr) as Hi. apply Hw in Hi. apply wf_dict in Hi as [Hk _]. now apply (assoc_NoDup name (VDict attrs) rs Hk).
Qed.
Lemma c69_values_run str_other sp k c raw rs vs name rt attrs pd specs m0 d0 ps vr n o words pa v :
  snd (coll_run sp k c) = Ok raw -> In (parameter_values_rule str_other rs vs) (k_all k) -> enabled (k_set k) (parameter_values_rule str_other rs vs) = true ->
  wf (template c) -> c_tmpl c = MDict m0 d0 -> resource_of (template c) name rt attrs -> assoc "Properties" attrs = Some (VDict pd) -> assoc rt (rs_resource_types rs) = Some specs ->
  ~ In "" (keys vs) -> plain_sections (template c) -> allowed_lists (template c) ->
  all_objects (VDict pd) (props_path name) -> no_null_property (VDict pd) (props_path name) -> refs_are_names pd (props_path name) ->
  refers (template c) pd specs (props_path name) ps n -> restricts vs "ValueType" ps vr -> vr_allowed vr <> [] ->
  takes_one (template c) n o -> unfit (fun v => In (py_str str_other v) (vr_allowed vr)) n o words pa v ->
  exists f, locate_match c "W2030" (value_finding str_other words pa n v (values_words (vr_allowed vr))) = Ok f /\ In f raw.
Proof.
  intros Hrun Hr He Hw Hc Hres Hp Hrt Hv Hpl Hl Ha Hn Hna H1 H2 H3 H4 H5.
  destruct (c69_values str_other (template c) vs pd specs name attrs [PKey "Properties"] Hv Hpl Hl (resource_defined _ _ _ _ Hw Hres) Ha Hn Hna) as [ms [E Hms]].
  refine (reported_props sp k c raw (parameter_values_rule str_other rs vs) (fun _ c props rt p => parameter_values_check str_other (template c) vs props (specs_of rt (rs_resource_types rs)) p) name rt attrs pd ms _ m0 d0 Hrun Hr He eq_refl _ Hc Hres Hp _ _ _).
  - cbn. apply assoc_Some_key. eauto.
  - unfold specs_of. now rewrite Hrt.
  - intros m Hm. destruct (proj1 (Hms m) Hm) as [ps' [vr' [n' [o' [words' [pa' [v' [_ [_ [_ [H6 [H7 ->]]]]]]]]]]]]. exact (unfit_there _ _ _ _ _ _ _ H6 H7).
  - apply Hms. exists ps, vr, n, o, words, pa, v. auto 10.
Qed.
Lemma c69_values_nested_run str_other sp k c raw rs vs name rt attrs pd nt d q specs m0 d0 ps vr n o words pa v :
  snd (coll_run sp k c) = Ok raw -> In (parameter_values_rule str_other rs vs) (k_all k) -> enabled (k_set k) (parameter_values_rule str_other rs vs) = true ->
  wf (template c) -> c_tmpl c = MDict m0 d0 -> resource_of (template c) name rt attrs -> assoc "Properties" attrs = Some (VDict pd) ->
  resource_nested sp rt (VDict pd) (props_path name) nt (VDict d) q -> ~ is_if (VDict d) -> assoc nt (rs_property_types rs) = Some specs ->
  ~ In "" (keys vs) -> plain_sections (template c) -> allowed_lists (template c) ->
  all_objects (VDict d) q -> no_null_property (VDict d) q -> refs_are_names d q ->
  refers (template c) d specs q ps n -> restricts vs "ValueType" ps vr -> vr_allowed vr <> [] ->
  takes_one (template c) n o -> unfit (fun v => In (py_str str_other v) (vr_allowed vr)) n o words pa v ->
  exists f, locate_match c "W2030" (value_finding str_other words pa n v (values_words (vr_allowed vr))) = Ok f /\ In f raw.
Proof.
  intros Hrun Hr He Hw Hc Hres Hp Hne Hif Hrt Hv Hpl Hl Ha Hn Hna H1 H2 H3 H4 H5.
  destruct (resource_nested_below _ _ _ _ _ _ _ Hne) as [l Eq]. subst q.
  destruct (c69_values str_other (template c) vs d specs name attrs (PKey "Properties" :: l) Hv Hpl Hl (resource_defined _ _ _ _ Hw Hres) Ha Hn Hna) as [ms [E Hms]].
  refine (reported_subs sp k c raw (parameter_values_rule str_other rs vs) (fun _ c props rt p => parameter_values_check str_other (template c) vs props (specs_of rt (rs_property_types rs)) p) name rt attrs pd nt (VDict d) _ ms _ m0 d0 Hrun Hr He eq_refl _ Hc Hres Hp Hne Hif _ _ _).
  - cbn. apply assoc_Some_key. eauto.
  - unfold specs_of. now rewrite Hrt.
  - intros m Hm. destruct (proj1 (Hms m) Hm) as [ps' [vr' [n' [o' [words' [pa' [v' [_ [_ [_ [H6 [H7 ->]]]]]]]]]]]]. exact (unfit_there _ _ _ _ _ _ _ H6 H7).
  - apply Hms. exists ps, vr, n, o, words, pa, v. auto 10.
Qed.
Lemma c69_patterns_run str_other matches description sp k c raw rs vs name rt attrs pd specs m0 d0 ps t vr n o words pa v :
  snd (coll_run sp k c) = Ok raw -> In (parameter_pattern_rule str_other matches description rs vs) (k_all k) -> enabled (k_set k) (parameter_pattern_rule str_other matches description rs vs) = true ->
  wf (template c) -> c_tmpl c = MDict m0 d0 -> resource_of (template c) name rt attrs -> assoc "Properties" attrs = Some (VDict pd) -> assoc rt (rs_resource_types rs) = Some specs ->
  ~ In "" (keys vs) -> plain_sections (template c) -> allowed_lists (template c) ->
  all_objects (VDict pd) (props_path name) -> no_null_property (VDict pd) (props_path name) -> refs_are_names pd (props_path name) ->
  refers (template c) pd specs (props_path name) ps n -> assoc "ValueType" (ps_value ps) = Some t -> assoc t vs = Some vr -> vr_pattern vr <> "" ->
  takes_one (template c) n o -> unfit (fun v => matches (vr_pattern vr) (py_str str_other v) = true) n o words pa v ->
  exists f, locate_match c "W2031" (value_finding str_other words pa n v (description t)) = Ok f /\ In f raw.
Proof.
  intros Hrun Hr He Hw Hc Hres Hp Hrt Hv Hpl Hl Ha Hn Hna H1 H2 H2' H3 H4 H5.
  destruct (c69_patterns str_other (template c) vs matches description pd specs name attrs [PKey "Properties"] Hv Hpl Hl (resource_defined _ _ _ _ Hw Hres) Ha Hn Hna) as [ms [E Hms]].
  refine (reported_props sp k c raw (parameter_pattern_rule str_other matches description rs vs) (fun _ c props rt p => parameter_pattern_check str_other (template c) vs matches description props (specs_of rt (rs_resource_types rs)) p) name rt attrs pd ms _ m0 d0 Hrun Hr He eq_refl _ Hc Hres Hp _ _ _).
  - cbn. apply assoc_Some_key. eauto.
  - unfold specs_of. now rewrite Hrt.
  - intros m Hm. destruct (proj1 (Hms m) Hm) as [ps' [t' [vr' [n' [o' [words' [pa' [v' [_ [_ [_ [_ [H6 [H7 ->]]]]]]]]]]]]]]. exact (unfit_there _ _ _ _ _ _ _ H6 H7).
  - apply Hms. exists ps, t, vr, n, o, words, pa, v. auto 12.
Qed.

(** * The memory size of functions *)
Definition memory_finding (n : string) : rulematch :=
  mkRM [PKey "Parameters"; PKey n] ("Lambda Memory Size parameters should use MinValue, MaxValue or AllowedValues at Parameters/" ++ n).
Lemma given_iff o k : truthy (match assoc k o with Some x => x | None => VNull end) = true <-> given o k.
Proof. unfold given. destruct (assoc k o) as [x|]; [split; [eauto | intros [v [[= <-] H]]; exact H] | split; [discriminate | intros [v [[=] _]]]]. Qed.
Lemma memory_ref_in t n p : plain_sections t -> exists o, memory_ref t (VStr n) p = Ok o /\ forall m, In m o <-> unbounded t n /\ m = memory_finding n.
Proof.
  intros Hpl. destruct (plain_section "Parameters" t Hpl (or_introl eq_refl)) as [ms [Hs [H1 H2]]].
  unfold memory_ref, get_parameters. rewrite Hs. cbn [bind].
  assert (E : (if truthy (VDict ms) then VDict ms else VDict []) = VDict ms) by (destruct ms; reflexivity). rewrite E. cbn [py_member bind]. clear E.
  destruct (mem_assoc n ms) eqn:Em.
  2: { exists []. split; [reflexivity|]. intros m. split; [intros []|]. intros [[o [Hd _]] _]. exfalso. assert (K : mem_assoc n ms = true); [|congruence]. apply mem_assoc_iff, assoc_Some_key. eauto. }
  apply mem_assoc_iff, assoc_Some_key in Em as [x Hx]. destruct (H1 n x Hx) as [o [-> Hd]]. cbn [vget]. rewrite Hx. cbn [bind].
  eexists. split; [reflexivity|]. intros m.
  assert (U : unbounded t n <-> ~ given o "AllowedValues" /\ ~ (given o "MinValue" /\ given o "MaxValue")).
  { split; [|intros H; exists o; auto]. intros [o' [Hd' H]]. apply H2 in Hd'. rewrite Hx in Hd'. injection Hd' as <-. exact H. }
  rewrite U. rewrite <- !given_iff.
  destruct (truthy (match assoc "AllowedValues" o with Some x => x | None => VNull end)); destruct (truthy (match assoc "MinValue" o with Some x => x | None => VNull end));
    destruct (truthy (match assoc "MaxValue" o with Some x => x | None => VNull end)); cbn [negb orb andb].
  1-4: split; [intros [] | intros [[H _] _]; now elim H].
  1: split; [intros [] | intros [[_ H] _]; elim H; auto].
  all: split; [intros [<-|[]]; split; [split; [discriminate | intros [H H']; discriminate] | reflexivity] | intros [_ ->]; now left].
Qed.
Lemma c69_memory t props x p : plain_sections t -> assoc "MemorySize" props = Some x -> (forall q, ~ alternative x (p ++ [PKey "MemorySize"])%list VNull q) ->
  (forall y r, single x (p ++ [PKey "MemorySize"])%list (VDict [("Ref", y)]) r -> exists n, y = VStr n) ->
  exists ms, memory_check t (VDict props) p = Ok ms /\
  forall m, In m ms <-> exists n r, single x (p ++ [PKey "MemorySize"])%list (VDict [("Ref", VStr n)]) r /\ unbounded t n /\ m = memory_finding n.
Proof.
  intros Hpl Hx Hn Hr. destruct (check_value_calls (fun _ _ => Ok []) [("Ref", memory_ref t)] props "MemorySize" x p Hx Hn) as [ms [E Hin]].
  { intros w r Hs. split; [eauto|]. intros fn y h [-> _] Eh. cbn [assoc] in Eh. destruct (String.eqb fn "Ref") eqn:Ef; [|discriminate Eh]. injection Eh as <-.
    apply String.eqb_eq in Ef. subst fn. destruct (Hr y r Hs) as [n ->]. destruct (memory_ref_in t n (r ++ [PKey "Ref"])%list Hpl) as [o [Eo _]]. eauto. }
  exists ms. split; [exact E|]. intros m. rewrite Hin. split.
  - intros [w [r [Hs [[_ [o [[= <-] []]]]|[fn [y [h [o [[-> _] [Eh [Eo Hm]]]]]]]]]]]. cbn [assoc] in Eh. destruct (String.eqb fn "Ref") eqn:Ef; [|discriminate Eh]. injection Eh as <-.
    apply String.eqb_eq in Ef. subst fn. destruct (Hr y r Hs) as [n ->]. destruct (memory_ref_in t n (r ++ [PKey "Ref"])%list Hpl) as [o' [Eo' Ho]]. rewrite Eo in Eo'. injection Eo' as <-.
    destruct (proj1 (Ho m) Hm). eauto.
  - intros [n [r [Hs H]]]. exists (VDict [("Ref", VStr n)]), r. split; [exact Hs|]. right. destruct (memory_ref_in t n (r ++ [PKey "Ref"])%list Hpl) as [o [Eo Ho]].
    exists "Ref", (VStr n), (memory_ref t), o. split; [split; [reflexivity | apply smem_iff; reflexivity]|]. split; [reflexivity|]. split; [exact Eo|]. now apply Ho.
Qed.
Lemma c69_memory_run sp k c raw name attrs pd m0 d0 x n r :
  snd (coll_run sp k c) = Ok raw -> In memory_rule (k_all k) -> enabled (k_set k) memory_rule = true ->
  c_tmpl c = MDict m0 d0 -> resource_of (template c) name "AWS::Lambda::Function" attrs -> assoc "Properties" attrs = Some (VDict pd) ->
  plain_sections (template c) -> assoc "MemorySize" pd = Some x -> (forall q, ~ alternative x (props_path name ++ [PKey "MemorySize"])%list VNull q) ->
  (forall y r, single x (props_path name ++ [PKey "MemorySize"])%list (VDict [("Ref", y)]) r -> exists n, y = VStr n) ->
  single x (props_path name ++ [PKey "MemorySize"])%list (VDict [("Ref", VStr n)]) r -> unbounded (template c) n ->
  exists f, locate_match c "W2510" (memory_finding n) = Ok f /\ In f raw.
Proof.
  intros Hrun Hr He Hc Hres Hp Hpl Hx Hn Hna H1 H2. destruct (c69_memory (template c) pd x (props_path name) Hpl Hx Hn Hna) as [ms [E Hms]].
  refine (reported_props sp k c raw memory_rule (fun _ c props rt p => memory_check (template c) props p) name "AWS::Lambda::Function" attrs pd ms _ m0 d0 Hrun Hr He eq_refl _ Hc Hres Hp E _ _).
  - now left.
  - intros m Hm. destruct (proj1 (Hms m) Hm) as [n' [r' [_ [[o [Hd _]] ->]]]]. split; [discriminate|]. exists (VDict o). now apply parameter_there with o.
  - apply Hms. eauto.
Qed.

(** * Imported outputs *)
Definition import_finding (str_other : val -> string) (p : path) (n : pelem) (v : val) : rulematch :=
  mkRM p ("The value of output (" ++ str_of_pelem n ++ ") is imported from another output (" ++ py_str str_other v ++ ")").
Lemma c69_imports str_other t globals : wf t -> wf globals -> forall m, In m (import_match str_other t globals) <->
  exists p n v, occurs "Fn::ImportValue" t globals p v /\ imported_output (p ++ [PKey "Fn::ImportValue"])%list n /\ m = import_finding str_other (p ++ [PKey "Fn::ImportValue"])%list n v.
Proof.
  intros Hw Hg m. unfold import_match. rewrite in_flat_map. split.
  - intros [[q v] [Hi Hm]]. apply in_search_deep in Hi as [p [-> Ho]]; [|exact Hw|exact Hg]. unfold import_output in Hm. cbn [fst snd] in Hm.
    destruct (p ++ [PKey "Fn::ImportValue"])%list as [|[o|] [|n [|[u|] [|[f|] rest]]]] eqn:E; try destruct Hm.
    destruct (String.eqb o "Outputs" && String.eqb u "Value" && String.eqb f "Fn::ImportValue") eqn:Eb; [|destruct Hm]. destruct Hm as [<-|[]].
    apply andb_prop in Eb as [Eb E3]. apply andb_prop in Eb as [E1 E2]. apply String.eqb_eq in E1, E2, E3. subst o u f. exists p, n, v. rewrite E. split; [exact Ho|]. split; [now exists rest | reflexivity].
  - intros [p [n [v [Ho [[rest E] ->]]]]]. exists ((p ++ [PKey "Fn::ImportValue"])%list, v). split; [apply in_search_deep; eauto|].
    unfold import_output. cbn [fst snd]. rewrite E. cbn [String.eqb Ascii.eqb andb Bool.eqb]. now left.
Qed.
