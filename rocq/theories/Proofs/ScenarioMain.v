(** C16 and C17: coverage and possibility of the scenarios. *)
From Coq Require Import Lia Permutation.
From Verif.Model Require Import Base Helpers Conditions.
From Verif.Spec Require Import Truth.
From Verif.Proofs Require Import BaseFacts ConditionProofs ScenarioProofs.

Lemma finite_choice {A} (d : A) (P : string -> A -> Prop) (l : list string) :
  (forall n, In n l -> exists x, P n x) -> exists F, forall n, In n l -> P n (F n).
Proof.
  induction l as [|m l IH]; intros H.
  - exists (fun _ => d). intros n [].
  - destruct IH as [F HF]; [intros n Hn; apply H; now right|]. destruct (H m) as [x Hx]; [now left|].
    exists (fun n => if String.eqb n m then x else F n). intros n Hn. destruct (String.eqb_spec n m) as [->|Hne]; [exact Hx|].
    destruct Hn as [->|Hn]; [congruence | auto].
Qed.

Lemma truth_compares defs values :
  (forall v b, truth defs values v b -> exists c s, compares defs v c s) /\
  (forall vs bs, truths defs values vs bs -> vs <> [] -> exists v c s, In v vs /\ compares defs v c s).
Proof.
  apply truth_truths_ind.
  - intros. eexists _, _. eapply cp_left; eauto.
  - intros. eexists _, _. eapply cp_right; eauto.
  - intros vs bs Hne H IH. destruct (IH Hne) as [v [c [s [H1 H2]]]]. exists c, s. eapply cp_inside; eauto. cbn; auto.
  - intros vs bs Hne H IH. destruct (IH Hne) as [v [c [s [H1 H2]]]]. exists c, s. eapply cp_inside; eauto. cbn; auto.
  - intros v b H [c [s IH]]. exists c, s. eapply (cp_inside _ "Fn::Not" [v] v); cbn; auto.
  - intros n v b Hn H [c [s IH]]. exists c, s. eapply cp_condition; eauto.
  - congruence.
  - intros v b vs bs H [c [s IH]] _ _ _. exists v, c, s. split; [now left | exact IH].
Qed.

Lemma allowed_strings_in x l : In x (allowed_strings l) <-> exists y, In y l /\ py_str y = Some x.
Proof.
  unfold allowed_strings. rewrite in_flat_map. split; intros [y [H1 H2]]; exists y; (split; [exact H1|]).
  - destruct (py_str y); [destruct H2 as [->|[]]; reflexivity | destruct H2].
  - rewrite H2. now left.
Qed.

Lemma get_scenarios_loaded order c names : cs_conditions c <> [] -> get_scenarios order c names =
      match match_conditions (cs_conditions c) names [] false with
      | None => Ok []
      | Some (matched, false) =>
          if Nat.ltb 4 (List.length names) then
            Ok (fold_left (fun r n => multiply_conditions r n [true]) names [] ++
                fold_left (fun r n => multiply_conditions r n [false]) names [])
          else Ok (fold_left (fun r n => multiply_conditions r n [true; false]) names [])
      | Some (matched, true) =>
          collect_scenarios (cs_conditions c) names
            (fold_left (fun r kv => multiply_equals order r (fst kv) (snd kv) (assoc (fst kv) (cs_parameters c))) matched []) []
      end.
Proof. intros H. unfold get_scenarios. destruct (cs_conditions c); [congruence | reflexivity]. Qed.

Section Hash.
Variable hash : val -> string.
Hypothesis hash_digest : forall v, digest (hash v).
Variable order : list string -> list string.
Hypothesis order_perm : forall l, Permutation (order l) l.
Variable template : val.
Variables defs parameters : list (string * val).
Hypothesis defs_of : section_of "Conditions" template defs.
Hypothesis params_of : section_of "Parameters" template parameters.
Variable fuel : nat.
Notation conds := (cs_conditions (load hash fuel template)).
Notation pvals := (cs_parameters (load hash fuel template)).
Variable names : list string.
Hypothesis names_some : names <> [].
Hypothesis names_nodup : NoDup names.
Hypothesis names_loaded : forall n, In n names -> mem_assoc n conds = true.
Hypothesis names_wf : forall n, In n names -> exists v, assoc n defs = Some v /\ well_formed defs v.

Notation matched_of := (matched_spec hash template defs defs_of fuel names names_loaded names_wf).
Notation infl n := (infl_name hash template fuel n).

Lemma compared_key n v c s : In n names -> assoc n defs = Some v -> compares defs v c s -> infl_has (infl n) (hash c) s.
Proof.
  intros Hn Hv Hc. destruct (name_term hash template defs defs_of fuel names names_loaded names_wf n Hn) as [t [v' [H1 [_ [H2 H3]]]]].
  rewrite Hv in H2. injection H2 as <-. unfold infl_name. rewrite H1. now apply H3.
Qed.
Lemma has_key i k x : infl_has i k x -> In k (keys i).
Proof. intros [s [H _]]. apply assoc_Some_key. eauto. Qed.

Lemma conds_some : conds <> [].
Proof.
  intros E. destruct names as [|n ns]; [congruence|]. specialize (names_loaded n (or_introl eq_refl)). now rewrite E in names_loaded.
Qed.

Definition combos (m : influenced) : list (list (string * string)) :=
  fold_left (fun r kv => multiply_equals order r (fst kv) (snd kv) (assoc (fst kv) pvals)) m [].

Definition value_in (sc : list (string * string)) (n : string) : bool :=
  match assoc n conds with
  | Some t => match term_test t sc with Ok (Some b) => b | _ => false end
  | None => false
  end.

(** In every combination each condition has the truth value CloudFormation gives it. *)
Lemma combo_truth m sc n v : match_conditions conds names [] false = Some (m, true) ->
  (forall h p ps, In h (keys m) -> assoc h pvals = Some (p :: ps) -> allowed_strings (p :: ps) <> []) ->
  In sc (combos m) -> In n names -> assoc n defs = Some v ->
  truth defs (fun c => assoc (hash c) sc) v (value_in sc n) /\
  (exists t, assoc n conds = Some t /\ term_test t sc = Ok (Some (value_in sc n))) /\
  (forall h x, assoc h sc = Some x -> value_ok pvals h x) /\
  (forall k, In k (keys sc) -> In k (keys m)).
Proof.
  intros Hm Ha Hsc Hn Hv. destruct matched_of as [m' [sh [E [F1 [F2 [F3 _]]]]]]. rewrite Hm in E. injection E as <- <-.
  destruct (fold_equals_only order order_perm pvals m [] sc (proj1 F1) Ha Hsc) as [c [G1 [G2 [G3 G4]]]].
  destruct G1 as [<-|[]].
  assert (Hsub : forall k, In k (keys sc) -> In k (keys m)) by (intros k Hk; apply G4 in Hk as [[]|Hk]; exact Hk).
  destruct (name_term hash template defs defs_of fuel names names_loaded names_wf n Hn) as [t [v' [Ht1 [Ht2 [Ht3 Hg]]]]].
  rewrite Hv in Ht3. injection Ht3 as <-.
  destruct (names_wf n Hn) as [v' [Hv' [values [b0 Hb0]]]]. rewrite Hv in Hv'. injection Hv' as <-.
  destruct (proj1 (truth_total defs values (fun c => assoc (hash c) sc)) v b0 Hb0) as [b Hb].
  { intros c s Hc Hnone. assert (Hk : In (hash c) (keys m)).
    { apply (has_key m (hash c) s). apply F2. exists n. split; [exact Hn | exact (compared_key n v c s Hn Hv Hc)]. }
    apply G3 in Hk as [x [Hx _]]. congruence. }
  assert (Htest : term_test t sc = Ok (Some b)).
  { apply (c15_value hash template defs defs_of sc fuel n v t b); auto.
    intros k x Hin. assert (Hk : In k (keys m)) by (apply Hsub; change k with (fst (k, x)); now apply in_map).
    apply F3 in Hk as [c ->]. apply hash_digest. }
  assert (Ev : value_in sc n = b) by (unfold value_in; now rewrite Ht1, Htest). rewrite Ev.
  split; [exact Hb|]. split; [exists t; auto|]. split; [|exact Hsub].
  intros h x Hx. assert (Hk : In h (keys m)) by (apply Hsub; apply assoc_Some_key; eauto).
  apply G3 in Hk as [y [Hy Hok]]. now replace x with y by congruence.
Qed.

Lemma scenarios_shared m : match_conditions conds names [] false = Some (m, true) ->
  (forall h p ps, In h (keys m) -> assoc h pvals = Some (p :: ps) -> allowed_strings (p :: ps) <> []) ->
  exists out, get_scenarios order (load hash fuel template) names = Ok out /\
    forall r, In r out <-> exists sc, In sc (combos m) /\ r = scenario_of names (value_in sc).
Proof.
  intros Hm Ha. rewrite (get_scenarios_loaded order _ names conds_some), Hm. fold (combos m).
  destruct (collect_spec hash template fuel names value_in names_nodup (combos m) []) as [out [H1 H2]].
  - intros sc Hsc. apply (test_all_ok hash template fuel sc (value_in sc) names []); [exact names_nodup | intros n _ [] |].
    intros n Hn. destruct (names_wf n Hn) as [v [Hv _]]. exact (proj1 (proj2 (combo_truth m sc n v Hm Ha Hsc Hn Hv))).
  - intros r [].
  - exists out. split; [exact H1|]. intros r. rewrite H2. split; [intros [[]|H]; exact H | auto].
Qed.
Lemma scenarios_unshared m : match_conditions conds names [] false = Some (m, false) ->
  get_scenarios order (load hash fuel template) names = Ok
   (if Nat.ltb 4 (List.length names) then
            fold_left (fun r n => multiply_conditions r n [true]) names [] ++
            fold_left (fun r n => multiply_conditions r n [false]) names []
          else fold_left (fun r n => multiply_conditions r n [true; false]) names []).
Proof.
  intros Hm. rewrite (get_scenarios_loaded order _ names conds_some), Hm. now destruct (Nat.ltb 4 (List.length names)).
Qed.

Lemma unshared_form m r : match_conditions conds names [] false = Some (m, false) ->
  forall out, get_scenarios order (load hash fuel template) names = Ok out -> In r out -> exists b, r = scenario_of names b.
Proof.
  intros Hm out Hout Hr. rewrite (scenarios_unshared m Hm) in Hout. injection Hout as <-.
  destruct (Nat.ltb 4 (List.length names)).
  - apply in_app_iff in Hr as [Hr|Hr]; apply fold_conditions_only in Hr as [c [b [H1 [-> _]]]]; try exact names_nodup; try discriminate;
      try (intros c n []); destruct H1 as [<-|[]]; exists b; reflexivity.
  - apply fold_conditions_only in Hr as [c [b [H1 [-> _]]]]; try exact names_nodup; try discriminate;
      try (intros c n []); destruct H1 as [<-|[]]; exists b; reflexivity.
Qed.

Lemma allowed_of w h p ps : deployment hash parameters w -> assoc h pvals = Some (p :: ps) ->
  exists c, h = hash c /\ In (w c) (allowed_strings (p :: ps)).
Proof.
  intros [_ Hw] Hp. apply (load_params hash template parameters params_of fuel) in Hp as [name [attrs [H1 [H2 H3]]]].
  exists (VDict [("Ref", VStr name)]). split; [exact H3|]. apply allowed_strings_in.
  destruct (Hw name attrs p ps H1 H2) as [y [Hy [->|[z [-> E]]]]]; eexists; (split; [exact Hy|]); [reflexivity|]. cbn. now rewrite E.
Qed.

Lemma related_shared : (exists n n' v v', In n names /\ In n' names /\ n <> n' /\ assoc n defs = Some v /\ assoc n' defs = Some v' /\
    related defs v v') -> exists m, match_conditions conds names [] false = Some (m, true).
Proof.
  intros [n [n' [v [v' [H1 [H2 [H3 [H4 [H5 [c [s [s' [H6 H7]]]]]]]]]]]]].
  destruct matched_of as [m [sh [E [_ [_ [_ F]]]]]]. exists m. rewrite E. f_equal. f_equal.
  apply (F n n' (hash c) H1 H2 H3); eapply has_key, compared_key; eauto.
Qed.

(** * Coverage *)
Lemma c16_cover w b : deployment hash parameters w ->
  (forall n, In n names -> exists v, assoc n defs = Some v /\ truth defs (fun c => Some (w c)) v (b n)) ->
  (List.length names <= 4 \/
   exists n n' v v', In n names /\ In n' names /\ n <> n' /\ assoc n defs = Some v /\ assoc n' defs = Some v' /\ related defs v v') ->
  exists out, get_scenarios order (load hash fuel template) names = Ok out /\ In (scenario_of names b) out.
Proof.
  intros Hw Hb Hsize. destruct matched_of as [m [sh [E [F1 [F2 [F3 F4]]]]]]. destruct sh.
  - assert (Ha : forall h p ps, In h (keys m) -> assoc h pvals = Some (p :: ps) -> allowed_strings (p :: ps) <> []).
    { intros h p ps _ Hp. destruct (allowed_of w h p ps Hw Hp) as [c [_ Hc]]. intros E0. rewrite E0 in Hc. destruct Hc. }
    destruct (scenarios_shared m E Ha) as [out [H1 H2]]. exists out. split; [exact H1|]. apply H2.
    destruct (finite_choice "" (fun k x => exists c, k = hash c /\ x = w c) (keys m)) as [W HW].
    { intros k Hk. apply F3 in Hk as [c ->]. eauto. }
    destruct (fold_equals_in order order_perm pvals W m [] [] (proj1 F1)) as [sc [G1 [G2 [G3 G4]]]].
    + intros h Hh. unfold value_ok. destruct (assoc h pvals) as [[|p ps]|] eqn:Ep; auto.
      destruct (HW h Hh) as [c [Hc ->]]. destruct (allowed_of w h p ps Hw Ep) as [c' [Hc' Hin]].
      replace (w c) with (w c'); [exact Hin|]. apply (proj1 Hw). congruence.
    + now left.
    + left. intros ->. destruct names as [|n ns] eqn:En; [congruence|].
      destruct (names_wf n) as [v [Hv [values [b0 Hb0]]]]; [now left|].
      apply (proj1 (truth_compares defs values)) in Hb0 as [c [s Hc]].
      assert (Hx : infl_has [] (hash c) s).
      { apply F2. exists n. split; [now left|]. rewrite <- En in *.
        apply (compared_key n v c s); [rewrite En; now left | exact Hv | exact Hc]. }
      destruct Hx as [x [Hx _]]. discriminate.
    + exists sc. split; [exact G1|]. unfold scenario_of. apply map_ext_in. intros n Hn. do 2 f_equal.
      destruct (Hb n Hn) as [v [Hv Ht]]. destruct (name_term hash template defs defs_of fuel names names_loaded names_wf n Hn) as [t [v' [Ht1 [Ht2 [Ht3 _]]]]].
      assert (Htr : truth defs (fun c => assoc (hash c) sc) v (b n)).
      { apply (proj1 (truth_change defs (fun c => Some (w c)) _) v (b n) Ht). intros c s x Hc [= <-].
        assert (Hh : infl_has m (hash c) s) by (apply F2; exists n; split; [exact Hn | exact (compared_key n v c s Hn Hv Hc)]).
        destruct Hh as [sets [Hs1 Hs2]]. apply assoc_In in Hs1 as Hs3. destruct (G3 _ _ Hs3) as [x [Hx1 Hx2]]. exists x. split; [exact Hx1|].
        rewrite (Hx2 s Hs2). destruct (HW (hash c)) as [c' [Hc' ->]]; [apply assoc_Some_key; eauto|]. f_equal. apply (proj1 Hw). congruence. }
      unfold value_in. rewrite Ht1. rewrite (c15_value hash template defs defs_of sc fuel n v t (b n)); auto.
      intros k x Hin. assert (Hk : In k (keys sc)) by (change k with (fst (k, x)); now apply in_map).
      apply G4 in Hk as [[]|Hk]. apply F3 in Hk as [c ->]. apply hash_digest.
  - destruct Hsize as [Hsize|Hrel].
    + exists (fold_left (fun r n => multiply_conditions r n [true; false]) names []). split.
      * rewrite (scenarios_unshared m E). destruct (Nat.ltb_spec 4 (List.length names)); [lia | reflexivity].
      * apply (fold_conditions_in [true; false] names [] b []); auto.
        -- intros n _. destruct (b n); cbn; auto.
        -- now left.
    + apply related_shared in Hrel as [m' Hm']. rewrite E in Hm'. discriminate.
Qed.

(** * Possibility *)
Hypothesis ref_inj : told_apart hash parameters.
Hypothesis parameters_nodup : NoDup (keys parameters).
Hypothesis parameters_plain : forall n p, In (n, p) parameters -> plain_parameter p.
Hypothesis all_loaded : forall n v, In (n, v) defs -> exists t, condition_named hash fuel template n = Ok t.

Lemma load_parameters_keep ps : forall acc h l, (forall n p, In (n, p) ps -> plain_parameter p) -> assoc h acc = Some l ->
  (forall n p, In (n, p) ps -> h <> hash (VDict [("Ref", VStr n)])) -> assoc h (load_parameters hash ps acc) = Some l.
Proof.
  induction ps as [|[n p] ps IH]; intros acc h l Hp Ha Hn; cbn [load_parameters]; [exact Ha|].
  destruct (Hp n p (or_introl eq_refl)) as [attrs [-> _]]. cbn [vget].
  assert (IH' : forall acc', assoc h acc' = Some l -> assoc h (load_parameters hash ps acc') = Some l).
  { intros acc' H. apply IH; [intros n' p' H'; apply (Hp n' p'); now right | exact H | intros n' p' H'; apply (Hn n' p'); now right]. }
  destruct (match assoc "AllowedValues" attrs with Some x => x | None => VNull end); auto.
  apply IH'. rewrite assoc_set_other; [exact Ha|]. apply (Hn n (VDict attrs)). now left.
Qed.
Lemma load_parameters_record ps : forall acc name attrs l, NoDup (keys ps) -> told_apart hash ps -> (forall n p, In (n, p) ps -> plain_parameter p) ->
  In (name, VDict attrs) ps -> assoc "AllowedValues" attrs = Some (VList l) ->
  assoc (hash (VDict [("Ref", VStr name)])) (load_parameters hash ps acc) = Some l.
Proof.
  induction ps as [|[n p] ps IH]; intros acc name attrs l Hn Hinj Hp Hin Ha; [destruct Hin|]. cbn [load_parameters].
  inversion Hn as [|? ? Hn1 Hn2]; subst. destruct (Hp n p (or_introl eq_refl)) as [at0 [-> Hpl]]. cbn [vget].
  destruct Hin as [[= -> ->]|Hin].
  - rewrite Ha. apply load_parameters_keep.
    + intros n' p' H'. apply (Hp n' p'). now right.
    + apply assoc_set_same.
    + intros n' p' H' E. assert (Hn' : In n' (keys ps)) by (change n' with (fst (n', p')); now apply in_map).
      apply Hinj in E; [|now left|now right]. subst n'. contradiction.
  - destruct (match assoc "AllowedValues" at0 with Some x => x | None => VNull end);
      apply (IH _ name attrs l Hn2); auto; try (intros n' p' H'; apply (Hp n' p'); now right);
      intros n1 n2 H1 H2; apply Hinj; now right.
Qed.
Lemma recorded_param name attrs l : In (name, VDict attrs) parameters -> assoc "AllowedValues" attrs = Some (VList l) ->
  assoc (hash (VDict [("Ref", VStr name)])) pvals = Some l.
Proof.
  intros H1 H2. unfold load. rewrite (section_get_conditions template defs defs_of), (section_get_parameters template parameters params_of).
  destruct (load_conditions_all hash template fuel (keys defs) []) as [cs [E _]].
  { intros m Hm. apply in_map_iff in Hm as [[m' v] [<- Hm]]. eauto. }
  rewrite E. cbn [cs_parameters]. eapply load_parameters_record; eauto.
Qed.
Lemma allowed_text name attrs p ps x : In (name, VDict attrs) parameters -> assoc "AllowedValues" attrs = Some (VList (p :: ps)) ->
  In x (allowed_strings (p :: ps)) -> exists y, In y (p :: ps) /\ (y = VStr x \/ exists z, y = VInt z /\ x = str_of_Z z).
Proof.
  intros H1 H2 H3. apply allowed_strings_in in H3 as [y [Hy1 Hy2]]. exists y. split; [exact Hy1|].
  destruct (parameters_plain _ _ H1) as [at0 [[= <-] Hpl]]. destruct (Hpl _ H2 y Hy1) as [[s ->]|[z ->]]; cbn in Hy2; injection Hy2 as <-; eauto.
Qed.
Lemma allowed_nonempty h p ps : assoc h pvals = Some (p :: ps) -> exists x, In x (allowed_strings (p :: ps)).
Proof.
  intros H. apply (load_params hash template parameters params_of fuel) in H as [name [attrs [H1 [H2 _]]]].
  destruct (parameters_plain _ _ H1) as [at0 [[= <-] Hpl]].
  destruct (Hpl _ H2 p (or_introl eq_refl)) as [[s ->]|[z ->]]; eexists; apply allowed_strings_in; eexists; (split; [now left | reflexivity]).
Qed.

Definition default_value (h : string) : string :=
  match assoc h pvals with
  | Some (p :: ps) => match allowed_strings (p :: ps) with x :: _ => x | [] => "" end
  | _ => ""
  end.
Lemma default_ok h p ps : assoc h pvals = Some (p :: ps) -> In (default_value h) (allowed_strings (p :: ps)).
Proof.
  intros H. destruct (allowed_nonempty h p ps H) as [x Hx]. unfold default_value. rewrite H.
  destruct (allowed_strings (p :: ps)); [destruct Hx | now left].
Qed.

Lemma c17_shared m : match_conditions conds names [] false = Some (m, true) ->
  exists out, get_scenarios order (load hash fuel template) names = Ok out /\
  forall r, In r out -> exists b w, r = scenario_of names b /\ deployment hash parameters w /\
    forall n, In n names -> exists v, assoc n defs = Some v /\ truth defs (fun c => Some (w c)) v (b n).
Proof.
  intros Hm.
  assert (Ha : forall h p ps, In h (keys m) -> assoc h pvals = Some (p :: ps) -> allowed_strings (p :: ps) <> []).
  { intros h p ps _ Hp E. destruct (allowed_nonempty h p ps Hp) as [x Hx]. rewrite E in Hx. destruct Hx. }
  destruct (scenarios_shared m Hm Ha) as [out [H1 H2]]. exists out. split; [exact H1|]. intros r Hr.
  apply H2 in Hr as [sc [Hsc ->]]. exists (value_in sc).
  exists (fun c => match assoc (hash c) sc with Some x => x | None => default_value (hash c) end). split; [reflexivity|].
  assert (Hok : forall h x, assoc h sc = Some x -> value_ok pvals h x).
  { destruct names as [|n0 ns] eqn:En; [congruence|]. rewrite <- En in *. assert (Hn0 : In n0 names) by (rewrite En; now left).
    destruct (names_wf n0 Hn0) as [v [Hv _]]. exact (proj1 (proj2 (proj2 (combo_truth m sc n0 v Hm Ha Hsc Hn0 Hv)))). }
  split; [split|].
  - intros c c' E. now rewrite E.
  - intros name attrs p ps Hin Hal. assert (Hrec := recorded_param name attrs _ Hin Hal).
    eapply allowed_text; eauto. destruct (assoc (hash (VDict [("Ref", VStr name)])) sc) as [x|] eqn:Ex.
    + apply Hok in Ex. unfold value_ok in Ex. now rewrite Hrec in Ex.
    + now apply default_ok.
  - intros n Hn. destruct (names_wf n Hn) as [v [Hv _]]. exists v. split; [exact Hv|].
    destruct (combo_truth m sc n v Hm Ha Hsc Hn Hv) as [Ht _]. apply (proj1 (truth_change defs _ _) v _ Ht).
    intros c s x _ Hx. exists x. split; [now rewrite Hx | reflexivity].
Qed.

(** Values for conditions without a call in common can be chosen independently. *)
Lemma c17_unshared m b : match_conditions conds names [] false = Some (m, false) ->
  (forall n, In n names -> exists v w, assoc n defs = Some v /\ deployment hash parameters w /\ truth defs (fun c => Some (w c)) v (b n)) ->
  exists w, deployment hash parameters w /\
    forall n, In n names -> exists v, assoc n defs = Some v /\ truth defs (fun c => Some (w c)) v (b n).
Proof.
  intros Hm Hb. destruct matched_of as [m' [sh [E [F1 [F2 [F3 F4]]]]]]. rewrite Hm in E. injection E as <- <-.
  destruct (finite_choice (fun _ : val => "") (fun n w => exists v, assoc n defs = Some v /\ deployment hash parameters w /\ truth defs (fun c => Some (w c)) v (b n)) names) as [W HW].
  { intros n Hn. destruct (Hb n Hn) as [v [w H]]. exists w, v. exact H. }
  destruct names as [|n0 ns] eqn:En; [congruence|]. rewrite <- En in *. assert (Hn0 : In n0 names) by (rewrite En; now left).
  set (pick := fun c => match find (fun n => smem (hash c) (keys (infl n))) names with Some n => n | None => n0 end).
  assert (Hpick : forall c, In (pick c) names).
  { intros c. unfold pick. destruct (find _ names) as [n|] eqn:Ef; [|exact Hn0]. now apply find_some in Ef. }
  exists (fun c => W (pick c) c). split; [split|].
  - intros c c' Ec. assert (Ep : pick c = pick c') by (unfold pick; now rewrite Ec). rewrite Ep.
    destruct (HW (pick c') (Hpick c')) as [v [_ [[Hr _] _]]]. now apply Hr.
  - intros name attrs p ps Hin Hal. destruct (HW (pick (VDict [("Ref", VStr name)])) (Hpick _)) as [v [_ [[_ Hal2] _]]]. eauto.
  - intros n Hn. destruct (HW n Hn) as [v [Hv [_ Ht]]]. exists v. split; [exact Hv|].
    apply (proj1 (truth_change defs _ _) v _ Ht). intros c s x Hc [= <-]. exists (W (pick c) c). split; [reflexivity|].
    assert (Hk : In (hash c) (keys (infl n))) by (eapply has_key, compared_key; eauto).
    assert (Ep : pick c = n); [|now rewrite Ep].
    unfold pick. destruct (find _ names) as [n1|] eqn:Ef.
    + apply find_some in Ef as [Hn1 Hk1]. apply smem_iff in Hk1. destruct (string_dec n1 n) as [|Hne]; [assumption|].
      assert (false = true) by (exact (F4 n1 n (hash c) Hn1 Hn Hne Hk1 Hk)). discriminate.
    + exfalso. apply (find_none _ _ Ef) in Hn. apply smem_iff in Hk. congruence.
Qed.
End Hash.

(** * The statements *)
Theorem c16 hash order template defs parameters fuel names w b :
  (forall v, digest (hash v)) -> (forall l, Permutation (order l) l) ->
  section_of "Conditions" template defs -> section_of "Parameters" template parameters ->
  names <> [] -> NoDup names ->
  (forall n, In n names -> mem_assoc n (cs_conditions (load hash fuel template)) = true) ->
  (List.length names <= 4 \/ some_related defs names) ->
  deployment hash parameters w -> gives defs w names b ->
  exists out, get_scenarios order (load hash fuel template) names = Ok out /\ In (scenario_of names b) out.
Proof.
  intros Hd Ho Hc Hp Hne Hnd Hl Hsize Hw Hg.
  eapply c16_cover; eauto. intros n Hn. destruct (Hg n Hn) as [v [H1 H2]]. exists v. split; [exact H1|]. eexists _, _. exact H2.
Qed.

Lemma all_named hash template defs : section_of "Conditions" template defs -> NoDup (keys defs) ->
  (forall n v, In (n, v) defs -> well_formed defs v) ->
  exists limit, forall fuel, limit <= fuel -> forall n v, In (n, v) defs -> exists t, condition_named hash fuel template n = Ok t.
Proof.
  intros Hs Hn Hw.
  assert (H : forall l, (forall n v, In (n, v) l -> In (n, v) defs) -> exists limit, forall fuel, limit <= fuel ->
     forall n v, In (n, v) l -> exists t, condition_named hash fuel template n = Ok t).
  { induction l as [|[n v] l IH]; intros Hl; [exists 0; intros fuel _ n v []|].
    destruct IH as [k1 H1]; [intros m x Hm; apply Hl; now right|].
    destruct (c15_named hash template defs Hs n v) as [k2 H2].
    - apply assoc_NoDup; [exact Hn | apply Hl; now left].
    - apply (Hw n), Hl. now left.
    - exists (k1 + k2). intros fuel Hf m x [[= <- <-]|Hm]; [apply H2; lia | apply (H1 fuel) with x; [lia | exact Hm]]. }
  exact (H defs (fun n v H => H)).
Qed.
Theorem all_loaded hash template defs : section_of "Conditions" template defs -> NoDup (keys defs) ->
  (forall n v, In (n, v) defs -> well_formed defs v) ->
  exists limit, forall fuel, limit <= fuel -> forall n, mem_assoc n (cs_conditions (load hash fuel template)) = true <-> In n (keys defs).
Proof.
  intros Hs Hn Hw. destruct (all_named hash template defs Hs Hn Hw) as [k Hk]. exists k. intros fuel Hf.
  apply (load_all hash template defs Hs). now apply Hk.
Qed.

Theorem c17 hash order template defs parameters names :
  (forall v, digest (hash v)) -> (forall l, Permutation (order l) l) ->
  section_of "Conditions" template defs -> section_of "Parameters" template parameters ->
  NoDup (keys defs) -> (forall n v, In (n, v) defs -> well_formed defs v) ->
  NoDup (keys parameters) -> (forall n p, In (n, p) parameters -> plain_parameter p) -> told_apart hash parameters ->
  names <> [] -> NoDup names -> (forall n, In n names -> In n (keys defs)) ->
  exists limit, forall fuel, limit <= fuel ->
  exists out, get_scenarios order (load hash fuel template) names = Ok out /\
    (forall r, In r out -> exists b, r = scenario_of names b /\
       ((forall n, In n names -> exists w, deployment hash parameters w /\ gives defs w [n] b) ->
        exists w, deployment hash parameters w /\ gives defs w names b)) /\
    (some_related defs names -> forall r, In r out -> exists b w, r = scenario_of names b /\ deployment hash parameters w /\ gives defs w names b).
Proof.
  intros Hd Ho Hc Hp Hcn Hcw Hpn Hpp Hta Hne Hnd Hin.
  destruct (all_named hash template defs Hc Hcn Hcw) as [k Hk]. exists k. intros fuel Hf. specialize (Hk fuel Hf).
  assert (Hl : forall n, In n names -> mem_assoc n (cs_conditions (load hash fuel template)) = true).
  { intros n Hn. apply (load_all hash template defs Hc fuel Hk). now apply Hin. }
  assert (Hwf : forall n, In n names -> exists v, assoc n defs = Some v /\ well_formed defs v).
  { intros n Hn. apply Hin in Hn. apply in_map_iff in Hn as [[n' v] [<- Hn]]. exists v. split; [now apply assoc_NoDup | eapply Hcw; eauto]. }
  destruct (matched_spec hash template defs Hc fuel names Hl Hwf) as [m [[|] [E _]]].
  - destruct (c17_shared hash Hd order Ho template defs parameters Hc Hp fuel names Hne Hnd Hl Hwf Hta Hpn Hpp Hk m E) as [out [H1 H2]].
    exists out. split; [exact H1|]. split; [|intros _; exact H2].
    intros r Hr. destruct (H2 r Hr) as [b [w [-> H3]]]. exists b. split; [reflexivity|]. intros _. exists w. exact H3.
  - assert (Hs : exists out, get_scenarios order (load hash fuel template) names = Ok out) by (eexists; eapply scenarios_unshared; eauto).
    destruct Hs as [out Hs]. exists out. split; [exact Hs|]. split.
    + intros r Hr. assert (Hform : exists b, r = scenario_of names b) by (eapply unshared_form; eauto). destruct Hform as [b ->].
      exists b. split; [reflexivity|]. intros Hb. eapply c17_unshared; eauto.
      intros n Hn. destruct (Hb n Hn) as [w [H1 H2]]. destruct (H2 n (or_introl eq_refl)) as [v [H3 H4]]. eauto.
    + intros Hrel. exfalso. apply (related_shared hash template defs Hc fuel names Hl Hwf) in Hrel as [m' Hm']. rewrite E in Hm'. discriminate.
Qed.
