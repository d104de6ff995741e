(** Samples and refutations for C66. *)
From Coq Require Import Permutation Lia.
From Verif.Model Require Import Base Helpers Locate Node Conditions Search Resolve Rules Refs Relationship PropertyRules BasedOn.
From Verif.Spec Require Import Paths Branches Walk Required Truth Resolved Groups Based.
From Verif.Proofs Require Import BaseFacts WfDecide BranchProofs SearchProofs ConditionProofs ResolveProofs ConditionWitness SetProofs Samples PropertyRuleProofs PropertyWitness GroupProofs GroupMain GroupWitness BasedProofs BasedMain.
Import ListNotations.
Import Verif.Model.Rules.
Local Open Scope string_scope.

(** Patterns that are prefixes. *)
Definition toy_matches (r t : string) : bool := starts_with r t.
Definition when_y : bspec := mkBS "y" [] [] ["A"] ["A"].
Definition y_specs : btable := [("B", [when_y])].
Definition when_queue : bspec := mkBS "arn:queue" ["AWS::X::Topic"] [("AWS::X::Queue", "Arn")] ["Batch"] ["Start"].
Definition queue_specs : btable := [("Source", [when_queue])].

Lemma y_judged t s : judged t (VStr s).
Proof. split; [intros n [=] | intros l [=]]. Qed.
Lemma resolved_members_det decide d d1 d2 : resolved_members decide d d1 -> resolved_members decide d d2 -> d1 = d2.
Proof.
  intros H. revert d2. induction H as [|k x y d d1 Hx H IH|k x d d1 Hx H IH]; intros d2 H2; inversion H2; subst; try reflexivity.
  - match goal with K : resolved _ x (Some _) |- _ => pose proof (proj1 (resolved_det decide) _ _ Hx _ K) as E end. injection E as <-. f_equal. now apply IH.
  - match goal with K : resolved _ x None |- _ => now pose proof (proj1 (resolved_det decide) _ _ Hx _ K) end.
  - match goal with K : resolved _ x (Some _) |- _ => now pose proof (proj1 (resolved_det decide) _ _ Hx _ K) end.
  - now apply IH.
Qed.
Lemma conditional_example :
  plain_object (two_props "IsDev") /\ VDict (two_props "IsDev") <> no_value /\ entry y_specs "B" when_y /\ ~ In "Fn::If" ("B" :: bs_required when_y) /\
  (forall n, In n ["IsDev"] <-> group_looks_at (two_props "IsDev") ("B" :: bs_required when_y) n) /\
  mem_assoc "IsDev" (cs_conditions (load toy_hash 9 env)) = true /\ gives env_defs env_values ["IsDev"] env_bools /\
  (exists d', deployed env_bools (two_props "IsDev") d' /\ asks toy_matches env when_y (bs_required when_y) "B" "A" d' /\ ~ In "A" (keys d')) /\
  (exists d', deployed (fun _ => true) (two_props "IsDev") d' /\ asks toy_matches env when_y (bs_unwanted when_y) "B" "A" d' /\ In "A" (keys d')) /\
  (forall b d' x, deployed b (two_props "IsDev") d' -> assoc "B" d' = Some x -> judged env x) /\
  based_check toy_matches env (fun l => l) (load toy_hash 9 env) bs_required negb "should be specified" (VDict (two_props "IsDev")) y_specs group_p =
    Ok [mkRM group_p "When property 'B' has its current value property 'A' should be specified when when condition ""IsDev"" is False"] /\
  based_check toy_matches env (fun l => l) (load toy_hash 9 env) bs_unwanted (fun b => b) "should not be specified" (VDict (two_props "IsDev")) y_specs group_p =
    Ok [mkRM group_p "When property 'B' has its current value property 'A' should not be specified when when condition ""IsDev"" is True"].
Proof.
  split; [apply two_plain|]. split; [apply two_plain|]. split; [exists [when_y]; split; now left|]. split; [cbn; intuition discriminate|].
  split; [intros n; apply two_looks; cbn; auto|]. split; [reflexivity|]. split; [apply env_one; cbn; auto|].
  split; [|split; [|split]].
  - eexists. split; [apply two_else; reflexivity|]. split; [|cbn; intuition discriminate]. exists (VStr "y"). split; [reflexivity|]. split; [apply fits_text; [discriminate | reflexivity] | now left].
  - eexists. split; [apply two_then; reflexivity|]. split; [|cbn; auto]. exists (VStr "y"). split; [reflexivity|]. split; [apply fits_text; [discriminate | reflexivity] | now left].
  - intros b d' x Hd Hx. destruct (b "IsDev") eqn:E.
    + rewrite (resolved_members_det _ _ _ _ Hd (two_then _ _ E)) in Hx. injection Hx as <-. apply y_judged.
    + rewrite (resolved_members_det _ _ _ _ Hd (two_else _ _ E)) in Hx. injection Hx as <-. apply y_judged.
  - split; vm_compute; reflexivity.
Qed.

(** Without conditions; the source of the first is a queue, that of the second a topic. *)
Definition queue_props : list (string * val) := [("Source", VDict [("Fn::GetAtt", VList [VStr "Q"; VStr "Arn"])]); ("Start", VInt 1)].
Definition topic_props : list (string * val) := [("Source", VDict [("Ref", VStr "P")]); ("Rules", VList [VDict [("Source", VStr "arn:queue:1")]])].
Definition based_resources : list (string * val) :=
  [("Q", VDict [("Type", VStr "AWS::X::Queue")]); ("P", VDict [("Type", VStr "AWS::X::Topic")]);
   ("T", VDict [("Type", VStr "AWS::X::Table"); ("Properties", VDict queue_props)]);
   ("U", VDict [("Type", VStr "AWS::X::Table"); ("Properties", VDict topic_props)])].
Definition based_cfn : cfn := mkCfn "t.yaml" "us-east-1" (marked (VDict [("Resources", VDict based_resources)])).
Lemma based_run_example :
  let k := mkColl [required_based_rule toy_matches toy_hash (fun l => l) 9 [("AWS::X::Table", queue_specs)] [("AWS::X::Table.Rule", queue_specs)];
                   unwanted_based_rule toy_matches toy_hash (fun l => l) 9 [("AWS::X::Table", queue_specs)] [("AWS::X::Table.Rule", queue_specs)]] default_settings in
  wf (template based_cfn) /\ (exists m d, c_tmpl based_cfn = MDict m d) /\
  resource_of (template based_cfn) "T" "AWS::X::Table" [("Type", VStr "AWS::X::Table"); ("Properties", VDict queue_props)] /\
  plain_object queue_props /\ VDict queue_props <> no_value /\ (forall group n, ~ group_looks_at queue_props group n) /\
  entry queue_specs "Source" when_queue /\ (forall k s, entry queue_specs k s -> k = "Source" /\ s = when_queue) /\
  (forall x, assoc "Source" queue_props = Some x -> judged (template based_cfn) x) /\
  asks toy_matches (template based_cfn) when_queue (bs_required when_queue) "Source" "Batch" queue_props /\ ~ In "Batch" (keys queue_props) /\
  asks toy_matches (template based_cfn) when_queue (bs_unwanted when_queue) "Source" "Start" queue_props /\ In "Start" (keys queue_props) /\
  asks toy_matches (template based_cfn) when_queue (bs_required when_queue) "Source" "Batch" topic_props /\
  exists raw, snd (coll_run sample_sp k based_cfn) = Ok raw /\
    map f_msg raw = ["When property 'Source' has its current value property 'Batch' should be specified at Resources/T/Properties";
                     "When property 'Source' has its current value property 'Start' should not be specified at Resources/T/Properties";
                     "When property 'Source' has its current value property 'Batch' should be specified at Resources/U/Properties";
                     "When property 'Source' has its current value property 'Batch' should be specified at Resources/U/Properties/Rules/0"].
Proof.
  cbv zeta. split; [apply wfb_sound; reflexivity|]. split; [do 2 eexists; reflexivity|]. split; [do 2 eexists; split; [reflexivity|]; split; [reflexivity|]; split; [cbn; auto | reflexivity]|].
  split.
  { split; [apply nodupb_sound; reflexivity|]. split; [discriminate|]. intros k x [[= <- <-]|[[= <- <-]|[]]]; [apply pi_object; discriminate | apply pi_int]. }
  split; [discriminate|]. split.
  { intros group n [k [x [Hi [_ K]]]]. destruct Hi as [E|[E|[]]]; injection E as <- <-; inversion K. }
  assert (Hq : typed (template based_cfn) "Q" "AWS::X::Queue") by (do 3 eexists; repeat (split; [reflexivity|]); reflexivity).
  assert (Hf : fits toy_matches (template based_cfn) when_queue (VDict [("Fn::GetAtt", VList [VStr "Q"; VStr "Arn"])])) by (apply fits_getatt with "AWS::X::Queue"; [exact Hq | reflexivity]).
  split; [exists [when_queue]; split; now left|]. split; [intros k s [l [[[= <- <-]|[]] [<-|[]]]]; auto|].
  split; [intros x [= <-]; split; [intros n [=] | intros l [= <-]; exists "Q", (VStr "Arn"), [], "AWS::X::Queue"; auto]|].
  split; [eexists; split; [reflexivity|]; split; [exact Hf | now left]|]. split; [cbn; intuition discriminate|].
  split; [eexists; split; [reflexivity|]; split; [exact Hf | now left]|]. split; [cbn; auto|].
  split; [eexists; split; [reflexivity|]; split; [|now left]; apply fits_ref with "AWS::X::Topic"; [do 3 eexists; repeat (split; [reflexivity|]); reflexivity | now left]|].
  eexists. split; vm_compute; reflexivity.
Qed.

(** A property that is given AWS::NoValue counts as specified when no condition is involved. *)
Definition novalue_props : list (string * val) := [("B", VStr "y"); ("A", no_value)].
Lemma novalue_plain : plain_object novalue_props /\ VDict novalue_props <> no_value /\ (forall group n, ~ group_looks_at novalue_props group n).
Proof.
  split; [split; [apply nodupb_sound; reflexivity|]; split; [discriminate|]; intros k x [[= <- <-]|[[= <- <-]|[]]]; [apply pi_str | apply pi_object; discriminate]|].
  split; [discriminate|]. intros group n [k [x [Hi [_ K]]]]. destruct Hi as [E|[E|[]]]; injection E as <- <-; inversion K.
Qed.
Lemma novalue_deployed b d' : deployed b novalue_props d' -> d' = [("B", VStr "y")].
Proof. intros H. apply (resolved_members_det _ _ _ _ H). apply rm_keep; [apply r_str|]. apply rm_drop; [apply r_no_value | apply rm_nil]. Qed.
Lemma c66_novalue_refuted : exists matches template d specs k s prop,
  plain_object d /\ (forall group n, ~ group_looks_at d group n) /\ entry specs k s /\
  (forall b d', deployed b d d' -> asks matches template s (bs_required s) k prop d' /\ ~ In prop (keys d')) /\
  forall order c p, (forall l, Permutation (order l) l) ->
    based_check matches template order c bs_required negb "should be specified" (VDict d) specs p = Ok [] /\
    exists ms, based_check matches template order c bs_unwanted (fun b => b) "should not be specified" (VDict d) specs p = Ok ms /\
      In (mkRM p ("When property '" ++ k ++ "' has its current value property '" ++ prop ++ "' should not be specified at " ++ path_text p)) ms.
Proof.
  destruct novalue_plain as [H1 [H2 H3]]. exists toy_matches, (VDict []), novalue_props, y_specs, "B", when_y, "A".
  assert (He : forall k s, entry y_specs k s -> k = "B" /\ s = when_y) by (intros k s [l [[[= <- <-]|[]] [<-|[]]]]; auto).
  assert (Hf : fits toy_matches (VDict []) when_y (VStr "y")) by (apply fits_text; [discriminate | reflexivity]).
  split; [exact H1|]. split; [exact H3|]. split; [exists [when_y]; split; now left|]. split.
  { intros b d' Hd. rewrite (novalue_deployed _ _ Hd). split; [|cbn; intuition discriminate]. exists (VStr "y"). split; [reflexivity|]. split; [exact Hf | now left]. }
  intros order c p Ho. split.
  - destruct (c66_needed_plain toy_matches (VDict []) order c novalue_props y_specs p Ho H1 H2) as [ms [E Hms]].
    { intros k s Hk. destruct (He k s Hk) as [-> ->]. split; [cbn; intuition discriminate|]. split; [apply H3|]. intros x [= <-]. apply y_judged. }
    rewrite E. destruct ms as [|m ms]; [reflexivity|]. destruct (proj1 (Hms m) (or_introl eq_refl)) as [k [s [prop [Hk [[x [_ [_ Hp]]] [Hn _]]]]]]. destruct (He k s Hk) as [-> ->]. destruct Hp as [<-|[]]. destruct Hn. cbn. auto.
  - destruct (c66_unwanted_plain toy_matches (VDict []) order c novalue_props y_specs p Ho H1 H2) as [ms [E Hms]].
    { intros k s Hk. destruct (He k s Hk) as [-> ->]. split; [cbn; intuition discriminate|]. split; [apply H3|]. intros x [= <-]. apply y_judged. }
    exists ms. split; [exact E|]. apply Hms. exists "B", when_y, "A". split; [exists [when_y]; split; now left|]. split; [|split; [cbn; auto | reflexivity]]. exists (VStr "y"). split; [reflexivity|]. split; [exact Hf | now left].
Qed.
(** A GetAtt of a resource that does not exist ends the rule. *)
Lemma c66_missing_refuted : exists specs, forall matches d rs order c p n a,
  (forall l, Permutation (order l) l) -> assoc "Resources" d = Some (VDict rs) -> assoc n rs = None ->
  based_check matches (VDict d) order c bs_required negb "should be specified" (VDict [("Source", VDict [("Fn::GetAtt", VList [VStr n; a])])]) specs p = Err EAttribute.
Proof.
  exists queue_specs. intros matches d rs order c p n a Ho H1 H2. unfold based_check, queue_specs. cbn [concat_res fst snd].
  unfold based_spec. cbn [bs_required when_queue]. rewrite sets_plain; [|exact Ho| | | |discriminate].
  - cbn [bind concat_res]. unfold based_set. cbn [snd fst vget assoc]. cbn. unfold getatt_fits. cbn [vget]. rewrite H1. cbn [bind vget]. rewrite H2. reflexivity.
  - split; [apply nodupb_sound; reflexivity|]. split; [discriminate|]. intros k x [[= <- <-]|[]]. apply pi_object. discriminate.
  - cbn. intuition discriminate.
  - intros m [k [x [Hi [_ K]]]]. destruct Hi as [E|[]]; injection E as <- <-; inversion K.
Qed.
(** The text form of GetAtt is not looked at. *)
Lemma c66_getatt_text_refuted : exists specs, forall matches d rs r order c p n t,
  (forall l, Permutation (order l) l) -> assoc "Resources" d = Some (VDict rs) -> assoc n rs = Some (VDict r) -> assoc "Type" r = Some (VStr t) ->
  based_check matches (VDict d) order c bs_required negb "should be specified" (VDict [("Source", VDict [("Fn::GetAtt", VStr (n ++ ".Arn"))])]) specs p = Ok [].
Proof.
  exists [("Source", [mkBS "" [] [("AWS::X::Queue", "Arn")] ["Batch"] []])]. intros matches d rs r order c p n t Ho _ _ _. unfold based_check. cbn [concat_res fst snd].
  unfold based_spec. cbn [bs_required]. rewrite sets_plain; [|exact Ho| | | |discriminate].
  - reflexivity.
  - split; [apply nodupb_sound; reflexivity|]. split; [discriminate|]. intros k x [[= <- <-]|[]]. apply pi_object. discriminate.
  - cbn. intuition discriminate.
  - intros m [k [x [Hi [_ K]]]]. destruct Hi as [E|[]]; injection E as <- <-; inversion K.
Qed.
(** Properties that are a condition are not looked at. *)
Lemma c66_if_refuted : exists matches template specs k s prop,  entry specs k s /\
  forall cond order c p, (forall l, Permutation (order l) l) ->
    (exists d q, branch (if_ cond (VDict d) no_value) p (VDict d) q /\ asks matches template s (bs_required s) k prop d /\ ~ In prop (keys d) /\
       based_check matches template order c bs_required negb "should be specified" (if_ cond (VDict d) no_value) specs p = Ok []).
Proof.
  exists toy_matches, (VDict []), y_specs, "B", when_y, "A". split; [exists [when_y]; split; now left|]. intros cond order c p Ho.
  exists [("B", VStr "y")], (p ++ [PKey "Fn::If"; PIdx 1])%list. split; [apply items_safe_spec; cbn; now left|]. split; [|split; [cbn; intuition discriminate|]].
  { exists (VStr "y"). split; [reflexivity|]. split; [apply fits_text; [discriminate | reflexivity] | now left]. }
  unfold based_check, y_specs. cbn [concat_res fst snd]. unfold based_spec. cbn [bs_required when_y]. unfold get_object_without_conditions, if_. cbn [selected fold_left assoc]. cbn [bind].
  unfold get_conditions_scenarios_from_object. cbn.
  assert (E : order [] = []) by (apply Permutation_nil; symmetry; apply Ho). rewrite E. unfold get_scenarios. destruct (cs_conditions c); reflexivity.
Qed.
