(** Proofs for C37, C38 and C45 to C49. *)
From Coq Require Import Lia QArith.
From Verif.Model Require Import Base Helpers Rules Search Conditions Resolve Relationship Refs ConditionRules Limits Parameters Shape Policies.
From Verif.Spec Require Import Paths Resolved References Limited ConditionUse ParameterUse Faults Booleans Protect.
From Verif.Proofs Require Import BaseFacts BooleanProofs SearchProofs RelationRule LimitProofs ParameterProofs PlaceholderProofs PipelineProofs RefProofs RelationProofs ConditionUseProofs ShapeProofs WfDecide.
Import Verif.Model.Rules.
Local Open Scope string_scope.

Lemma resource_in template n x : wf template -> In (n, x) (get_resources template) <-> exists o, x = VDict o /\ resource template n o.
Proof.
  intros Hw. rewrite in_get_resources by exact Hw. unfold resource. split.
  - intros [o [t [-> [H1 [H2 H3]]]]]. eauto 6.
  - intros [o [-> [H1 [t [H2 H3]]]]]. eauto 8.
Qed.
Lemma per_resource template f (P : string -> list (string * val) -> rulematch -> Prop) : wf template ->
  (forall n o, resource template n o -> exists ms, f (n, VDict o) = Ok ms /\ forall m, In m ms <-> P n o m) ->
  exists ms, concat_res f (get_resources template) = Ok ms /\ forall m : rulematch, In m ms <-> exists n o, resource template n o /\ P n o m.
Proof.
  intros Hw Hf. destruct (per_member f (get_resources template) (fun n def m => resource template n def /\ P n def m)) as [ms [E H]].
  { intros n x Hi. apply resource_in in Hi as [o [-> Ho]]; [|exact Hw]. exists o. split; [reflexivity|]. destruct (Hf n o Ho) as [ms [E H]]. exists ms. split; [exact E|].
    intros m. rewrite H. tauto. }
  exists ms. split; [exact E|]. intros m. rewrite H. split.
  - intros [n [def [_ [H1 H2]]]]. eauto.
  - intros [n [o [H1 H2]]]. exists n, o. split; [apply resource_in; eauto | auto].
Qed.
Lemma py_in_texts t l : py_in t (map VStr l) = true <-> exists s, t = VStr s /\ In s l.
Proof.
  unfold py_in. rewrite existsb_exists. split.
  - intros [x [Hi E]]. apply in_map_iff in Hi as [s [<- Hs]]. destruct t as [|[]| | | | |]; try discriminate. apply String.eqb_eq in E. subst. eauto.
  - intros [s [-> Hs]]. exists (VStr s). split; [now apply in_map | apply String.eqb_refl].
Qed.
Lemma py_in_type t ts o : assoc "Type" o = Some t -> py_in t (map VStr ts) = true <-> of_type o ts.
Proof.
  intros E. rewrite py_in_texts. unfold of_type. split; intros [s [H1 H2]]; exists s; split; auto; congruence.
Qed.
Lemma py_in_type_not t ts o : assoc "Type" o = Some t -> py_in t (map VStr ts) = false <-> ~ of_type o ts.
Proof. intros E. rewrite <- (py_in_type t ts o E). destruct (py_in t (map VStr ts)); split; congruence. Qed.

(** * C37 *)
Lemma policy_one_spec show attr n o : (exists t, assoc "Type" o = Some t) -> (forall v, assoc attr o = Some v -> ~ empty v) ->
  exists ms, policy_one show attr (n, VDict o) = Ok ms /\ forall m, In m ms <-> policy_fault (py_str show) attr n o (rm_path m) (rm_msg m).
Proof.
  intros [t Et] He. unfold policy_one. cbn [fst snd vget bind]. rewrite Et. destruct (assoc attr o) as [v|] eqn:Ea.
  2: { exists []. split; [reflexivity|]. intros m. split; [intros [] | intros H; inversion H; congruence]. }
  rewrite (proj2 (truthy_not v) (He v eq_refl)). cbn [bind]. eexists. split; [reflexivity|]. intros [p msg]. cbn [rm_path rm_msg].
  assert (Hbad : (forall s, v <> VStr s) -> (forall l, v <> VList l) -> In (mkRM p msg) [mkRM [PKey "Resources"; PKey n; PKey attr] (attr ++ " values should be of string at " ++ joined [PKey "Resources"; PKey n; PKey attr])] <-> policy_fault (py_str show) attr n o p msg).
  { intros H1 H2. split.
    - intros [[= <- <-]|[]]. eapply po_text; eauto.
    - intros H. inversion H as [l q E Ep E1 E2|w q E _ _ Ep E1 E2|s q E _ Ep E1 E2|u q E _ _ Ep E1 E2]; subst; rewrite Ea in E; injection E as ->.
      + exfalso. now apply (H2 l).
      + now left.
      + exfalso. now apply (H1 s).
      + exfalso. now apply (H1 "Snapshot"). }
  destruct v as [|b|z|q|s|l|d]; try (apply Hbad; discriminate); clear Hbad.
  - unfold policy_value. rewrite in_app_iff, one_in, one_in', smem_not, andb_true_iff, String.eqb_eq, negb_true_iff, (py_in_type_not _ _ _ Et). split.
    + intros [[H [= -> ->]]|[[-> H] [= -> ->]]]; [eapply po_value; eauto | eapply po_snapshot; eauto].
    + intros H. inversion H as [l q E Ep E1 E2|w q E Hs Hl Ep E1 E2|s' q E Hn Ep E1 E2|u q E Eu Hn Ep E1 E2]; subst; rewrite Ea in E; try discriminate.
      * injection E as <-. exfalso. now apply (Hs s).
      * injection E as <-. left. auto.
      * injection E as ->. rewrite Et in Eu. injection Eu as ->. right. auto.
  - split.
    + intros [[= <- <-]|[]]. eapply po_list; eauto.
    + intros H. inversion H as [l' q E Ep E1 E2|w q E Hs Hl Ep E1 E2|s' q E Hn Ep E1 E2|u q E Eu Hn Ep E1 E2]; subst; rewrite Ea in E; try discriminate.
      * now left.
      * injection E as <-. exfalso. now apply (Hl l).
Qed.
Lemma c37_all show attr template : wf template -> (forall n o v, resource template n o -> assoc attr o = Some v -> ~ empty v) ->
  exists ms, policy_match show attr template = Ok ms /\
  forall m, In m ms <-> exists n o, resource template n o /\ policy_fault (py_str show) attr n o (rm_path m) (rm_msg m).
Proof.
  intros Hw He. unfold policy_match.
  apply per_resource with (P := fun n o m => policy_fault (py_str show) attr n o (rm_path m) (rm_msg m)); [exact Hw|].
  intros n o Hr. apply policy_one_spec; [destruct Hr as [_ [t [E _]]]; eauto | eauto].
Qed.

(** * C45 *)
Lemma given_spec o attr : truthy (match assoc attr o with Some x => x | None => VNull end) = true <-> given o attr.
Proof.
  rewrite truthy_not. unfold given. destruct (assoc attr o) as [v|].
  - split; [eauto | intros [v' [[= <-] H]]; exact H].
  - split; [intros H; exfalso; apply H; now left | intros [v [H _]]; discriminate].
Qed.
Lemma eq_str_spec s v : eq_str s v = true <-> v = VStr s.
Proof. destruct v; cbn; split; try discriminate; [intros H; apply String.eqb_eq in H; now subst | intros [= ->]; apply String.eqb_refl]. Qed.
Lemma not_delete o attr : eq_str "Delete" (match assoc attr o with Some x => x | None => VNull end) = true <-> assoc attr o = Some (VStr "Delete").
Proof. rewrite eq_str_spec. destruct (assoc attr o); split; congruence. Qed.
Lemma not_true (b : bool) (P : Prop) : (b = true <-> P) -> (negb b = true <-> ~ P).
Proof. intros H. rewrite <- H. destruct b; cbn; split; congruence. Qed.
Lemma c45_both template : wf template ->
  exists ms, both_match template = Ok ms /\
  forall m, In m ms <-> exists n o, resource template n o /\ ~ of_type o ["AWS::Lambda::Version"; "AWS::Lambda::LayerVersion"] /\
    (keeps o "DeletionPolicy" /\ ~ given o "UpdateReplacePolicy" \/ keeps o "UpdateReplacePolicy" /\ ~ given o "DeletionPolicy") /\
    m = mkRM [PKey "Resources"; PKey n] ("Both UpdateReplacePolicy and DeletionPolicy are needed to protect Resources/" ++ n ++ " from deletion").
Proof.
  intros Hw. unfold both_match.
  apply per_resource with (P := fun n o m => ~ of_type o ["AWS::Lambda::Version"; "AWS::Lambda::LayerVersion"] /\
    (keeps o "DeletionPolicy" /\ ~ given o "UpdateReplacePolicy" \/ keeps o "UpdateReplacePolicy" /\ ~ given o "DeletionPolicy") /\
    m = mkRM [PKey "Resources"; PKey n] ("Both UpdateReplacePolicy and DeletionPolicy are needed to protect Resources/" ++ n ++ " from deletion")); [exact Hw|].
  intros n o [_ [t [Et _]]]. unfold both_one. cbn [fst snd vget bind]. rewrite Et.
  change [VStr "AWS::Lambda::Version"; VStr "AWS::Lambda::LayerVersion"] with (map VStr ["AWS::Lambda::Version"; "AWS::Lambda::LayerVersion"]).
  destruct (py_in t (map VStr ["AWS::Lambda::Version"; "AWS::Lambda::LayerVersion"])) eqn:E.
  - apply (py_in_type t _ o Et) in E. exists []. split; [reflexivity|]. intros m. split; [intros [] | tauto].
  - apply (py_in_type_not t _ o Et) in E. eexists. split; [reflexivity|]. intros m. rewrite one_in, orb_true_iff, !andb_true_iff.
    rewrite !given_spec, !(not_true _ _ (not_delete o _)), !(not_true _ _ (given_spec o _)). unfold keeps.
    change (joined [PKey "Resources"; PKey n]) with ("Resources/" ++ n). rewrite str_app_assoc. tauto.
Qed.
Lemma c45_stateful template : wf template ->
  exists ms, stateful_match template = Ok ms /\
  forall m, In m ms <-> exists n o, resource template n o /\ of_type o stateful_types /\ ~ (given o "DeletionPolicy" /\ given o "UpdateReplacePolicy") /\
    m = mkRM [PKey "Resources"; PKey n] ("The default action when replacing/removing a resource is to delete it. Set explicit values for UpdateReplacePolicy / DeletionPolicy on potentially stateful resource: Resources/" ++ n).
Proof.
  intros Hw. unfold stateful_match.
  apply per_resource with (P := fun n o m => of_type o stateful_types /\ ~ (given o "DeletionPolicy" /\ given o "UpdateReplacePolicy") /\
    m = mkRM [PKey "Resources"; PKey n] ("The default action when replacing/removing a resource is to delete it. Set explicit values for UpdateReplacePolicy / DeletionPolicy on potentially stateful resource: Resources/" ++ n)); [exact Hw|].
  intros n o [_ [t [Et _]]]. unfold stateful_one. cbn [fst snd vget bind]. rewrite Et. change likely_stateful with stateful_types.
  destruct (py_in t (map VStr stateful_types)) eqn:E.
  - apply (py_in_type t _ o Et) in E. eexists. split; [reflexivity|]. intros m. rewrite one_in, <- negb_andb, <- !given_spec.
    change (joined [PKey "Resources"; PKey n]) with ("Resources/" ++ n).
    destruct (truthy (match assoc "DeletionPolicy" o with Some x => x | None => VNull end)), (truthy (match assoc "UpdateReplacePolicy" o with Some x => x | None => VNull end)); cbn; intuition congruence.
  - apply (py_in_type_not t _ o Et) in E. exists []. split; [reflexivity|]. intros m. split; [intros [] | tauto].
Qed.

(** * C46 *)
Lemma c46_names template : wf template -> (forall d v, template = VDict d -> assoc "Parameters" d = Some v -> exists ps, v = VDict ps) ->
  exists ms, unique_names_match template = Ok ms /\
  forall m, In m ms <-> exists n o d ps, resource template n o /\ template = VDict d /\ assoc "Parameters" d = Some (VDict ps) /\ In n (map fst ps) /\
    m = mkRM [PKey "Resources"; PKey n] ("Resources and Parameters must not share name: " ++ n).
Proof.
  intros Hw Hp. unfold unique_names_match.
  destruct (per_resource template (fun nx =>
    do ps <- vget_def "Parameters" (VDict []) template;
    do b <- py_member (VStr (fst nx)) ps;
    Ok (if b then [mkRM [PKey "Resources"; PKey (fst nx)] ("Resources and Parameters must not share name: " ++ fst nx)] else []))
    (fun n o m => exists d ps, template = VDict d /\ assoc "Parameters" d = Some (VDict ps) /\ In n (map fst ps) /\
      m = mkRM [PKey "Resources"; PKey n] ("Resources and Parameters must not share name: " ++ n)) Hw) as [ms [E H]].
  { intros n o [[d [s [-> _]]] _]. cbn [vget_def bind fst]. destruct (assoc "Parameters" d) as [v|] eqn:Ev.
    - destruct (Hp d v eq_refl Ev) as [ps ->]. cbn [py_member bind]. eexists. split; [reflexivity|]. intros m. rewrite one_in, mem_assoc_in. split.
      + intros [H ->]. exists d, ps. auto.
      + intros [d' [ps' [[= <-] [E [H ->]]]]]. rewrite Ev in E. injection E as <-. auto.
    - exists []. split; [reflexivity|]. intros m. split; [intros [] | intros [d' [ps' [[= <-] [E _]]]]; congruence]. }
  exists ms. split; [exact E|]. intros m. rewrite H. split; [intros [n [o [Hr [d [ps Hd]]]]]; exists n, o, d, ps; tauto | intros [n [o [d [ps [Hr Hd]]]]]; exists n, o; split; [exact Hr | eauto]].
Qed.
Lemma first_serverless_spec rs : (forall n x, In (n, x) rs -> exists o, x = VDict o) ->
  (exists n o t rest, In (n, VDict o) rs /\ assoc "Type" o = Some (VStr t) /\ t = "AWS::Serverless::" ++ rest /\
     first_serverless rs = [mkRM [PKey "Transform"] ("Serverless Transform required for Type " ++ t ++ " for resource " ++ n)]) \/
  first_serverless rs = [] /\ forall n o t rest, In (n, VDict o) rs -> assoc "Type" o = Some (VStr t) -> t <> "AWS::Serverless::" ++ rest.
Proof.
  induction rs as [|[n x] rs IH]; intros Ho.
  - right. split; [reflexivity|]. intros n o t rest [].
  - destruct (Ho n x (or_introl eq_refl)) as [o ->]. cbn [first_serverless dict_of].
    assert (Hskip : (forall t rest, assoc "Type" o = Some (VStr t) -> t <> "AWS::Serverless::" ++ rest) ->
      (exists n' o' t rest, In (n', VDict o') ((n, VDict o) :: rs) /\ assoc "Type" o' = Some (VStr t) /\ t = "AWS::Serverless::" ++ rest /\
         first_serverless rs = [mkRM [PKey "Transform"] ("Serverless Transform required for Type " ++ t ++ " for resource " ++ n')]) \/
      first_serverless rs = [] /\ forall n' o' t rest, In (n', VDict o') ((n, VDict o) :: rs) -> assoc "Type" o' = Some (VStr t) -> t <> "AWS::Serverless::" ++ rest).
    { intros Hn. destruct IH as [[n' [o' [t [rest [Hi H]]]]]|[E H]].
      - intros n' x' Hi. apply (Ho n' x'). now right.
      - left. exists n', o', t, rest. split; [now right | exact H].
      - right. split; [exact E|]. intros n' o' t rest [[= <- <-]|Hi]; [now apply Hn | now apply (H n' o')]. }
    destruct (assoc "Type" o) as [[|b|z|q|s|l|d]|] eqn:Et; try (apply Hskip; intros t rest H; discriminate).
    destruct (starts_with "AWS::Serverless::" s) eqn:Es.
    + apply starts_rest in Es as [rest ->]. left. exists n, o, ("AWS::Serverless::" ++ rest), rest. split; [now left|]. auto.
    + apply starts_not in Es. apply Hskip. intros t rest [= <-] E. apply Es. eauto.
Qed.
Lemma c46_serverless template : wf template -> (exists d, template = VDict d) ->
  exists ms, serverless_transform_match template = Ok ms /\
    (ms = [] <-> serverless template \/ forall n t, ~ serverless_resource template n t) /\
    forall m, In m ms -> ms = [m] /\ exists n t, serverless_resource template n t /\
      m = mkRM [PKey "Transform"] ("Serverless Transform required for Type " ++ t ++ " for resource " ++ n).
Proof.
  intros Hw [d Ed]. unfold serverless_transform_match. subst template. cbn [vget_def bind]. eexists. split; [reflexivity|].
  remember (match assoc "Transform" d with Some x => x | None => VList [] end) as tr eqn:Etr.
  set (template := VDict d) in *.
  assert (Hs : existsb (eq_str "AWS::Serverless-2016-10-31") (match tr with VList l => l | x => [x] end) = true <-> serverless template).
  { rewrite eq_str_in. unfold serverless, template. subst tr. split.
    - intros H. exists d. split; [reflexivity|]. destruct (assoc "Transform" d) as [[|b|z|q|s|l|o]|]; try (destruct H as [H|[]]; discriminate); [left; destruct H as [[= ->]|[]]; reflexivity | right; eauto | destruct H].
    - intros [d' [[= <-] [H|[l [H Hi]]]]]; rewrite H; [now left | exact Hi]. }
  assert (Hres : forall n o, In (n, VDict o) (get_resources template) <-> resource template n o).
  { intros n o. rewrite resource_in by exact Hw. split; [intros [o' [[= <-] H]]; exact H | eauto]. }
  assert (Hr : forall n t, serverless_resource template n t <-> exists o rest, In (n, VDict o) (get_resources template) /\ assoc "Type" o = Some (VStr t) /\ t = "AWS::Serverless::" ++ rest).
  { intros n t. split.
    - intros [o [rest [H1 [H2 H3]]]]. exists o, rest. split; [apply Hres; split; [exact H1 | exists (VStr t); split; [exact H2 | discriminate]] | auto].
    - intros [o [rest [H1 [H2 H3]]]]. apply Hres in H1 as [H1 _]. exists o, rest. auto. }
  destruct (existsb (eq_str "AWS::Serverless-2016-10-31") (match tr with VList l => l | x => [x] end)).
  - split; [split; [intros _; left; now apply Hs | reflexivity] | intros m []].
  - assert (Hn : ~ serverless template) by (rewrite <- Hs; discriminate). clear Hs.
    destruct (first_serverless_spec (get_resources template)) as [[n [o [t [rest [Hi [Ht [Et E]]]]]]]|[E H]].
    + intros n x Hi. apply resource_in in Hi as [o [-> _]]; eauto.
    + rewrite E. split; [split; [discriminate | intros [H|H]; [contradiction | exfalso; apply (H n t); apply Hr; eauto]]|].
      intros m [<-|[]]. split; [reflexivity|]. exists n, t. split; [apply Hr; eauto | reflexivity].
    + rewrite E. split; [|intros m []]. split; [intros _; right; intros n t Hx; apply Hr in Hx as [o [rest [H1 [H2 H3]]]]; exact (H n o t rest H1 H2 H3) | reflexivity].
Qed.

(** * C38 *)
Definition depends_loop (chk : string -> val -> path -> res (list rulematch)) (nx : string * val) : res (list rulematch) :=
  do depends_ons <- vget "DependsOn" (snd nx);
  let p := [PKey "Resources"; PKey (fst nx); PKey "DependsOn"] in
  if truthy depends_ons then
    match depends_ons with
    | VList l => concat_res (fun iv => chk (fst nx) (snd iv) (p ++ [PIdx (fst iv)])%list) (enum l)
    | _ => chk (fst nx) depends_ons p
    end
  else Ok [].
Lemma resource_fun template n o o' : resource template n o -> resource template n o' -> o = o'.
Proof. intros [[d [s [-> [H1 H2]]]] _] [[d' [s' [[= <-] [H1' H2']]]] _]. rewrite H1 in H1'. injection H1' as <-. congruence. Qed.
Lemma depends_loop_spec template chk (P : string -> path -> val -> rulematch -> Prop) : wf template -> depends_given template ->
  (forall n p v, depends_entry template n p v -> exists ms, chk n v p = Ok ms /\ forall m, In m ms <-> P n p v m) ->
  exists ms, concat_res (depends_loop chk) (get_resources template) = Ok ms /\
  forall m, In m ms <-> exists n p v, depends_entry template n p v /\ P n p v m.
Proof.
  intros Hw Hg Hc.
  destruct (per_resource template (depends_loop chk) (fun n o m => exists p v, depends_entry template n p v /\ P n p v m) Hw) as [ms [E H]].
  2: { exists ms. split; [exact E|]. intros m. rewrite H. split.
       - intros [n [o [_ [p [v Hx]]]]]. eauto.
       - intros [n [p [v [He Hp]]]]. assert (Hr : exists o, resource template n o) by (inversion He; eauto). destruct Hr as [o Hr]. exists n, o. eauto. }
  intros n o Hr. unfold depends_loop. cbn [fst snd vget bind]. destruct (assoc "DependsOn" o) as [v|] eqn:Ed.
  2: { exists []. split; [reflexivity|]. intros m. split; [intros []|]. intros [p [v [He _]]].
       inversion He as [o' v' Hr' Ed' Hl E1 E2|o' l i v' Hr' Ed' Hi E1 E2]; subst; rewrite (resource_fun _ _ _ _ Hr' Hr) in Ed'; congruence. }
  rewrite (proj2 (truthy_not v) (Hg n o v Hr Ed)).
  assert (Hone : (forall l, v <> VList l) -> exists ms, chk n v [PKey "Resources"; PKey n; PKey "DependsOn"] = Ok ms /\ forall m, In m ms <-> exists p w, depends_entry template n p w /\ P n p w m).
  { intros Hl. destruct (Hc n _ v (de_one _ _ o v Hr Ed Hl)) as [ms [E H]]. exists ms. split; [exact E|]. intros m. rewrite H. split.
    - intros Hp. do 2 eexists. split; [exact (de_one _ _ o v Hr Ed Hl) | exact Hp].
    - intros [p [w [He Hp]]]. inversion He as [o' v' Hr' Ed' Hl' E1 E2|o' l i v' Hr' Ed' Hi E1 E2]; subst; rewrite (resource_fun _ _ _ _ Hr' Hr), Ed in Ed'; injection Ed' as ->; [exact Hp | exfalso; now apply (Hl l)]. }
  destruct v as [|b|z|q|s|l|d]; try (apply Hone; discriminate). clear Hone.
  assert (Hit : forall i v, In (i, v) (enum l) -> depends_entry template n [PKey "Resources"; PKey n; PKey "DependsOn"; PIdx i] v).
  { intros i v Hi. apply enum_nth in Hi. exact (de_item _ _ o l i v Hr Ed Hi). }
  destruct (concat_res_total (fun iv => chk n (snd iv) ([PKey "Resources"; PKey n; PKey "DependsOn"] ++ [PIdx (fst iv)])%list) (enum l)) as [ms E].
  { intros [i v] Hi. destruct (Hc n _ v (Hit i v Hi)) as [ms [E _]]. exists ms. exact E. }
  exists ms. split; [exact E|]. intros m. rewrite (concat_res_in _ _ _ m E). split.
  - intros [[i v] [ys [Hi [Ey Hy]]]]. cbn [fst snd app] in Ey. destruct (Hc n _ v (Hit i v Hi)) as [ms' [E' H]]. rewrite E' in Ey. injection Ey as <-.
    do 2 eexists. split; [exact (Hit i v Hi) | now apply H].
  - intros [p [v [He Hp]]]. inversion He as [o' v' Hr' Ed' Hl E1 E2|o' l' i v' Hr' Ed' Hi E1 E2]; subst; rewrite (resource_fun _ _ _ _ Hr' Hr), Ed in Ed'; injection Ed' as <-.
    + exfalso. now apply (Hl l).
    + destruct (Hc n _ v He) as [ms' [E' H]]. exists (i, v), ms'. split; [now apply enum_nth|]. split; [exact E' | now apply H].
Qed.
Lemma in_resources template s : wf template -> mem_assoc s (get_resources template) = true <-> exists o, resource template s o.
Proof.
  intros Hw. rewrite mem_assoc_in, in_map_iff. split.
  - intros [[k x] [E Hi]]. cbn in E. subst k. apply resource_in in Hi as [o [_ H]]; eauto.
  - intros [o H]. exists (s, VDict o). split; [reflexivity|]. apply resource_in; eauto.
Qed.
Lemma c38_depends order c template : wf template -> depends_given template ->
  (forall n p s, depends_entry template n p (VStr s) -> (exists o, resource template s o) -> exists scs, is_resource_available order c template p s = Ok scs) ->
  exists ms, depends_on_match order c template = Ok ms /\
  forall m, In m ms <-> exists n p v, depends_entry template n p v /\
    (depends_fault template p v (rm_msg m) /\ rm_path m = p \/
     exists s scs sc, v = VStr s /\ (exists o, resource template s o) /\ is_resource_available order c template p s = Ok scs /\ In sc scs /\ sc <> [] /\
       m = mkRM p ("DependsOn " ++ s ++ " may not exist when condition " ++ scenario_text (sort_scenario sc) ++ " at " ++ shown p)).
Proof.
  intros Hw Hg Ha. unfold depends_on_match.
  destruct (depends_loop_spec template (fun _ v p => depends_check order c template v p) (fun n p v m => depends_fault template p v (rm_msg m) /\ rm_path m = p \/
     exists s scs sc, v = VStr s /\ (exists o, resource template s o) /\ is_resource_available order c template p s = Ok scs /\ In sc scs /\ sc <> [] /\
       m = mkRM p ("DependsOn " ++ s ++ " may not exist when condition " ++ scenario_text (sort_scenario sc) ++ " at " ++ shown p)) Hw Hg) as [ms H].
  2: { exists ms. exact H. }
  intros n p v He.
  assert (Hbad : (forall s, v <> VStr s) -> exists ms, Ok [mkRM p ("DependsOn values should be of string at " ++ path_text p)] = Ok ms /\ forall m, In m ms <->
      depends_fault template p v (rm_msg m) /\ rm_path m = p \/
     exists s scs sc, v = VStr s /\ (exists o, resource template s o) /\ is_resource_available order c template p s = Ok scs /\ In sc scs /\ sc <> [] /\
       m = mkRM p ("DependsOn " ++ s ++ " may not exist when condition " ++ scenario_text (sort_scenario sc) ++ " at " ++ shown p)).
  { intros Hs. eexists. split; [reflexivity|]. intros [q msg]. cbn [rm_msg rm_path]. split.
    - intros [[= <- <-]|[]]. left. split; [now constructor | reflexivity].
    - intros [[H ->]|[s [scs [sc [-> _]]]]]; [|exfalso; now apply (Hs s)]. inversion H as [v' Hv E1 E2|s Hn E1 E2]; subst; [now left | exfalso; now apply (Hs s)]. }
  destruct v as [|b|z|q|s|l|d]; try (apply Hbad; discriminate). clear Hbad. cbn [depends_check].
  destruct (mem_assoc s (get_resources template)) eqn:Em.
  - apply in_resources in Em; [|exact Hw]. destruct (Ha n p s He Em) as [scs Es]. rewrite Es. cbn [bind]. eexists. split; [reflexivity|]. intros m. rewrite in_flat_map. split.
    + intros [sc [Hi Hm]]. right. exists s, scs, sc. destruct sc as [|x sc]; [destruct Hm|]. destruct Hm as [<-|[]]. repeat split; auto; discriminate.
    + intros [[H _]|[s' [scs' [sc [[= <-] [_ [Es' [Hi [Hn ->]]]]]]]]].
      * inversion H as [v' Hv E1 E2|s' Hn E1 E2]; subst; [exfalso; now apply (Hv s) | destruct Em as [o Em]; exfalso; now apply (Hn o)].
      * rewrite Es in Es'. injection Es' as <-. exists sc. split; [exact Hi|]. destruct sc; [congruence | now left].
  - assert (Hn : forall o, ~ resource template s o) by (intros o Ho; assert (mem_assoc s (get_resources template) = true) by (apply in_resources; eauto); congruence).
    eexists. split; [reflexivity|]. intros [q msg]. cbn [rm_msg rm_path]. split.
    + intros [[= <- <-]|[]]. left. split; [now constructor | reflexivity].
    + intros [[H ->]|[s' [scs' [sc [[= <-] [[o Ho] _]]]]]]; [|exfalso; now apply (Hn o)]. inversion H as [v' Hv E1 E2|s' Hs E1 E2]; subst; [exfalso; now apply (Hv s) | now left].
Qed.
Lemma in_references template globals f n q v : wf template -> wf globals ->
  In (q, v) (references_of template globals f n) <-> (exists p, q = (p ++ [PKey f])%list /\ occurs f template globals p v) /\ below n q.
Proof.
  intros Hw Hg. unfold references_of. rewrite filter_In, in_search_deep by assumption. cbn [fst].
  assert (E : match q with PKey k :: PKey r :: _ => String.eqb k "Resources" && String.eqb r n | _ => false end = true <-> below n q).
  { unfold below. destruct q as [|[k|i] [|[r|j] q]]; try (split; [discriminate | intros [x H]; discriminate]).
    rewrite andb_true_iff, !String.eqb_eq. split; [intros [-> ->]; eauto | intros [x [= -> -> _]]; auto]. }
  rewrite E. reflexivity.
Qed.
Lemma py_eq_str_r v s : py_eq v (VStr s) = true <-> v = VStr s.
Proof. destruct v as [|[]| | |t| |]; cbn; split; try discriminate; try congruence; [intros H; apply String.eqb_eq in H; now subst | intros [= ->]; apply String.eqb_refl]. Qed.
Lemma c38_obsolete show template globals : wf template -> wf globals -> depends_given template ->
  (forall n p v, depends_entry template n p v -> exists s, v = VStr s) ->
  (forall p v, occurs "Fn::GetAtt" template globals p v -> exists s rest, v = VList (VStr s :: rest)) ->
  exists ms, obsolete_match show template globals = Ok ms /\
  forall m, In m ms <-> exists n p s why q, depends_entry template n p (VStr s) /\ refers template globals n s why q /\
    m = mkRM p ("Obsolete DependsOn on resource (" ++ s ++ "), dependency already enforced by a """ ++ why ++ """ at " ++ shown q).
Proof.
  intros Hw Hg Hd Ht Hga. unfold obsolete_match.
  destruct (depends_loop_spec template (obsolete_check show template globals) (fun n p v m => exists s why q, v = VStr s /\ refers template globals n s why q /\
    m = mkRM p ("Obsolete DependsOn on resource (" ++ s ++ "), dependency already enforced by a """ ++ why ++ """ at " ++ shown q)) Hw Hd) as [ms [E H]].
  2: { exists ms. split; [exact E|]. intros m. rewrite H. split.
       - intros [n [p [v [He [s [why [q [-> Hm]]]]]]]]. exists n, p, s, why, q. auto.
       - intros [n [p [s [why [q [He Hm]]]]]]. exists n, p, (VStr s). split; [exact He|]. exists s, why, q. auto. }
  intros n p v He. destruct (Ht n p v He) as [s ->]. unfold obsolete_check.
  assert (Hfirst : forall q v, In (q, v) (references_of template globals "Fn::GetAtt" n) -> exists t rest, v = VList (VStr t :: rest)).
  { intros q v Hi. apply in_references in Hi as [[p' [_ Ho]] _]; [|assumption..]. eauto. }
  destruct (concat_res_total (fun pv => do x <- first_item (snd pv);
    Ok (if py_eq x (VStr s) then [mkRM p ("Obsolete DependsOn on resource (" ++ py_str show (VStr s) ++ "), dependency already enforced by a ""Fn:GetAtt"" at " ++ joined (fst pv))] else []))
    (references_of template globals "Fn::GetAtt" n)) as [b Eb].
  { intros [q v] Hi. destruct (Hfirst q v Hi) as [t [rest ->]]. eexists. reflexivity. }
  rewrite Eb. cbn [bind]. eexists. split; [reflexivity|]. intros m. rewrite in_app_iff, in_flat_map, (concat_res_in _ _ _ m Eb). split.
  - intros [[[q v] [Hi Hm]]|[[q v] [ys [Hi [Ey Hm]]]]].
    + cbn [fst snd] in Hm. apply one_in in Hm as [Hv ->]. apply py_eq_str_r in Hv. subst v. apply in_references in Hi as [[p' [-> Ho]] Hb]; [|assumption..].
      exists s, "Ref", (p' ++ [PKey "Ref"])%list. split; [reflexivity|]. split; [now constructor | reflexivity].
    + destruct (Hfirst q v Hi) as [t [rest ->]]. cbn [fst snd first_item bind] in Ey. injection Ey as <-. apply one_in in Hm as [Hv ->]. apply String.eqb_eq in Hv. subst t.
      apply in_references in Hi as [[p' [-> Ho]] Hb]; [|assumption..]. exists s, "Fn:GetAtt", (p' ++ [PKey "Fn::GetAtt"])%list. split; [reflexivity|]. split; [econstructor; eassumption | reflexivity].
  - intros [s' [why [q [[= <-] [Hr ->]]]]]. inversion Hr as [p' Ho Hb E1 E2|p' rest Ho Hb E1 E2]; subst.
    + left. exists ((p' ++ [PKey "Ref"])%list, VStr s). split; [apply in_references; eauto|]. cbn [fst snd]. apply one_in. split; [now apply py_eq_str_r | reflexivity].
    + right. exists ((p' ++ [PKey "Fn::GetAtt"])%list, VList (VStr s :: rest)). eexists. split; [apply in_references; eauto|]. cbn [fst snd first_item bind]. split; [reflexivity|].
      apply one_in. split; [now apply py_eq_str_r | reflexivity].
Qed.

(** * C47 *)
Lemma no_echo_spec template ps : section template "Parameters" ps -> NoDup (map fst ps) -> (forall n x, In (n, x) ps -> exists def, x = VDict def) ->
  exists names, no_echo_params template = Ok names /\ forall n, In n names <-> hidden template n.
Proof.
  intros Hs Hnd Ho. unfold no_echo_params. rewrite (get_parameters_section _ _ Hs). cbn [bind items_of].
  destruct Hs as [d [-> Ed]].
  destruct (concat_res_total (fun nx : string * val => do noecho <- vget_def "NoEcho" (VBool false) (snd nx); Ok (if bool_compare noecho (VBool true) then [fst nx] else [])) ps) as [names E].
  { intros [n x] Hi. destruct (Ho n x Hi) as [def ->]. eexists. reflexivity. }
  exists names. split; [exact E|]. intros n. rewrite (concat_res_in _ _ _ n E).
  assert (Hb : forall def, bool_compare (match assoc "NoEcho" def with Some x => x | None => VBool false end) (VBool true) = true <->
     assoc "NoEcho" def = Some (VBool true) \/ exists s, assoc "NoEcho" def = Some (VStr s) /\ spells_true s).
  { intros def. destruct (assoc "NoEcho" def) as [[|b|z|q|s|l|e]|]; try (split; [discriminate | intros [H|[s [H _]]]; discriminate]).
    - rewrite c36_bool. split; [intros ->; now left | intros [H|[s [H _]]]; congruence].
    - rewrite c36_string. split; [intros H; right; exists s; split; [reflexivity | now apply H] | intros [H|[s' [[= <-] H]]]; [discriminate | tauto]]. }
  split.
  - intros [[k x] [ys [Hi [Ey Hy]]]]. destruct (Ho k x Hi) as [def ->]. cbn [vget_def snd fst bind] in Ey. injection Ey as <-.
    destruct (bool_compare _ _) eqn:Eb; [|destruct Hy]. destruct Hy as [<-|[]]. apply Hb in Eb. exists def. split; [|exact Eb]. exists d, ps. split; [reflexivity|]. split; [exact Ed|]. now apply In_assoc.
  - intros [def [[d' [ps' [[= <-] [Ed' Ha]]]] Hn]]. rewrite Ed in Ed'. injection Ed' as <-. apply assoc_In in Ha. apply Hb in Hn. exists (n, VDict def). eexists. split; [exact Ha|]. cbn [vget_def snd fst bind].
    rewrite Hn. split; [reflexivity | now left].
Qed.
Lemma in_metadata_spec p : in_metadata p = true <-> exists x q, p = PKey "Resources" :: x :: PKey "Metadata" :: q.
Proof.
  destruct p as [|[k|i] [|x [|[m|j] q]]]; cbn [in_metadata]; try (split; [discriminate | intros [y [r H]]; discriminate]).
  rewrite andb_true_iff, !String.eqb_eq. split; [intros [-> ->]; eauto | intros [y [r [= -> -> -> _]]]; auto].
Qed.
Lemma c47_all template globals ps : wf template -> wf globals -> section template "Parameters" ps ->
  (forall n x, In (n, x) ps -> n <> "" /\ alphanumeric n /\ exists def, x = VDict def) ->
  (forall p s, occurs "Fn::Sub" template globals p (VStr s) -> closed s) ->
  exists ms, no_echo_match template globals = Ok ms /\
  forall m, In m ms <-> exists n, hidden template n /\ rm_msg m = "As the resource ""metadata"" section contains reference to a ""NoEcho"" parameter " ++ n ++ ", CloudFormation will display the parameter value in plaintext" /\
    exists p, (occurs "Ref" template globals p (VStr n) /\ in_resource_metadata (p ++ [PKey "Ref"])%list /\ rm_path m = (p ++ [PKey "Ref"; PKey n])%list) \/
              (exists s, occurs "Fn::Sub" template globals p (VStr s) /\ placeholder_in n s /\ in_resource_metadata (p ++ [PKey "Fn::Sub"])%list /\ rm_path m = (p ++ [PKey "Fn::Sub"])%list).
Proof.
  intros Hw Hg Hs Hp Hc. destruct (no_echo_spec template ps Hs) as [names [E Hn]].
  { destruct Hs as [d [-> Ed]]. apply wf_dict in Hw as [_ Hw]. apply assoc_In in Ed. apply Hw in Ed. now apply wf_dict in Ed. }
  { intros n x Hi. apply (Hp n x Hi). }
  assert (Hname : forall n, hidden template n -> n <> "" /\ alphanumeric n).
  { intros n [o [[d [s [-> [E1 E2]]]] _]]. destruct Hs as [d' [[= <-] Ed]]. rewrite Ed in E1. injection E1 as <-. apply assoc_In in E2. destruct (Hp n _ E2) as [H1 [H2 _]]. auto. }
  unfold no_echo_match. rewrite E. cbn [bind]. eexists. split; [reflexivity|]. intros [q msg]. cbn [rm_path rm_msg]. rewrite in_app_iff. unfold no_echo_refs, no_echo_subs. rewrite !in_flat_map. split.
  - intros [[[r v] [Hi Hm]]|[[r v] [Hi Hm]]]; apply in_search_deep in Hi as [p [-> Ho]]; try assumption; cbn [fst snd] in Hm; destruct v as [|b|z|x|s|l|e]; try (exfalso; exact Hm).
    + apply one_in in Hm as [Hm [= -> ->]]. apply andb_prop in Hm as [H1 H2]. apply smem_in in H1. apply Hn in H1. exists s. split; [exact H1|]. split; [reflexivity|]. exists p. left.
      split; [exact Ho|]. split; [now apply in_metadata_spec|]. now rewrite <- app_assoc.
    + apply in_flat_map in Hm as [n [Hi Hm]]. apply one_in in Hm as [Hm [= -> ->]]. apply andb_prop in Hm as [H1 H2]. apply smem_in in H1. apply Hn in H1. exists n. split; [exact H1|]. split; [reflexivity|]. exists p. right.
      exists s. split; [exact Ho|]. split; [now apply sub_parameters_sound|]. split; [now apply in_metadata_spec | reflexivity].
  - intros [n [Hh [-> [p [[Ho [Hm ->]]|[s [Ho [Hpl [Hm ->]]]]]]]]].
    + left. exists ((p ++ [PKey "Ref"])%list, VStr n). split; [apply in_search_deep; eauto|]. cbn [fst snd]. apply one_in. split; [|now rewrite <- app_assoc].
      apply andb_true_intro. split; [now apply smem_in, Hn | now apply in_metadata_spec].
    + right. exists ((p ++ [PKey "Fn::Sub"])%list, VStr s). split; [apply in_search_deep; eauto|]. cbn [fst snd]. apply in_flat_map. exists n.
      destruct (Hname n Hh) as [Hne Ha]. split; [apply sub_parameters_spec; eauto|]. apply one_in. split; [|reflexivity].
      apply andb_true_intro. split; [now apply smem_in, Hn | now apply in_metadata_spec].
Qed.

(** * C48 *)
Lemma in_get_modules show template : wf template ->
  (forall n o, resource template n o -> exists t, assoc "Type" o = Some (VStr t)) -> (exists rs, section template "Resources" rs) ->
  exists names, get_modules show template = Ok names /\ forall n, In n names <-> exists o, module template n o.
Proof.
  intros Hw Ht [rs [d [-> Er]]]. unfold get_modules. cbn [vget_def]. rewrite Er. cbn [bind].
  assert (Hnd : NoDup (map fst rs)).
  { apply wf_dict in Hw as [_ Hw]. apply assoc_In in Er. apply Hw in Er. now apply wf_dict in Er. }
  assert (Hiff : forall n, In n (flat_map (fun nx => match snd nx with
                            | VDict o => match assoc "Type" o with
                                         | Some VNull | None => []
                                         | Some t => if ends_with "::MODULE" (py_str show t) then [fst nx] else []
                                         end
                            | _ => []
                            end) rs) <-> exists o, module (VDict d) n o).
  { intros n. rewrite in_flat_map. split.
    - intros [[k x] [Hi Hn]]. cbn [fst snd] in Hn. destruct x as [|b|z|q|s|l|o]; try (exfalso; exact Hn).
      assert (Hr : forall t, assoc "Type" o = Some t -> t <> VNull -> resource (VDict d) k o).
      { intros t E Hnn. split; [exists d, rs; repeat split; auto; now apply In_assoc | eauto]. }
      destruct (assoc "Type" o) as [t|] eqn:Et; [|destruct Hn].
      assert (Hnn : t <> VNull) by (destruct t; [destruct Hn | discriminate..]).
      destruct (Ht k o (Hr t eq_refl Hnn)) as [s Es]. rewrite Et in Es. injection Es as ->.
      change (py_str show (VStr s)) with s in Hn. destruct (ends_with "::MODULE" s) eqn:Ee; [|destruct Hn]. destruct Hn as [<-|[]].
      apply ends_with_iff in Ee as [u ->]. exists o. split; [eapply Hr; eauto | eauto].
    - intros [o [[[d' [s [[= <-] [E1 E2]]]] _] [t Et]]]. rewrite Er in E1. injection E1 as <-. exists (n, VDict o). split; [now apply assoc_In|]. cbn [fst snd]. rewrite Et.
      change (py_str show (VStr (t ++ "::MODULE"))) with (t ++ "::MODULE").
      assert (E : ends_with "::MODULE" (t ++ "::MODULE") = true) by (apply ends_with_iff; eauto). rewrite E. now left. }
  destruct rs as [|x rs]; [|eexists; split; [reflexivity | exact Hiff]].
  exists []. split; [reflexivity | exact Hiff].
Qed.
Lemma c48_all show template globals : wf template -> wf globals ->
  (forall n o, resource template n o -> exists t, assoc "Type" o = Some (VStr t)) ->
  (forall n o k v s, resource template n o -> k <> "Type" -> assoc k o = Some v -> py_str show v <> s ++ "::MODULE") ->
  (forall n o v, module template n o -> assoc "Properties" o = Some v -> exists ps, v = VDict ps) ->
  (forall v, ~ occurs "AWS::CloudFormation::Module" template globals [] v) ->
  exists ms, modules_match show template globals = Ok ms /\
  forall m, In m ms <-> module_fault template globals (rm_path m) (rm_msg m).
Proof.
  intros Hw Hg Ht Hk Hp Hroot. unfold modules_match.
  assert (Hm : forall n o, resource template n o -> existsb (fun kv => ends_with "::MODULE" (py_str show (snd kv))) o = true <-> module template n o).
  { intros n o Hr. assert (Hnd : NoDup (map fst o)).
    { destruct Hr as [[d [s [-> [E1 E2]]]] _]. apply wf_dict in Hw as [_ Hw]. apply assoc_In in E1. apply Hw in E1. apply wf_dict in E1 as [_ E1]. apply assoc_In in E2. apply E1 in E2. now apply wf_dict in E2. }
    rewrite existsb_exists. split.
    - intros [[k v] [Hi E]]. cbn [snd] in E. apply ends_with_iff in E as [u E]. apply (In_assoc _ _ _ Hnd) in Hi.
      destruct (String.eqb_spec k "Type") as [->|Hne]; [|exfalso; exact (Hk n o k v u Hr Hne Hi E)]. destruct (Ht n o Hr) as [t Et]. rewrite Hi in Et. injection Et as ->.
      change (py_str show (VStr t)) with t in E. subst t. split; eauto.
    - intros [_ [t Et]]. exists ("Type", VStr (t ++ "::MODULE")). split; [now apply assoc_In|]. cbn [snd]. change (py_str show (VStr (t ++ "::MODULE"))) with (t ++ "::MODULE"). apply ends_with_iff. eauto. }
  assert (Hkeys : (exists n o, resource template n o) -> exists a, metadata_keys show template globals = Ok a /\ forall m, In m a <-> exists n o p v r, module template n o /\ occurs "AWS::CloudFormation::Module" template globals p v /\
    (p ++ [PKey "AWS::CloudFormation::Module"])%list = PKey "Resources" :: PKey n :: PKey "Metadata" :: r /\ m = mkRM (p ++ [PKey "AWS::CloudFormation::Module"])%list "The Metadata key AWS::CloudFormation::Module is reserved").
  { intros [n0 [o0 H0]]. destruct (in_get_modules show template Hw Ht) as [names [En Hn]].
    { destruct H0 as [[d [s [-> [E1 _]]]] _]. exists s, d. auto. }
    unfold metadata_keys. rewrite En. cbn [bind].
    set (F := fun pv : path * val => match fst pv with
      | [_] => match snd pv with VList _ | VDict _ => Err ETypeErr | _ => Ok [] end
      | PKey k :: PKey r :: PKey m :: _ => Ok (if smem r names && String.eqb k "Resources" && String.eqb m "Metadata" then [mkRM (fst pv) "The Metadata key AWS::CloudFormation::Module is reserved"] else [])
      | _ => Ok [] end).
    assert (HF : forall p v, occurs module_key template globals p v -> exists ys, F ((p ++ [PKey module_key])%list, v) = Ok ys /\ forall m, In m ys <-> exists n o r, module template n o /\
       (p ++ [PKey module_key])%list = PKey "Resources" :: PKey n :: PKey "Metadata" :: r /\ m = mkRM (p ++ [PKey module_key])%list "The Metadata key AWS::CloudFormation::Module is reserved").
    { intros p v Ho. destruct p as [|x p]; [exfalso; now apply (Hroot v)|]. cbn [app].
      assert (Hex : exists y q, (p ++ [PKey module_key])%list = y :: q) by (destruct p; cbn [app]; eauto). destruct Hex as [y [q ->]]. unfold F. cbn [fst snd].
      destruct x as [k|i]; [|eexists; split; [reflexivity|]; intros m; split; [intros [] | intros [n [o [r [_ [[=] _]]]]]]].
      destruct y as [r|j]; [|eexists; split; [reflexivity|]; intros m; split; [intros [] | intros [n [o [r [_ [[=] _]]]]]]].
      destruct q as [|[mt|j] q]; try (eexists; split; [reflexivity|]; intros m; split; [intros [] | intros [n [o [r' [_ [[=] _]]]]]]).
      eexists; split; [reflexivity|]. intros m. rewrite one_in, !andb_true_iff, !String.eqb_eq, smem_in, Hn. split.
      - intros [[[[o Ho'] ->] ->] ->]. exists r, o, q. auto.
      - intros [n [o [r' [Hmo [[= -> -> -> ->] ->]]]]]. repeat split; eauto. }
    destruct (concat_res_total F (search_deep_keys module_key template globals)) as [a Ea].
    { intros [q v] Hi. apply in_search_deep in Hi as [p [-> Ho]]; [|assumption..]. destruct (HF p v Ho) as [ys [E _]]. eauto. }
    exists a. split; [exact Ea|]. intros m. rewrite (concat_res_in _ _ _ m Ea). split.
    - intros [[q v] [ys [Hi [Ey Hm']]]]. apply in_search_deep in Hi as [p [-> Ho]]; [|assumption..]. destruct (HF p v Ho) as [ys' [E H]]. pose proof (eq_trans (eq_sym E) Ey) as Ex. injection Ex as <-.
      apply H in Hm' as [n [o [r [H1 [H2 H3]]]]]. exists n, o, p, v, r. auto.
    - intros [n [o [p [v [r [H1 [Ho [H2 H3]]]]]]]]. destruct (HF p v Ho) as [ys [E H]]. exists ((p ++ [PKey module_key])%list, v), ys. split; [apply in_search_deep; eauto|]. split; [exact E|].
      apply H. exists n, o, r. auto. }
  destruct (per_resource template (module_one show template globals) (fun n o m => module template n o /\
     ((exists n o p v r, module template n o /\ occurs "AWS::CloudFormation::Module" template globals p v /\
    (p ++ [PKey "AWS::CloudFormation::Module"])%list = PKey "Resources" :: PKey n :: PKey "Metadata" :: r /\ m = mkRM (p ++ [PKey "AWS::CloudFormation::Module"])%list "The Metadata key AWS::CloudFormation::Module is reserved") \/
      (exists ps, assoc "Properties" o = Some (VDict ps) /\ given ps "Tags" /\ m = mkRM [PKey "Resources"; PKey n; PKey "Properties"; PKey "Tags"] "Tags is not permitted within Modules") \/
      (exists k, In k ["CreationPolicy"; "UpdatePolicy"] /\ given o k /\ m = mkRM [PKey "Resources"; PKey n; PKey k] (k ++ " is not permitted within Modules")))) Hw) as [ms [E H]].
  2: { exists ms. split; [exact E|]. intros [q msg]. rewrite H. cbn [rm_path rm_msg]. split.
       - intros [n [o [_ [Hmo [[n' [o' [p [v [r [Hmo' [Ho [Er [= -> ->]]]]]]]]]|[[ps [E1 [E2 [= -> ->]]]]|[k [E1 [E2 [= -> ->]]]]]]]]]]; [eapply mo_key | eapply mo_tags | eapply mo_policy]; eauto.
       - intros Hf. inversion Hf as [n o ps Hmo E1 E2 E3 E4|n o k Hmo E1 E2 E3 E4|n o p v r Hmo Ho E1 E2 E3]; subst; exists n, o; (split; [exact (proj1 Hmo)|]); (split; [exact Hmo|]).
         + right. left. eauto.
         + right. right. eauto.
         + left. exists n, o, p, v, r. auto. }
  intros n o Hr. unfold module_one. cbn [fst snd dict_of]. destruct (existsb _ o) eqn:Ee.
  2: { exists []. split; [reflexivity|]. intros m. split; [intros []|]. intros [Hmo _]. apply (Hm n o Hr) in Hmo. congruence. }
  apply (Hm n o Hr) in Ee. destruct (Hkeys ltac:(eauto)) as [a [Ea Ha]]. rewrite Ea. cbn [bind].
  assert (Hgive : forall (o : list (string * val)) k x, truthy (match assoc k o with Some v => v | None => x end) = true -> truthy x = false -> given o k).
  { intros o' k x H1 H2. destruct (assoc k o') as [v|] eqn:Ek; [|congruence]. exists v. split; [exact Ek | now apply truthy_not]. }
  assert (Hgive' : forall (o : list (string * val)) k x, given o k -> truthy (match assoc k o with Some v => v | None => x end) = true).
  { intros o' k x [v [-> Hv]]. now apply truthy_not. }
  assert (Htags : exists b, module_tags (n, VDict o) = Ok b /\ forall m, In m b <-> exists ps, assoc "Properties" o = Some (VDict ps) /\ given ps "Tags" /\ m = mkRM [PKey "Resources"; PKey n; PKey "Properties"; PKey "Tags"] "Tags is not permitted within Modules").
  { unfold module_tags. cbn [fst snd vget_def bind]. destruct (assoc "Properties" o) as [v|] eqn:Ep.
    - destruct (Hp n o v Ee Ep) as [ps ->]. cbn [vget bind]. eexists. split; [reflexivity|]. intros m. rewrite one_in. split.
      + intros [Hx ->]. exists ps. split; [reflexivity|]. split; [|reflexivity]. eapply Hgive; [exact Hx | reflexivity].
      + intros [ps' [[= <-] [Hx ->]]]. split; [|reflexivity]. now apply Hgive'.
    - cbn [vget bind]. eexists. split; [reflexivity|]. intros m. split; [intros [] | intros [ps [[=] _]]]. }
  destruct Htags as [b [Eb Hb]]. rewrite Eb. cbn [bind].
  assert (Hpol : forall k, exists b, module_policy k (n, VDict o) = Ok b /\ forall m, In m b <-> given o k /\ m = mkRM [PKey "Resources"; PKey n; PKey k] (k ++ " is not permitted within Modules")).
  { intros k. unfold module_policy. cbn [fst snd vget_def bind]. eexists. split; [reflexivity|]. intros m. rewrite one_in. split; intros [Hx ->]; (split; [|reflexivity]); [eapply Hgive; [exact Hx | reflexivity] | now apply Hgive']. }
  destruct (Hpol "CreationPolicy") as [c [Ec Hc]]. destruct (Hpol "UpdatePolicy") as [d [Ed Hd]]. rewrite Ec, Ed. cbn [bind].
  eexists. split; [reflexivity|]. intros m. rewrite !in_app_iff, Ha, Hb, Hc, Hd. split.
  - intros [Hx|[Hx|[Hx|Hx]]]; (split; [exact Ee|]); [left; exact Hx | right; left; exact Hx | right; right..].
    + exists "CreationPolicy". destruct Hx. repeat split; auto. now left.
    + exists "UpdatePolicy". destruct Hx. repeat split; auto. right. now left.
  - intros [_ [Hx|[Hx|[k [[<-|[<-|[]]] Hx]]]]]; auto.
Qed.

(** * C49 *)
Lemma tree_end f v x y p : from_end (tree_of ((p ++ [x; y; PKey f])%list, v)) 4 = Ok (match x with PKey k => VStr k | PIdx i => VInt (Z.of_nat i) end) /\
  from_end (tree_of ((p ++ [x; y; PKey f])%list, v)) 3 = Ok (match y with PKey k => VStr k | PIdx i => VInt (Z.of_nat i) end).
Proof.
  unfold tree_of, from_end. cbn [fst snd]. rewrite map_app. cbn [map]. rewrite <- app_assoc. cbn [app]. rewrite rev_app_distr. cbn [rev app nth_error Nat.pred]. split; reflexivity.
Qed.
Lemma split_two {A} (a b c : A) r : exists p x y, a :: b :: c :: r = (p ++ [x; y])%list.
Proof.
  revert a b c. induction r as [|d r IH]; intros a b c; [exists [a], b, c; reflexivity|]. destruct (IH b c d) as [p [x [y E]]]. exists (a :: p), x, y. now rewrite E.
Qed.
Lemma last_two {A} (p q : list A) x y x' y' : (p ++ [x; y])%list = (q ++ [x'; y'])%list -> x = x' /\ y = y'.
Proof.
  intros E. apply (f_equal (@rev A)) in E. rewrite !rev_app_distr in E. cbn in E. now injection E as -> ->.
Qed.
Lemma last_one {A} (p q : list A) x y y' : (p ++ [x; y])%list = (q ++ [y'])%list -> y = y'.
Proof.
  intros E. apply (f_equal (@rev A)) in E. rewrite !rev_app_distr in E. cbn in E. now injection E as ->.
Qed.
Lemma not_joined_spec f v a b c r : exists nj, not_joined (tree_of (((a :: b :: c :: r) ++ [PKey f])%list, v)) = Ok nj /\ (nj = true <-> ~ consumed (a :: b :: c :: r)).
Proof.
  destruct (split_two a b c r) as [p [x [y E]]]. rewrite E, <- app_assoc. cbn [app]. unfold not_joined. destruct (tree_end f v x y p) as [E4 E3]. rewrite E4. cbn [bind].
  unfold consumed. destruct (eq_str "Fn::Join" _) eqn:Ej.
  - eexists. split; [reflexivity|]. split; [discriminate|]. intros H. exfalso. apply H. left. destruct x as [k|i]; [|discriminate]. apply String.eqb_eq in Ej. subst k. eauto.
  - rewrite E3. cbn [bind]. eexists. split; [reflexivity|]. rewrite negb_true_iff. split.
    + intros Hy [[q [z Hq]]|[q Hq]].
      * apply last_two in Hq as [-> _]. discriminate.
      * apply last_one in Hq. subst y. discriminate.
    + intros H. destruct (py_eq _ _) eqn:Ey; [|reflexivity]. exfalso. apply H. right. destruct y as [k|i]; [discriminate|]. exists (p ++ [x])%list. rewrite <- app_assoc. cbn [app].
      cbn in Ey. assert (i = 1) by (apply Qeq_bool_eq in Ey; unfold Qeq in Ey; cbn in Ey; lia). now subst i.
Qed.
Lemma output_value_spec f v p : f <> "Outputs" -> (forall q, p = PKey "Outputs" :: q -> exists n x r, q = PKey n :: x :: r) ->
  exists b, output_value (tree_of ((p ++ [PKey f])%list, v)) = Ok b /\ (b = true <-> exists n, in_output_value p n).
Proof.
  intros Hf Hp. unfold output_value, tree_of. cbn [fst snd]. destruct p as [|[k|i] q].
  - cbn [app map from_start nth_error bind]. exists false. split; [|split; [discriminate | intros [n [r H]]; discriminate]].
    change (eq_str "Outputs" (VStr f)) with (String.eqb "Outputs" f). destruct (String.eqb_spec "Outputs" f); [congruence | reflexivity].
  - cbn [app map from_start nth_error bind]. change (eq_str "Outputs" (VStr k)) with (String.eqb "Outputs" k). destruct (String.eqb_spec "Outputs" k) as [<-|Hk].
    + destruct (Hp q eq_refl) as [n [x [r ->]]]. cbn [app map nth_error bind]. eexists. split; [reflexivity|]. destruct x as [s|j].
      * change (eq_str "Value" (VStr s)) with (String.eqb "Value" s). rewrite String.eqb_eq. split; [intros <-; exists n, r; reflexivity | intros [n' [r' [= _ -> _]]]; reflexivity].
      * split; [discriminate | intros [n' [r' [=]]]].
    + exists false. split; [reflexivity|]. split; [discriminate | intros [n [r [= -> _]]]; congruence].
  - cbn [app map from_start nth_error bind]. exists false. split; [reflexivity|]. split; [discriminate | intros [n [r [=]]]].
Qed.
Lemma typed_get template sec n : typed_section template sec -> exists s, vget_def sec (VDict []) template = Ok (VDict s) /\
  ((exists o t, assoc n s = Some (VDict o) /\ assoc "Type" o = Some (VStr t) /\ t <> "" /\ defined_in sec template n o) \/
   assoc n s = None /\ forall o, ~ defined_in sec template n o).
Proof.
  intros [d [s [-> [Hs Ht]]]]. cbn [vget_def]. exists s. assert (E : match assoc sec d with Some x => x | None => VDict [] end = VDict s).
  { destruct Hs as [->|[-> ->]]; reflexivity. }
  split; [now destruct (assoc sec d); rewrite <- E|]. destruct (assoc n s) as [x|] eqn:Ea.
  - left. pose proof (assoc_In _ _ _ Ea) as Hi. destruct (Ht n x Hi) as [o [t [-> [E1 E2]]]]. exists o, t. repeat split; auto. exists d, s. repeat split; auto. destruct Hs as [Hs|[_ ->]]; [exact Hs | discriminate].
  - right. split; [reflexivity|]. intros o [d' [s' [[= <-] [E1 E2]]]]. destruct Hs as [Hs|[Hs _]]; congruence.
Qed.
Definition join_two (a b : string) : string := a ++ "/" ++ b.
Lemma c49_getatt show template attribute_type r a p : typed_section template "Resources" ->
  (forall q, p = PKey "Outputs" :: q -> exists n x r, q = PKey n :: x :: r) ->
  exists ms, getatt_list show template attribute_type ((p ++ [PKey "Fn::GetAtt"])%list, VList [VStr r; VStr a]) = Ok ms /\
  forall m, In m ms <-> exists n, in_output_value p n /\ list_attribute attribute_type template r a /\ ~ consumed p /\
    m = mkRM (p ++ [PKey "Fn::GetAtt"])%list ("Output " ++ n ++ " value " ++ r ++ "/" ++ a ++ " is of type list").
Proof.
  intros Hs Hp. unfold getatt_list. destruct (output_value_spec "Fn::GetAtt" (VList [VStr r; VStr a]) p ltac:(discriminate) Hp) as [b [Eb Hb]]. rewrite Eb. cbn [bind snd].
  destruct b; [|exists []; split; [reflexivity|]; intros m; split; [intros []|]; intros [n [Hn _]]; assert (false = true) by (apply Hb; eauto); discriminate].
  destruct (proj1 Hb eq_refl) as [n [q ->]]. destruct (typed_get template "Resources" r Hs) as [s [Es Hr]]. rewrite Es. cbn [from_start nth_error bind vget_any vget_def].
  assert (Hno : ~ list_attribute attribute_type template r a -> exists ms, Ok [] = Ok ms /\ forall m : rulematch, In m ms <-> exists n0, in_output_value (PKey "Outputs" :: PKey n :: PKey "Value" :: q) n0 /\ list_attribute attribute_type template r a /\ ~ consumed (PKey "Outputs" :: PKey n :: PKey "Value" :: q) /\
    m = mkRM ((PKey "Outputs" :: PKey n :: PKey "Value" :: q) ++ [PKey "Fn::GetAtt"])%list ("Output " ++ n0 ++ " value " ++ r ++ "/" ++ a ++ " is of type list")).
  { intros H. exists []. split; [reflexivity|]. intros m. split; [intros [] | intros [n0 [_ [H' _]]]; contradiction]. }
  destruct Hr as [[o [t [Ea [Et [Hne Hd]]]]]|[Ea Hd]].
  2: { rewrite Ea. cbn [vget bind assoc truthy]. apply Hno. intros [o [t [H _]]]. now apply (Hd o). }
  rewrite Ea. cbn [vget bind]. rewrite Et. cbn [bind]. assert (Etr : truthy (VStr t) = true) by (destruct t; [congruence | reflexivity]). rewrite Etr. cbn [bind attribute_lookup].
  assert (Huse : forall t', list_attribute attribute_type template r a -> attribute_type t a = Some t' -> t' = "List").
  { intros t' [o' [u [Hd' [Eu El]]]] E. destruct Hd as [d [s1 [-> [E1 E2]]]]. destruct Hd' as [d' [s2 [[= <-] [E3 E4]]]]. rewrite E1 in E3. injection E3 as <-. rewrite E2 in E4. injection E4 as <-. rewrite Et in Eu. injection Eu as <-. congruence. }
  destruct (attribute_type t a) as [at'|] eqn:Eat.
  2: { apply Hno. intros [o' [u [Hd' [Eu El]]]]. destruct Hd as [d [s1 [-> [E1 E2]]]]. destruct Hd' as [d' [s2 [[= <-] [E3 E4]]]]. rewrite E1 in E3. injection E3 as <-. rewrite E2 in E4. injection E4 as <-. rewrite Et in Eu. injection Eu as <-. congruence. }
  destruct (String.eqb_spec at' "List") as [->|Hl].
  2: { apply Hno. intros H. apply Hl. now apply Huse. }
  clear Hno. destruct (not_joined_spec "Fn::GetAtt" (VList [VStr r; VStr a]) (PKey "Outputs") (PKey n) (PKey "Value") q) as [nj [Ej Hj]]. rewrite Ej. cbn [bind].
  assert (Hla : list_attribute attribute_type template r a) by (exists o, t; auto).
  destruct nj.
  - change (from_start (tree_of (((PKey "Outputs" :: PKey n :: PKey "Value" :: q) ++ [PKey "Fn::GetAtt"])%list, VList [VStr r; VStr a])) 1) with (Ok (VStr n)). cbn [bind join_texts].
    eexists. split; [reflexivity|]. intros m. split.
    + intros [<-|[]]. exists n. split; [exists q; reflexivity|]. split; [exact Hla|]. split; [now apply Hj|]. cbn [fst]. f_equal. cbn [join_str]. unfold element_text. change (py_str show (VStr n)) with n. now rewrite !str_app_assoc.
    + intros [n0 [[q' [= <- <-]] [_ [_ ->]]]]. left. cbn [fst]. f_equal. cbn [join_str]. unfold element_text. change (py_str show (VStr n)) with n. now rewrite !str_app_assoc.
  - exists []. split; [reflexivity|]. intros m. split; [intros []|]. intros [n0 [_ [_ [H _]]]]. apply Hj in H. discriminate.
Qed.
Lemma c49_ref show template n0 p : typed_section template "Parameters" ->
  (forall q, p = PKey "Outputs" :: q -> exists n x r, q = PKey n :: x :: r) ->
  exists ms, ref_list show template ((p ++ [PKey "Ref"])%list, VStr n0) = Ok ms /\
  forall m, In m ms <-> exists n, in_output_value p n /\ list_parameter template n0 /\ ~ consumed p /\
    m = mkRM (p ++ [PKey "Ref"])%list ("Output " ++ n ++ " value " ++ n0 ++ " is of type list").
Proof.
  intros Hs Hp. unfold ref_list. destruct (output_value_spec "Ref" (VStr n0) p ltac:(discriminate) Hp) as [b [Eb Hb]]. rewrite Eb. cbn [bind snd].
  destruct b; [|exists []; split; [reflexivity|]; intros m; split; [intros []|]; intros [n [Hn _]]; assert (false = true) by (apply Hb; eauto); discriminate].
  destruct (proj1 Hb eq_refl) as [n [q ->]]. destruct (typed_get template "Parameters" n0 Hs) as [s [Es Hr]]. rewrite Es. cbn [bind vget].
  assert (Hno : ~ list_parameter template n0 -> exists ms, Ok [] = Ok ms /\ forall m : rulematch, In m ms <-> exists n1, in_output_value (PKey "Outputs" :: PKey n :: PKey "Value" :: q) n1 /\ list_parameter template n0 /\ ~ consumed (PKey "Outputs" :: PKey n :: PKey "Value" :: q) /\
    m = mkRM ((PKey "Outputs" :: PKey n :: PKey "Value" :: q) ++ [PKey "Ref"])%list ("Output " ++ n1 ++ " value " ++ n0 ++ " is of type list")).
  { intros H. exists []. split; [reflexivity|]. intros m. split; [intros [] | intros [n1 [_ [H' _]]]; contradiction]. }
  destruct Hr as [[o [t [Ea [Et [Hne Hd]]]]]|[Ea Hd]].
  2: { rewrite Ea. cbn [truthy]. apply Hno. intros [o [t [H _]]]. now apply (Hd o). }
  rewrite Ea. assert (Eo : truthy (VDict o) = true) by (destruct o; [discriminate | reflexivity]). rewrite Eo. cbn [vget bind]. rewrite Et. assert (Etr : truthy (VStr t) = true) by (destruct t; [congruence | reflexivity]). rewrite Etr.
  destruct (starts_with "List<" t) eqn:El.
  2: { apply Hno. intros [o' [rest [Hd' E]]]. apply starts_not in El. apply El. exists rest. destruct Hd as [d [s1 [-> [E1 E2]]]]. destruct Hd' as [d' [s2 [[= <-] [E3 E4]]]]. rewrite E1 in E3. injection E3 as <-. rewrite E2 in E4. injection E4 as <-. rewrite Et in E. now injection E as ->. }
  apply starts_rest in El as [rest ->]. clear Hno. destruct (not_joined_spec "Ref" (VStr n0) (PKey "Outputs") (PKey n) (PKey "Value") q) as [nj [Ej Hj]]. rewrite Ej. cbn [bind].
  assert (Hla : list_parameter template n0) by (exists o, rest; auto).
  destruct nj.
  - change (from_start (tree_of (((PKey "Outputs" :: PKey n :: PKey "Value" :: q) ++ [PKey "Ref"])%list, VStr n0)) 1) with (Ok (VStr n)). cbn [bind].
    eexists. split; [reflexivity|]. intros m. split.
    + intros [<-|[]]. exists n. split; [exists q; reflexivity|]. split; [exact Hla|]. split; [now apply Hj|]. reflexivity.
    + intros [n1 [[q' [= <- <-]] [_ [_ ->]]]]. left. reflexivity.
  - exists []. split; [reflexivity|]. intros m. split; [intros []|]. intros [n1 [_ [_ [H _]]]]. apply Hj in H. discriminate.
Qed.
Lemma c49_all show template globals attribute_type : wf template -> wf globals -> typed_section template "Resources" -> typed_section template "Parameters" ->
  (forall f p v q, In f ["Ref"; "Fn::GetAtt"] -> occurs f template globals p v -> p = PKey "Outputs" :: q -> exists n x r, q = PKey n :: x :: r) ->
  (forall p v, occurs "Fn::GetAtt" template globals p v -> exists r a, v = VList [VStr r; VStr a]) ->
  (forall p v, occurs "Ref" template globals p v -> exists n, v = VStr n) ->
  exists ms, output_value_match show template globals attribute_type = Ok ms /\
  forall m, In m ms <-> exists n p, in_output_value p n /\ ~ consumed p /\
    ((exists r a, occurs "Fn::GetAtt" template globals p (VList [VStr r; VStr a]) /\ list_attribute attribute_type template r a /\
        m = mkRM (p ++ [PKey "Fn::GetAtt"])%list ("Output " ++ n ++ " value " ++ r ++ "/" ++ a ++ " is of type list")) \/
     (exists q, occurs "Ref" template globals p (VStr q) /\ list_parameter template q /\
        m = mkRM (p ++ [PKey "Ref"])%list ("Output " ++ n ++ " value " ++ q ++ " is of type list"))).
Proof.
  intros Hw Hg Hr Hps Hpl Hga Href. unfold output_value_match.
  assert (H1 : forall p r a, occurs "Fn::GetAtt" template globals p (VList [VStr r; VStr a]) -> forall q, p = PKey "Outputs" :: q -> exists n x r, q = PKey n :: x :: r).
  { intros p r a Ho q. exact (Hpl "Fn::GetAtt" p _ q (or_intror (or_introl eq_refl)) Ho). }
  assert (H2 : forall p n0, occurs "Ref" template globals p (VStr n0) -> forall q, p = PKey "Outputs" :: q -> exists n x r, q = PKey n :: x :: r).
  { intros p n0 Ho q. exact (Hpl "Ref" p _ q (or_introl eq_refl) Ho). }
  destruct (concat_res_total (getatt_list show template attribute_type) (search_deep_keys "Fn::GetAtt" template globals)) as [a Ea].
  { intros [q v] Hi. apply in_search_deep in Hi as [p [-> Ho]]; [|assumption..]. destruct (Hga p v Ho) as [r [at' ->]]. destruct (c49_getatt show template attribute_type r at' p Hr (H1 p r at' Ho)) as [ms [E _]]. eauto. }
  destruct (concat_res_total (ref_list show template) (search_deep_keys "Ref" template globals)) as [b Eb].
  { intros [q v] Hi. apply in_search_deep in Hi as [p [-> Ho]]; [|assumption..]. destruct (Href p v Ho) as [n0 ->]. destruct (c49_ref show template n0 p Hps (H2 p n0 Ho)) as [ms [E _]]. eauto. }
  rewrite Ea, Eb. cbn [bind]. eexists. split; [reflexivity|]. intros m. rewrite in_app_iff, (concat_res_in _ _ _ m Ea), (concat_res_in _ _ _ m Eb). split.
  - intros [[[q v] [ys [Hi [Ey Hy]]]]|[[q v] [ys [Hi [Ey Hy]]]]]; apply in_search_deep in Hi as [p [-> Ho]]; try assumption.
    + destruct (Hga p v Ho) as [r [at' ->]]. destruct (c49_getatt show template attribute_type r at' p Hr (H1 p r at' Ho)) as [ms [E H]]. pose proof (eq_trans (eq_sym E) Ey) as Ex. injection Ex as <-. apply H in Hy as [n [G1 [G2 [G3 ->]]]].
      exists n, p. split; [exact G1|]. split; [exact G3|]. left. exists r, at'. auto.
    + destruct (Href p v Ho) as [n0 ->]. destruct (c49_ref show template n0 p Hps (H2 p n0 Ho)) as [ms [E H]]. pose proof (eq_trans (eq_sym E) Ey) as Ex. injection Ex as <-. apply H in Hy as [n [G1 [G2 [G3 ->]]]].
      exists n, p. split; [exact G1|]. split; [exact G3|]. right. exists n0. auto.
  - intros [n [p [G1 [G3 [[r [at' [Ho [G2 ->]]]]|[n0 [Ho [G2 ->]]]]]]]].
    + left. destruct (c49_getatt show template attribute_type r at' p Hr (H1 p r at' Ho)) as [ms [E H]]. exists ((p ++ [PKey "Fn::GetAtt"])%list, VList [VStr r; VStr at']), ms. split; [apply in_search_deep; eauto|]. split; [exact E|]. apply H. exists n. auto.
    + right. destruct (c49_ref show template n0 p Hps (H2 p n0 Ho)) as [ms [E H]]. exists ((p ++ [PKey "Ref"])%list, VStr n0), ms. split; [apply in_search_deep; eauto|]. split; [exact E|]. apply H. exists n. auto.
Qed.

(** * A template with all of these *)
Definition market_resources : list (string * val) :=
  [("Bucket", VDict [("Type", VStr "AWS::S3::Bucket"); ("DeletionPolicy", VStr "Snapshot")]);
   ("Table", VDict [("Type", VStr "AWS::DynamoDB::Table"); ("DeletionPolicy", VStr "Keep"); ("DependsOn", VList [VStr "Bucket"; VStr "Ghost"]);
                    ("Properties", VDict [("Name", VDict [("Ref", VStr "Bucket")])]);
                    ("Metadata", VDict [("Shown", VDict [("Ref", VStr "Secret")]); ("Said", VDict [("Fn::Sub", VStr "it is ${Secret}")])])]);
   ("Volume", VDict [("Type", VStr "AWS::EC2::Volume"); ("DeletionPolicy", VStr "Snapshot"); ("UpdateReplacePolicy", VStr "Retain"); ("DependsOn", VStr "Table");
                     ("Properties", VDict [("Id", VDict [("Fn::GetAtt", VList [VStr "Table"; VStr "Arn"])])])]);
   ("Queue", VDict [("Type", VStr "AWS::SQS::Queue"); ("DeletionPolicy", VList [VStr "Delete"])]);
   ("Part", VDict [("Type", VStr "My::Part::MODULE"); ("CreationPolicy", VStr "x"); ("Properties", VDict [("Tags", VList [VInt 1])]);
                   ("Metadata", VDict [("AWS::CloudFormation::Module", VDict [])])]);
   ("Func", VDict [("Type", VStr "AWS::Serverless::Function")])].
Definition market_sections : list (string * val) :=
  [("Parameters", VDict [("Secret", VDict [("Type", VStr "String"); ("NoEcho", VStr "True")]); ("Nets", VDict [("Type", VStr "List<String>")]); ("Table", VDict [("Type", VStr "String")])]);
   ("Resources", VDict market_resources);
   ("Outputs", VDict [("A", VDict [("Value", VDict [("Ref", VStr "Nets")])]);
                      ("B", VDict [("Value", VDict [("Fn::Join", VList [VStr ","; VDict [("Ref", VStr "Nets")]])])]);
                      ("C", VDict [("Value", VDict [("Fn::GetAtt", VList [VStr "Volume"; VStr "Zones"])])])])].
Definition market : val := VDict market_sections.
Definition market_attribute (t a : string) : option string := if String.eqb t "AWS::EC2::Volume" && String.eqb a "Zones" then Some "List" else None.
Lemma market_wf : wf market.
Proof. apply wfb_sound. vm_compute. reflexivity. Qed.
Lemma market_occurs f (P : path * val -> bool) : forallb P (search_deep_keys f market (VDict [])) = true -> forall p v, occurs f market (VDict []) p v -> P ((p ++ [PKey f])%list, v) = true.
Proof.
  intros H p v Ho. rewrite forallb_forall in H. apply H. apply in_search_deep; [exact market_wf | exact wf_empty | eauto].
Qed.
Lemma market_resource n o : resource market n o -> In (n, VDict o) market_resources.
Proof. intros [[d [s [[= <-] [[= <-] E]]]] _]. now apply assoc_In in E. Qed.
Ltac market_cases H := apply market_resource in H; unfold market_resources in H; cbn [In] in H;
  let rec go H := first [ destruct H as [[= <- <-]|H]; [|go H] | exfalso; exact H ] in go H.
Lemma market_given attr n o v : In attr ["DeletionPolicy"; "UpdateReplacePolicy"; "DependsOn"] -> resource market n o -> assoc attr o = Some v -> ~ empty v.
Proof.
  intros Ha Hr E. apply truthy_not. destruct Ha as [<-|[<-|[<-|[]]]]; market_cases Hr; vm_compute in E; try discriminate; injection E as <-; reflexivity.
Qed.
Lemma market_texts n p v : depends_entry market n p v -> exists s, v = VStr s.
Proof.
  intros H. inversion H as [o v' Hr E Hl E1 E2|o l i v' Hr E Hi E1 E2]; subst; market_cases Hr; vm_compute in E; try discriminate; injection E as <-; try (now eexists).
  - exfalso. now apply (Hl [VStr "Bucket"; VStr "Ghost"]).
  - destruct i as [|[|i]]; cbn in Hi; [injection Hi as <-; eauto..|]. destruct i; discriminate.
Qed.
Lemma market_getatt p v : occurs "Fn::GetAtt" market (VDict []) p v -> exists r a, v = VList [VStr r; VStr a].
Proof.
  intros Ho. apply (market_occurs "Fn::GetAtt" (fun pv => match snd pv with VList [VStr _; VStr _] => true | _ => false end) ltac:(vm_compute; reflexivity)) in Ho. cbn [snd] in Ho.
  destruct v as [| | | | |[|[| | | |r| |] [|[| | | |a| |] [|]]]|]; try discriminate. eauto.
Qed.
Lemma market_refs p v : occurs "Ref" market (VDict []) p v -> exists n, v = VStr n.
Proof.
  intros Ho. apply (market_occurs "Ref" (fun pv => match snd pv with VStr _ => true | _ => false end) ltac:(vm_compute; reflexivity)) in Ho. cbn [snd] in Ho.
  destruct v; try discriminate. eauto.
Qed.
Lemma market_subs p s : occurs "Fn::Sub" market (VDict []) p (VStr s) -> closed s.
Proof.
  intros Ho. apply (market_occurs "Fn::Sub" (fun pv => match snd pv with VStr s => closedb s | _ => false end) ltac:(vm_compute; reflexivity)) in Ho. cbn [snd] in Ho. now apply closedb_sound.
Qed.
Lemma market_places f p v q : In f ["Ref"; "Fn::GetAtt"] -> occurs f market (VDict []) p v -> p = PKey "Outputs" :: q -> exists n x r, q = PKey n :: x :: r.
Proof.
  intros Hf Ho ->. assert (H : match (q ++ [PKey f])%list with PKey _ :: _ :: _ :: _ => true | _ => false end = true).
  { destruct Hf as [<-|[<-|[]]].
    - apply (market_occurs "Ref" (fun pv => match fst pv with PKey k :: q => if String.eqb k "Outputs" then match q with PKey _ :: _ :: _ :: _ => true | _ => false end else true | _ => true end) ltac:(vm_compute; reflexivity)) in Ho. exact Ho.
    - apply (market_occurs "Fn::GetAtt" (fun pv => match fst pv with PKey k :: q => if String.eqb k "Outputs" then match q with PKey _ :: _ :: _ :: _ => true | _ => false end else true | _ => true end) ltac:(vm_compute; reflexivity)) in Ho. exact Ho. }
  destruct q as [|x [|y q]]; try (destruct x; discriminate); try discriminate. destruct x; [eauto | discriminate].
Qed.
Lemma market_typed sec : In sec ["Resources"; "Parameters"] -> typed_section market sec.
Proof.
  assert (Hx : forall l : list (string * val), forallb (fun nx => match snd nx with VDict o => match assoc "Type" o with Some (VStr t) => negb (String.eqb t "") | _ => false end | _ => false end) l = true ->
    forall n x, In (n, x) l -> exists o t, x = VDict o /\ assoc "Type" o = Some (VStr t) /\ t <> "").
  { intros l H n x Hi. rewrite forallb_forall in H. apply H in Hi. cbn [snd] in Hi. destruct x as [| | | | | |o]; try discriminate. destruct (assoc "Type" o) as [[| | | |t| |]|] eqn:E; try discriminate.
    exists o, t. split; [reflexivity|]. split; [exact E|]. apply negb_true_iff in Hi. now apply String.eqb_neq. }
  intros [<-|[<-|[]]]; do 2 eexists; (split; [reflexivity|]); (split; [left; reflexivity|]); apply Hx; reflexivity.
Qed.
Lemma market_types n o : resource market n o -> exists t, assoc "Type" o = Some (VStr t).
Proof. intros H. market_cases H; eexists; reflexivity. Qed.
Definition blank (_ : val) : string := "".
Lemma market_modules n o k v s : resource market n o -> k <> "Type" -> assoc k o = Some v -> py_str blank v <> s ++ "::MODULE".
Proof.
  intros Hr Hk E Hs. assert (H : ends_with "::MODULE" (py_str blank v) = true) by (apply ends_with_iff; eauto).
  assert (Hx : forall l : list (string * val), forallb (fun kv => String.eqb (fst kv) "Type" || negb (ends_with "::MODULE" (py_str blank (snd kv)))) l = true -> assoc k l = Some v -> False).
  { intros l Hl Ea. rewrite forallb_forall in Hl. apply assoc_In in Ea. apply Hl in Ea. cbn [fst snd] in Ea. rewrite H in Ea. apply orb_prop in Ea as [Ea|Ea]; [|discriminate]. apply String.eqb_eq in Ea. contradiction. }
  market_cases Hr; eapply Hx; try exact E; reflexivity.
Qed.
Lemma market_properties n o v : module market n o -> assoc "Properties" o = Some v -> exists ps, v = VDict ps.
Proof. intros [Hr _] E. market_cases Hr; vm_compute in E; try discriminate; injection E as <-; eauto. Qed.
Lemma market_root v : ~ occurs "AWS::CloudFormation::Module" market (VDict []) [] v.
Proof. intros Ho. apply (market_occurs "AWS::CloudFormation::Module" (fun pv => match fst pv with [_] => false | _ => true end) ltac:(vm_compute; reflexivity)) in Ho. discriminate. Qed.
Lemma market_parameters n x : In (n, x) [("Secret", VDict [("Type", VStr "String"); ("NoEcho", VStr "True")]); ("Nets", VDict [("Type", VStr "List<String>")]); ("Table", VDict [("Type", VStr "String")])] ->
  n <> "" /\ alphanumeric n /\ exists def, x = VDict def.
Proof.
  intros H. cbn [In] in H. destruct H as [[= <- <-]|[[= <- <-]|[[= <- <-]|[]]]]; (split; [discriminate|]); (split; [intros a Ha; apply is_alnum_spec; revert a Ha; apply (proj1 (forallb_forall _ _)); reflexivity | eauto]).
Qed.
Lemma market_policy_report show : policy_match show "DeletionPolicy" market = Ok
  [mkRM [PKey "Resources"; PKey "Bucket"; PKey "DeletionPolicy"] "DeletionPolicy cannot be Snapshot for resources of type AWS::S3::Bucket at Resources/Bucket/DeletionPolicy";
   mkRM [PKey "Resources"; PKey "Table"; PKey "DeletionPolicy"] "DeletionPolicy should be only one of Delete, Retain, Snapshot at Resources/Table/DeletionPolicy";
   mkRM [PKey "Resources"; PKey "Queue"; PKey "DeletionPolicy"] "Only one DeletionPolicy allowed per resource at Resources/Queue/DeletionPolicy"].
Proof. vm_compute. reflexivity. Qed.
Lemma market_depends_report order c : depends_on_match order c market = Ok
  [mkRM [PKey "Resources"; PKey "Table"; PKey "DependsOn"; PIdx 1] "DependsOn should reference other resources at Resources/Table/DependsOn/1"].
Proof. vm_compute. reflexivity. Qed.
Lemma market_obsolete_report show : obsolete_match show market (VDict []) = Ok
  [mkRM [PKey "Resources"; PKey "Table"; PKey "DependsOn"; PIdx 0] "Obsolete DependsOn on resource (Bucket), dependency already enforced by a ""Ref"" at Resources/Table/Properties/Name/Ref";
   mkRM [PKey "Resources"; PKey "Volume"; PKey "DependsOn"] "Obsolete DependsOn on resource (Table), dependency already enforced by a ""Fn:GetAtt"" at Resources/Volume/Properties/Id/Fn::GetAtt"].
Proof. vm_compute. reflexivity. Qed.
Lemma market_hidden_report : no_echo_match market (VDict []) = Ok
  [mkRM [PKey "Resources"; PKey "Table"; PKey "Metadata"; PKey "Shown"; PKey "Ref"; PKey "Secret"] "As the resource ""metadata"" section contains reference to a ""NoEcho"" parameter Secret, CloudFormation will display the parameter value in plaintext";
   mkRM [PKey "Resources"; PKey "Table"; PKey "Metadata"; PKey "Said"; PKey "Fn::Sub"] "As the resource ""metadata"" section contains reference to a ""NoEcho"" parameter Secret, CloudFormation will display the parameter value in plaintext"].
Proof. vm_compute. reflexivity. Qed.
Lemma market_modules_report : modules_match blank market (VDict []) = Ok
  [mkRM [PKey "Resources"; PKey "Part"; PKey "Metadata"; PKey "AWS::CloudFormation::Module"] "The Metadata key AWS::CloudFormation::Module is reserved";
   mkRM [PKey "Resources"; PKey "Part"; PKey "Properties"; PKey "Tags"] "Tags is not permitted within Modules";
   mkRM [PKey "Resources"; PKey "Part"; PKey "CreationPolicy"] "CreationPolicy is not permitted within Modules"].
Proof. vm_compute. reflexivity. Qed.
Lemma market_output_report show : output_value_match show market (VDict []) market_attribute = Ok
  [mkRM [PKey "Outputs"; PKey "C"; PKey "Value"; PKey "Fn::GetAtt"] "Output C value Volume/Zones is of type list";
   mkRM [PKey "Outputs"; PKey "A"; PKey "Value"; PKey "Ref"] "Output A value Nets is of type list"].
Proof. vm_compute. reflexivity. Qed.
Lemma market_stateful : exists a b, stateful_match market = Ok [a; b].
Proof. do 2 eexists. vm_compute. reflexivity. Qed.
Lemma market_names : unique_names_match market = Ok [mkRM [PKey "Resources"; PKey "Table"] "Resources and Parameters must not share name: Table"].
Proof. vm_compute. reflexivity. Qed.

(** * Without conditions *)
Lemma c38_plain order c template : wf template -> depends_given template -> plain_conditions template ->
  (forall n o, resource template n o -> n <> "Fn::If" /\ assoc "Condition" o = None) ->
  exists ms, depends_on_match order c template = Ok ms /\
  forall m, In m ms <-> exists n v, depends_entry template n (rm_path m) v /\ depends_fault template (rm_path m) v (rm_msg m).
Proof.
  intros Hw Hg Hpl Hc.
  assert (Ha : forall n p s, depends_entry template n p (VStr s) -> (exists o, resource template s o) -> is_resource_available order c template p s = Ok []).
  { intros n p s He [o Ho]. assert (Hp : place template p /\ p <> []).
    { inversion He as [o' v' Hr E Hl E1 E2|o' l i v' Hr E Hi E1 E2]; subst; (split; [|discriminate]); destruct (Hc n _ Hr) as [Hn _]; destruct Hr as [[d [m [-> [H1 H2]]]] _].
      - eapply pl_key; [discriminate | exact H1|]. eapply pl_key; [exact Hn | exact H2|]. eapply pl_key; [discriminate | exact E | constructor].
      - eapply pl_key; [discriminate | exact H1|]. eapply pl_key; [exact Hn | exact H2|]. eapply pl_key; [discriminate | exact E|]. eapply pl_item; [exact Hi | constructor]. }
    destruct Hp as [Hp Hne]. pose proof (Hc s o Ho) as [_ Hno]. destruct Ho as [[d [m [Et [H1 H2]]]] _]. exact (c33_no_condition order c template p s d m o Hpl Hp Hne Et H1 H2 Hno). }
  destruct (c38_depends order c template Hw Hg) as [ms [E H]]; [intros n p s He Ho; exists []; eauto|].
  exists ms. split; [exact E|]. intros m. rewrite H. split.
  - intros [n [p [v [He [[Hf <-]|[s [scs [sc [-> [Ho [Es [Hi _]]]]]]]]]]]]; [eauto|]. rewrite (Ha n p s He Ho) in Es. injection Es as <-. destruct Hi.
  - intros [n [v [He Hf]]]. exists n, (rm_path m), v. auto.
Qed.
Lemma market_plain : plain_conditions market.
Proof.
  exists market_sections. split; [reflexivity|]. intros sec s Hin E.
  assert (Hx : forall l : list (string * val), forallb (fun nx => match snd nx with VDict o => match assoc "Condition" o with None => true | _ => false end | _ => false end) l = true ->
    forall n x, assoc n l = Some x -> exists o, x = VDict o /\ (assoc "Condition" o = None \/ exists c, assoc "Condition" o = Some (VStr c))).
  { intros l H n x Hi. rewrite forallb_forall in H. apply assoc_In, H in Hi. cbn [snd] in Hi. destruct x as [| | | | | |o]; try discriminate. exists o. split; [reflexivity|]. left. destruct (assoc "Condition" o); [discriminate | reflexivity]. }
  destruct Hin as [<-|[<-|[]]]; vm_compute in E; injection E as <-; eexists; (split; [reflexivity|]); apply Hx; reflexivity.
Qed.
Lemma market_unconditional n o : resource market n o -> n <> "Fn::If" /\ assoc "Condition" o = None.
Proof. intros H. market_cases H; (split; [discriminate | reflexivity]). Qed.

(** * What goes wrong *)
Definition one_resource (o : list (string * val)) : val := VDict [("Resources", VDict [("R", VDict (("Type", VStr "AWS::S3::Bucket") :: o))])].
Lemma one_resource_is o : resource (one_resource o) "R" (("Type", VStr "AWS::S3::Bucket") :: o).
Proof. split; [do 2 eexists; repeat split; reflexivity | eexists; split; [reflexivity | discriminate]]. Qed.
Lemma c37_empty : exists template n o v, wf template /\ resource template n o /\ assoc "DeletionPolicy" o = Some v /\
  (forall show, exists p msg, policy_fault show "DeletionPolicy" n o p msg) /\ forall show, policy_match show "DeletionPolicy" template = Ok [].
Proof.
  exists (one_resource [("DeletionPolicy", VStr "")]), "R". do 2 eexists. split; [apply wfb_sound; reflexivity|]. split; [apply one_resource_is|]. split; [reflexivity|]. split; [|reflexivity].
  intros show. do 2 eexists. eapply po_value; [reflexivity | cbn; intuition discriminate | reflexivity].
Qed.
Lemma c38_empty : exists template n p v, wf template /\ depends_entry template n p v /\ (exists msg, depends_fault template p v msg) /\ forall order c, depends_on_match order c template = Ok [].
Proof.
  exists (one_resource [("DependsOn", VStr "")]), "R". do 2 eexists. split; [apply wfb_sound; reflexivity|].
  split; [eapply de_one; [apply one_resource_is | reflexivity | discriminate]|]. split; [|reflexivity]. eexists. apply df_name. intros o [[d [s [[= <-] [[= <-] E]]]] _]. discriminate.
Qed.
Definition two_resources (a : string) (att : val) : val := VDict [("Resources", VDict
  [(a, VDict [("Type", VStr "AWS::S3::Bucket")]);
   ("R", VDict [("Type", VStr "AWS::S3::Bucket"); ("DependsOn", VStr a); ("Name", VDict [("Fn::GetAtt", att)])])])].
Lemma c38_text_form : exists template n p, wf template /\ depends_entry template n p (VStr "Table") /\
  (exists q, occurs "Fn::GetAtt" template (VDict []) q (VStr "Table.Arn") /\ below n q) /\ forall show, obsolete_match show template (VDict []) = Ok [].
Proof.
  exists (two_resources "Table" (VStr "Table.Arn")), "R". eexists. split; [apply wfb_sound; reflexivity|].
  split; [apply (de_one _ _ [("Type", VStr "AWS::S3::Bucket"); ("DependsOn", VStr "Table"); ("Name", VDict [("Fn::GetAtt", VStr "Table.Arn")])]); [|reflexivity|discriminate]; split; [do 2 eexists; repeat split; reflexivity | eexists; split; [reflexivity | discriminate]]|]. split; [|reflexivity].
  exists [PKey "Resources"; PKey "R"; PKey "Name"]. split; [|eexists; reflexivity].
  assert (H : In ([PKey "Resources"; PKey "R"; PKey "Name"; PKey "Fn::GetAtt"], VStr "Table.Arn") (search_deep_keys "Fn::GetAtt" (two_resources "Table" (VStr "Table.Arn")) (VDict []))) by (vm_compute; now left).
  apply in_search_deep in H; [|apply wfb_sound; reflexivity | exact wf_empty]. destruct H as [p [E Ho]]. change [PKey "Resources"; PKey "R"; PKey "Name"; PKey "Fn::GetAtt"] with ([PKey "Resources"; PKey "R"; PKey "Name"] ++ [PKey "Fn::GetAtt"])%list in E.
  apply app_inj_tail in E as [<- _]. exact Ho.
Qed.
Lemma c38_first_letter : exists template m, wf template /\ (forall q v, occurs "Fn::GetAtt" template (VDict []) q v -> v = VStr "Table.Arn") /\
  (forall q v, ~ occurs "Ref" template (VDict []) q v) /\ forall show, obsolete_match show template (VDict []) = Ok [m].
Proof.
  exists (two_resources "T" (VStr "Table.Arn")), (mkRM [PKey "Resources"; PKey "R"; PKey "DependsOn"] "Obsolete DependsOn on resource (T), dependency already enforced by a ""Fn:GetAtt"" at Resources/R/Name/Fn::GetAtt"). split; [apply wfb_sound; reflexivity|]. split; [|split; [|reflexivity]].
  - intros q v Ho. apply occurs_search in Ho; [|apply wfb_sound; reflexivity]. vm_compute in Ho. destruct Ho as [<-|[]]. reflexivity.
  - intros q v Ho. apply occurs_search in Ho; [|apply wfb_sound; reflexivity]. exact Ho.
Qed.
Lemma c38_crash : exists template, wf template /\ forall show, obsolete_match show template (VDict []) = Err EIndex.
Proof. exists (two_resources "Table" (VList [])). split; [apply wfb_sound; reflexivity | reflexivity]. Qed.
Definition quiet_metadata : val := VDict [("Parameters", VDict [("Secret", VDict [("Type", VStr "String"); ("NoEcho", VBool true)])]);
  ("Resources", VDict [("R", VDict [("Type", VStr "AWS::S3::Bucket"); ("Metadata", VDict [("Fn::Sub", VList [VStr "it is ${Secret}"; VDict []])])])])].
Lemma c47_list_form : exists template n p s d, wf template /\ hidden template n /\ placeholder_in n s /\ in_resource_metadata p /\
  occurs "Fn::Sub" template (VDict []) p (VList [VStr s; VDict d]) /\ d = [] /\ no_echo_match template (VDict []) = Ok [].
Proof.
  exists quiet_metadata, "Secret", [PKey "Resources"; PKey "R"; PKey "Metadata"], "it is ${Secret}", []. split; [apply wfb_sound; reflexivity|]. split.
  { eexists. split; [do 2 eexists; repeat split; reflexivity | now left]. }
  split; [apply sub_parameters_sound; vm_compute; now left|]. split; [do 2 eexists; reflexivity|]. split; [|split; reflexivity].
  assert (H : In ([PKey "Resources"; PKey "R"; PKey "Metadata"; PKey "Fn::Sub"], VList [VStr "it is ${Secret}"; VDict []]) (search_deep_keys "Fn::Sub" quiet_metadata (VDict []))) by (vm_compute; now left).
  apply in_search_deep in H; [|apply wfb_sound; reflexivity | exact wf_empty]. destruct H as [p [E Ho]]. change [PKey "Resources"; PKey "R"; PKey "Metadata"; PKey "Fn::Sub"] with ([PKey "Resources"; PKey "R"; PKey "Metadata"] ++ [PKey "Fn::Sub"])%list in E.
  apply app_inj_tail in E as [<- _]. exact Ho.
Qed.
Lemma c48_other_attribute : exists template, wf template /\ (forall n o, ~ module template n o) /\
  forall show, modules_match show template (VDict []) = Ok [mkRM [PKey "Resources"; PKey "R"; PKey "CreationPolicy"] "CreationPolicy is not permitted within Modules"].
Proof.
  exists (one_resource [("Description", VStr "made from My::Part::MODULE"); ("CreationPolicy", VStr "x")]). split; [apply wfb_sound; reflexivity|]. split; [|reflexivity].
  intros n o [[[d [s [[= <-] [[= <-] E]]]] _] [t Et]]. apply assoc_In in E. destruct E as [[= <- <-]|[]]. injection Et as Et.
  assert (H : ends_with "::MODULE" "AWS::S3::Bucket" = true) by (apply ends_with_iff; eauto). discriminate.
Qed.
Lemma c48_crash : exists template, wf template /\ forall show, modules_match show template (VDict []) = Err ETypeErr.
Proof.
  exists (VDict [("AWS::CloudFormation::Module", VDict []); ("Resources", VDict [("R", VDict [("Type", VStr "My::Part::MODULE")])])]).
  split; [apply wfb_sound; reflexivity | reflexivity].
Qed.
Definition either_list : val := VDict [("Parameters", VDict [("Nets", VDict [("Type", VStr "List<String>")])]);
  ("Outputs", VDict [("A", VDict [("Value", VDict [("Fn::If", VList [VStr "C"; VDict [("Ref", VStr "Nets")]; VStr "x"])])])])].
Lemma c49_if : exists template p, wf template /\ occurs "Ref" template (VDict []) p (VStr "Nets") /\ list_parameter template "Nets" /\ in_output_value p "A" /\
  (forall q x, p <> (q ++ [PKey "Fn::Join"; x])%list) /\ forall show attribute_type, output_value_match show template (VDict []) attribute_type = Ok [].
Proof.
  exists either_list, [PKey "Outputs"; PKey "A"; PKey "Value"; PKey "Fn::If"; PIdx 1]. split; [apply wfb_sound; reflexivity|]. split.
  { assert (H : In ([PKey "Outputs"; PKey "A"; PKey "Value"; PKey "Fn::If"; PIdx 1; PKey "Ref"], VStr "Nets") (search_deep_keys "Ref" either_list (VDict []))) by (vm_compute; now left).
    apply in_search_deep in H; [|apply wfb_sound; reflexivity | exact wf_empty]. destruct H as [p [E Ho]].
    change [PKey "Outputs"; PKey "A"; PKey "Value"; PKey "Fn::If"; PIdx 1; PKey "Ref"] with ([PKey "Outputs"; PKey "A"; PKey "Value"; PKey "Fn::If"; PIdx 1] ++ [PKey "Ref"])%list in E.
    apply app_inj_tail in E as [<- _]. exact Ho. }
  split; [do 2 eexists; split; [do 2 eexists; repeat split; reflexivity | reflexivity]|]. split; [eexists; reflexivity|]. split; [|reflexivity].
  intros q x E. change [PKey "Outputs"; PKey "A"; PKey "Value"; PKey "Fn::If"; PIdx 1] with ([PKey "Outputs"; PKey "A"; PKey "Value"] ++ [PKey "Fn::If"; PIdx 1])%list in E. apply last_two in E as [E _]. discriminate.
Qed.
Lemma market_depends : depends_given market.
Proof. intros n o v. apply market_given. right. right. now left. Qed.
Lemma market_getatt_first p v : occurs "Fn::GetAtt" market (VDict []) p v -> exists s rest, v = VList (VStr s :: rest).
Proof. intros H. apply market_getatt in H as [r [a ->]]. eauto. Qed.
Lemma market_parameters_section d v : market = VDict d -> assoc "Parameters" d = Some v -> exists ps, v = VDict ps.
Proof. intros [= <-] [= <-]. eauto. Qed.
Lemma market_protect : both_match market = Ok
  [mkRM [PKey "Resources"; PKey "Bucket"] "Both UpdateReplacePolicy and DeletionPolicy are needed to protect Resources/Bucket from deletion";
   mkRM [PKey "Resources"; PKey "Table"] "Both UpdateReplacePolicy and DeletionPolicy are needed to protect Resources/Table from deletion";
   mkRM [PKey "Resources"; PKey "Queue"] "Both UpdateReplacePolicy and DeletionPolicy are needed to protect Resources/Queue from deletion"].
Proof. vm_compute. reflexivity. Qed.
Lemma market_serverless : serverless_transform_match market = Ok [mkRM [PKey "Transform"] "Serverless Transform required for Type AWS::Serverless::Function for resource Func"].
Proof. vm_compute. reflexivity. Qed.
