(** The rules W1001 and E3005 in terms of is_resource_available (C33, C38), and witnesses for C18 and C33. *)
From Coq Require Import Permutation Lia.
From Verif.Model Require Import Base Helpers Conditions Search Resolve Rules Relationship.
From Verif.Spec Require Import Truth Resolved Paths.
From Verif.Proofs Require Import BaseFacts ConditionProofs ConditionWitness ScenarioMain ResolveProofs RelationProofs SearchProofs.

Lemma concat_res_in {A B} (f : A -> res (list B)) l out y : concat_res f l = Ok out ->
  (In y out <-> exists x ys, In x l /\ f x = Ok ys /\ In y ys).
Proof.
  intros H. apply concat_res_inv in H as [g [Hg ->]]. rewrite in_flat_map. split.
  - intros [x [Hx Hy]]. exists x, (g x). auto.
  - intros [x [ys [Hx [Hf Hy]]]]. exists x. split; [exact Hx|]. rewrite (Hg x Hx) in Hf. injection Hf as <-. exact Hy.
Qed.

Lemma add_conds_none r : add_conds r no_conds = r.
Proof. destruct r as [r b]. unfold add_conds. cbn. now rewrite andb_true_r. Qed.

(** The value a search result ends in does not change the conditions of its path. *)
Lemma walk_last v p s : place v p -> p <> [] -> s <> "Fn::If" ->
  conditions_from_path v (p ++ [PKey s]) true false = conditions_from_path v p true false.
Proof.
  assert (Hend : forall x, s <> "Fn::If" -> conditions_from_path x [PKey s] true false = Ok no_conds).
  { intros x Hs. cbn [conditions_from_path root_condition]. destruct (String.eqb_spec s "Fn::If"); [contradiction | reflexivity]. }
  assert (Hone : forall t pe x, Resolve.step t pe = Ok x -> s <> "Fn::If" -> root_condition t [pe; PKey s] false = root_condition t [pe] false ->
     conditions_from_path t [pe; PKey s] true false = conditions_from_path t [pe] true false).
  { intros t pe x Hx Hs Hr. cbn [conditions_from_path]. cbn [conditions_from_path] in Hend. rewrite Hr, andb_false_r, Hx.
    destruct (root_condition t [pe] false) as [r|]; [|reflexivity].
    specialize (Hend x Hs). rewrite Hend. cbn [bind]. now rewrite add_conds_none. }
  assert (Hstep : forall t pe x r0 r, Resolve.step t pe = Ok x -> root_condition t (pe :: (r0 :: r) ++ [PKey s]) false = root_condition t (pe :: r0 :: r) false ->
     conditions_from_path x ((r0 :: r) ++ [PKey s]) true false = conditions_from_path x (r0 :: r) true false ->
     conditions_from_path t (pe :: (r0 :: r) ++ [PKey s]) true false = conditions_from_path t (pe :: r0 :: r) true false).
  { intros t pe x r0 r Hx Hr E. remember (r0 :: r) as rest. cbn [conditions_from_path]. rewrite Hr, Hx, E. subst rest.
    cbn [app]. reflexivity. }
  induction 1 as [v|d c t e i x p Hd Hi Hp IH|d k x p Hk Hd Hp IH|l i x p Hl Hp IH]; intros Hne Hs; [contradiction| | |]; clear Hne.
  - change ((PKey "Fn::If" :: PIdx i :: p) ++ [PKey s]) with (PKey "Fn::If" :: (PIdx i :: p) ++ [PKey s]).
    apply Hstep with (VList [VStr c; t; e]); [cbn [Resolve.step]; now rewrite Hd | reflexivity|].
    destruct p as [|p0 p].
    + apply Hone with x; [cbn [Resolve.step]; now rewrite Hi | exact Hs | reflexivity].
    + change ((PIdx i :: p0 :: p) ++ [PKey s]) with (PIdx i :: (p0 :: p) ++ [PKey s]).
      apply Hstep with x; [cbn [Resolve.step]; now rewrite Hi | reflexivity | apply IH; [discriminate | exact Hs]].
  - assert (Hr : forall q, root_condition (VDict d) (PKey k :: q) false = Ok no_conds).
    { intros q. unfold root_condition. destruct (String.eqb_spec k "Fn::If"); [contradiction | reflexivity]. }
    destruct p as [|p0 p].
    + apply Hone with x; [cbn [Resolve.step]; now rewrite Hd | exact Hs | now rewrite !Hr].
    + change ((PKey k :: p0 :: p) ++ [PKey s]) with (PKey k :: (p0 :: p) ++ [PKey s]).
      apply Hstep with x; [cbn [Resolve.step]; now rewrite Hd | now rewrite !Hr | apply IH; [discriminate | exact Hs]].
  - destruct p as [|p0 p].
    + apply Hone with x; [cbn [Resolve.step]; now rewrite Hl | exact Hs | reflexivity].
    + change ((PIdx i :: p0 :: p) ++ [PKey s]) with (PIdx i :: (p0 :: p) ++ [PKey s]).
      apply Hstep with x; [cbn [Resolve.step]; now rewrite Hl | reflexivity | apply IH; [discriminate | exact Hs]].
Qed.

Lemma available_last order c template p f s target : In f ["Ref"; "Fn::GetAtt"] -> place template (p ++ [PKey f]) -> s <> "Fn::If" ->
  is_resource_available order c template ((p ++ [PKey f]) ++ [PKey s]) target = is_resource_available order c template (p ++ [PKey f]) target.
Proof.
  intros Hf Hp Hs. unfold is_resource_available.
  assert (E : get_conditions_from_path template ((p ++ [PKey f]) ++ [PKey s]) true true false =
              get_conditions_from_path template (p ++ [PKey f]) true true false); [|now rewrite E].
  assert (Hne : p ++ [PKey f] <> []) by (intros H; now apply app_eq_nil in H as [_ H]).
  unfold get_conditions_from_path. rewrite (walk_last _ _ s Hp Hne Hs).
  destruct (conditions_from_path template (p ++ [PKey f]) true false) as [r|]; [|reflexivity]. cbn [bind].
  destruct p as [|p0 [|p1 p]]; cbn [app].
  - destruct Hf as [<-|[<-|[]]]; reflexivity.
  - destruct p0; reflexivity.
  - destruct p0, p1; reflexivity.
Qed.

(** A Ref to a resource that can be missing is reported. *)
Theorem ref_reported order c template globals p target sc out ms :
  wf template -> wf globals -> place template (p ++ [PKey "Ref"]) -> at_path (p ++ [PKey "Ref"]) template = Some (VStr target) ->
  ~ In target PSEUDOPARAMS -> target <> "Fn::If" ->
  is_resource_available order c template (p ++ [PKey "Ref"]) target = Ok out -> In sc out ->
  relationship_match order c template globals = Ok ms ->
  In (mkRM (p ++ [PKey "Ref"]) ("Ref to resource """ ++ target ++ """ that may not be available " ++ scenario_text sc ++ " at " ++ path_text (p ++ [PKey "Ref"])%list)%string) ms.
Proof.
  intros Hw Hg Hp Ha Hps Hif Hav Hsc Hm. unfold relationship_match in Hm.
  destruct (concat_res (ref_matches _ _ _) _) as [a|] eqn:Ea; cbn [bind] in Hm; [|discriminate].
  destruct (concat_res (getatt_matches _ _ _) _) as [b|] eqn:Eb; cbn [bind] in Hm; [|discriminate]. injection Hm as <-.
  apply in_app_iff. left. apply (concat_res_in _ _ _ _ Ea).
  exists (p ++ [PKey "Ref"], VStr target). unfold ref_matches. cbn [is_pseudo].
  destruct (smem target PSEUDOPARAMS) eqn:E; [apply smem_iff in E; contradiction|]. unfold available_at.
  rewrite available_last; [|now left|exact Hp|exact Hif]. rewrite Hav. cbn [bind]. eexists. split; [|split; [reflexivity|]].
  - unfold search_deep_keys. apply in_app_iff. left. apply search_spec; [exact Hw|]. exists p. auto.
  - apply in_map_iff. exists sc. auto.
Qed.

(** What W1001 reports. *)
Theorem relationship_sound order c template globals ms m :
  relationship_match order c template globals = Ok ms -> In m ms ->
  exists f v target sc out, In (rm_path m, v) (search_deep_keys f template globals) /\
    (f = "Ref" /\ v = target \/ f = "Fn::GetAtt" /\ getatt_target v = Ok target) /\
    available_at order c template (rm_path m) v target = Ok out /\ In sc out.
Proof.
  intros Hm Hi. unfold relationship_match in Hm.
  destruct (concat_res (ref_matches _ _ _) _) as [a|] eqn:Ea; cbn [bind] in Hm; [|discriminate].
  destruct (concat_res (getatt_matches _ _ _) _) as [b|] eqn:Eb; cbn [bind] in Hm; [|discriminate]. injection Hm as <-.
  apply in_app_iff in Hi as [Hi|Hi].
  - apply (concat_res_in _ _ _ _ Ea) in Hi as [[p v] [ys [H1 [H2 H3]]]]. unfold ref_matches in H2.
    destruct (is_pseudo v); [injection H2 as <-; destruct H3|]. destruct (available_at _ _ _ _ _ _) as [scs|] eqn:Es; cbn [bind] in H2; [|discriminate].
    injection H2 as <-. apply in_map_iff in H3 as [sc [<- Hsc]]. exists "Ref", v, v, sc, scs. cbn [rm_path]. auto.
  - apply (concat_res_in _ _ _ _ Eb) in Hi as [[p v] [ys [H1 [H2 H3]]]]. unfold getatt_matches in H2.
    destruct (getatt_target v) as [t|] eqn:Et; cbn [bind] in H2; [|discriminate].
    destruct (truthy t && negb (is_pseudo t)); [|injection H2 as <-; destruct H3].
    destruct (available_at _ _ _ _ _ _) as [scs|] eqn:Es; cbn [bind] in H2; [|discriminate].
    injection H2 as <-. apply in_map_iff in H3 as [sc [<- Hsc]]. exists "Fn::GetAtt", v, t, sc, scs. cbn [rm_path]. auto.
Qed.

(** The same for Fn::GetAtt in its list form. *)
Theorem getatt_reported order c template globals p target rest sc out ms :
  wf template -> wf globals -> place template (p ++ [PKey "Fn::GetAtt"]) ->
  at_path (p ++ [PKey "Fn::GetAtt"]) template = Some (VList (VStr target :: rest)) ->
  ~ In target PSEUDOPARAMS -> target <> "" ->
  is_resource_available order c template (p ++ [PKey "Fn::GetAtt"]) target = Ok out -> In sc out ->
  relationship_match order c template globals = Ok ms ->
  exists m, In m ms /\ rm_path m = p ++ [PKey "Fn::GetAtt"].
Proof.
  intros Hw Hg Hp Ha Hps Hte Hav Hsc Hm. unfold relationship_match in Hm.
  destruct (concat_res (ref_matches _ _ _) _) as [a|] eqn:Ea; cbn [bind] in Hm; [|discriminate].
  destruct (concat_res (getatt_matches _ _ _) _) as [b|] eqn:Eb; cbn [bind] in Hm; [|discriminate]. injection Hm as <-.
  eexists. split; [apply in_app_iff; right; apply (concat_res_in _ _ _ _ Eb)|].
  - exists (p ++ [PKey "Fn::GetAtt"], VList (VStr target :: rest)). unfold getatt_matches. cbn [getatt_target bind truthy is_pseudo].
    destruct (String.eqb_spec target ""); [contradiction|]. destruct (smem target PSEUDOPARAMS) eqn:E; [apply smem_iff in E; contradiction|].
    cbn [negb andb]. unfold available_at. rewrite Hav. cbn [bind]. eexists. split; [|split; [reflexivity|]].
    + unfold search_deep_keys. apply in_app_iff. left. apply search_spec; [exact Hw|]. exists p. auto.
    + apply in_map_iff. exists sc. split; [reflexivity | exact Hsc].
  - reflexivity.
Qed.

(** * Witnesses *)
Definition shop_resources : list (string * val) :=
  [("R", VDict [("Type", VStr "T"); ("Condition", VStr "IsProd")]);
   ("S", VDict [("Type", VStr "T");
                ("Properties", VDict [("P", if_ "IsProd" (VStr "x") (ref "R")); ("Q", ref "R");
                                      ("V", if_ "IsDev" (ref "R") no_value)])])].
Definition shop : val :=
  VDict [("Parameters", VDict env_params); ("Conditions", VDict env_defs); ("Resources", VDict shop_resources)].
Lemma shop_conditions : section_of "Conditions" shop env_defs.
Proof. eexists. split; [reflexivity|]. left. reflexivity. Qed.
Lemma shop_parameters : section_of "Parameters" shop env_params.
Proof. eexists. split; [reflexivity|]. left. reflexivity. Qed.
Lemma shop_plain : plain_conditions shop.
Proof.
  eexists. split; [reflexivity|]. intros section s [<-|[<-|[]]]; [|discriminate]. intros [= <-]. eexists. split; [reflexivity|].
  intros n x H. apply assoc_In in H as [[= <- <-]|[[= <- <-]|[]]]; eexists; (split; [reflexivity|]); [right; eexists; reflexivity | left; reflexivity].
Qed.
Definition at_S (l : list pelem) : path := [PKey "Resources"; PKey "S"; PKey "Properties"] ++ l.
Lemma shop_place_key l : place (VDict [("P", if_ "IsProd" (VStr "x") (ref "R")); ("Q", ref "R"); ("V", if_ "IsDev" (ref "R") no_value)]) l -> place shop (at_S l).
Proof. intros H. unfold at_S, shop. cbn [app]. repeat (eapply pl_key; [discriminate | reflexivity|]). exact H. Qed.
Lemma ref_place : place (ref "R") [PKey "Ref"].
Proof. eapply pl_key; [discriminate | reflexivity | constructor]. Qed.
Definition place_P : path := at_S [PKey "P"; PKey "Fn::If"; PIdx 2; PKey "Ref"].
Definition place_V : path := at_S [PKey "V"; PKey "Fn::If"; PIdx 1; PKey "Ref"].
Lemma shop_place_P : place shop place_P.
Proof. apply shop_place_key. eapply pl_key; [discriminate | reflexivity|]. eapply pl_if; [reflexivity | reflexivity | apply ref_place]. Qed.
Lemma shop_place_V : place shop place_V.
Proof. apply shop_place_key. eapply pl_key; [discriminate | reflexivity|]. eapply pl_if; [reflexivity | reflexivity | apply ref_place]. Qed.

Lemma shop_needs_V c x : needs shop place_V c x <-> c = "IsDev" /\ x = true.
Proof.
  split.
  - intros [H|[-> [s [n [r [E [Hs Hc]]]]]]].
    + unfold place_V, at_S in H. cbn [app] in H.
      repeat match goal with
      | H : passes _ (_ :: _) _ _ |- _ => inversion H; subst; clear H
      | E : assoc _ _ = Some _ |- _ => vm_compute in E; injection E as E; subst
      | E : nth_error _ _ = Some _ |- _ => vm_compute in E; injection E as E; subst
      end; auto. all: match goal with H : passes _ [] _ _ |- _ => inversion H end.
    + injection E as <- <- <-. destruct Hc as [d [m [o [E0 [E1 [E2 [E3 _]]]]]]]. injection E0 as <-. vm_compute in E1. injection E1 as <-. vm_compute in E2. injection E2 as <-. discriminate.
  - intros [-> ->]. left. unfold place_V, at_S. cbn [app]. do 4 (eapply ps_key; [reflexivity|]). eapply ps_then; reflexivity.
Qed.
Lemma shop_needs_P c x : needs shop place_P c x <-> c = "IsProd" /\ x = false.
Proof.
  split.
  - intros [H|[-> [s [n [r [E [Hs Hc]]]]]]].
    + unfold place_P, at_S in H. cbn [app] in H.
      repeat match goal with
      | H : passes _ (_ :: _) _ _ |- _ => inversion H; subst; clear H
      | E : assoc _ _ = Some _ |- _ => vm_compute in E; injection E as E; subst
      | E : nth_error _ _ = Some _ |- _ => vm_compute in E; injection E as E; subst
      end; auto. all: match goal with H : passes _ [] _ _ |- _ => inversion H end.
    + injection E as <- <- <-. destruct Hc as [d [m [o [E0 [E1 [E2 [E3 _]]]]]]]. injection E0 as <-. vm_compute in E1. injection E1 as <-. vm_compute in E2. injection E2 as <-. discriminate.
  - intros [-> ->]. left. unfold place_P, at_S. cbn [app]. do 4 (eapply ps_key; [reflexivity|]). eapply ps_else; reflexivity.
Qed.
Lemma shop_condition : condition_of "Resources" "R" shop "IsProd".
Proof. do 3 eexists. split; [reflexivity|]. repeat (split; [reflexivity|]). discriminate. Qed.

Definition dev_values (v : val) : string := if String.eqb (toy_hash v) (toy_hash (ref "a")) then "dev" else "2".
Definition dev_bools (n : string) : bool := String.eqb n "IsDev".
Lemma dev_deployment : deployment toy_hash env_params dev_values.
Proof.
  split.
  - intros c c' H. unfold dev_values. now rewrite H.
  - intros name attrs x xs [[= <- <-]|[[= <- <-]|[]]] Ha; [|discriminate]. injection Ha as <- <-.
    exists (VStr "dev"). split; [cbn; auto|]. left. reflexivity.
Qed.
Lemma dev_gives : gives env_defs dev_values ["IsProd"; "IsDev"; "Both"] dev_bools.
Proof.
  intros n [<-|[<-|[<-|[]]]]; eexists; (split; [reflexivity|]).
  - exact (env_truth_prod dev_values).
  - exact (env_truth_dev dev_values).
  - exact (env_truth_both dev_values).
Qed.

(** In the branch for the resource's condition being false the missing resource is not noticed. *)
Lemma c33_refuted : exists hash order template defs parameters fuel p resource rc names w b,
  (forall v, digest (hash v)) /\ (forall l, Permutation (order l) l) /\
  section_of "Conditions" template defs /\ section_of "Parameters" template parameters /\ plain_conditions template /\
  place template p /\ condition_of "Resources" resource template rc /\
  NoDup names /\ (forall n, In n names <-> n = rc \/ exists x, needs template p n x) /\
  (forall n, In n names -> mem_assoc n (cs_conditions (load hash fuel template)) = true) /\ List.length names <= 4 /\
  deployment hash parameters w /\ gives defs w names b /\ place_exists b template p /\ b rc = false /\
  is_resource_available order (load hash fuel template) template p resource = Ok [].
Proof.
  exists toy_hash, (fun l => l), shop, env_defs, env_params, 9, place_P, "R", "IsProd", ["IsProd"], dev_values, dev_bools.
  split; [apply toy_digest|]. split; [intros; apply Permutation_refl|]. split; [apply shop_conditions|]. split; [apply shop_parameters|].
  split; [apply shop_plain|]. split; [apply shop_place_P|]. split; [apply shop_condition|]. split; [repeat constructor; intros []|].
  split; [intros n; cbn; split; [intros [<-|[]]; now left | intros [->|[x Hx]]; [now left|]; apply shop_needs_P in Hx as [-> _]; now left]|].
  split; [intros n [<-|[]]; reflexivity|]. split; [cbn; lia|]. split; [apply dev_deployment|].
  split; [intros n [<-|[]]; apply dev_gives; now left|].
  split; [intros c x Hn; apply shop_needs_P in Hn as [-> ->]; reflexivity|]. split; [reflexivity|]. vm_compute. reflexivity.
Qed.
