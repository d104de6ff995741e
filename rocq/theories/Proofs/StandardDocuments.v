(** Findings of shipped rules about objects in resources, targets and documents, in whole runs (C97). *)
From Coq Require Import QArith Permutation ZArith.
From Verif.Model Require Import Base Node Locate Helpers Rules Runner Config Core Conditions Relationship Resolve PropertyRules PropertyTree Events JsonSize Standard.
From Verif.Spec Require Import Pipeline Paths Branches References Walk Resolved Nested Attributes Permissions Expected Events JsonSize Groups Shipped ShippedPlaces.
From Verif.Proofs Require Import BaseFacts SearchProofs PropertyRuleProofs ActionMain Places Says SizeProofs TargetProofs ExpectedProofs JsonSizeMain
  StandardProofs StandardRules StandardPlaces StandardObjects StandardProps StandardNested StandardTemplates.
Import Verif.Model.Rules.
Local Open Scope string_scope.

(** E3021. *)
Lemma srv_E3021 w sp tr k rg man c ds l : lints w sp tr k rg man c ds "E3021" l -> wf (template c) ->
  (forall n attrs pd, resource_of (template c) n "AWS::Events::Rule" attrs -> assoc "Properties" attrs = Some (VDict pd) -> targets_shaped pd /\ without "." n) ->
  tells_exactly c man ds l "E3021" (fun q words => exists n attrs pd, resource_of (template c) n "AWS::Events::Rule" attrs /\ assoc "Properties" attrs = Some (VDict pd) /\
    many_targets n pd q /\ words = many_words).
Proof.
  intros Hl Hw Hs.
  set (f := fun c (pd : list (string * val)) p => targets_check (counted_before (get_resources (template c)) (name_of p) []) (VDict pd) p).
  set (P := fun (rt : string) (pd : list (string * val)) (p : path) m => exists ms, f c pd p = Ok ms /\ In m ms).
  set (T := fun t => t = "AWS::Events::Rule").
  assert (A : forall name attrs pd, resource_of (template c) name "AWS::Events::Rule" attrs -> assoc "Properties" attrs = Some (VDict pd) ->
     exists ms, f c pd [PKey "Resources"; PKey name; PKey "Properties"] = Ok ms /\ (forall q, many_targets name pd q -> In (mkRM q many_words) ms) /\
    (forall m, In m ms -> exists n attrs pd q, resource_of (template c) n "AWS::Events::Rule" attrs /\ assoc "Properties" attrs = Some (VDict pd) /\ many_targets n pd q /\ m = mkRM q many_words)).
  { intros name attrs pd H1 H2. destruct (c73_targets c name attrs pd Hw Hs H1 H2) as (check & ms & E1 & E2 & K). injection E1 as <-. exists ms. exact (conj E2 K). }
  apply (tells_ext _ _ _ _ _ (fun q words => put_together sp (template c) (fun _ => False) T (fun _ => False) P (fun _ _ _ _ => False) (mkRM q words))).
  - intros q words. unfold put_together. split.
    + intros [[]|[(rt & pd & p & H1 & -> & ms & E & Hm)|(? & ? & ? & _ & [] & _)]]. destruct H1 as (name & attrs & R1 & R2 & ->).
      destruct (A _ _ _ R1 R2) as (ms' & E' & _ & K). rewrite E in E'. injection E' as <-. destruct (K _ Hm) as (n & at_ & pd_ & q_ & J1 & J2 & J3 & [= -> ->]). exists n, at_, pd_. auto.
    + intros (n & attrs & pd & R1 & R2 & Hq & ->). right. left. exists "AWS::Events::Rule", pd, [PKey "Resources"; PKey n; PKey "Properties"]. split; [exists n, attrs; auto|]. split; [reflexivity|].
      destruct (A _ _ _ R1 R2) as (ms & E & K & _). exists ms. split; [exact E|]. now apply K.
  - apply (tells_checked w sp tr k rg man c ds l "E3021" targets_rule); [exact Hl | is_rule | one_type | one_type | intros m [] | | intros n [] |].
    + intros rt pd p (name & attrs & R1 & R2 & ->) ->. destruct (A _ _ _ R1 R2) as (ms & E & _). exists ms. split; [exact E|]. intros m. split; [intros Hm; exists ms; auto | intros (ms' & E' & Hm)]. rewrite E in E'. now injection E' as <-.
    + intros m [[]|[(rt & pd & p & H1 & -> & ms & E & Hm)|(? & ? & ? & _ & [] & _)]]. destruct H1 as (name & attrs & R1 & R2 & ->).
      destruct (A _ _ _ R1 R2) as (ms' & E' & _ & K). rewrite E in E'. injection E' as <-. destruct (K _ Hm) as (n & at_ & pd_ & q_ & J1 & J2 & (x & tl & ts & J3 & J4 & _) & ->). cbn [rm_path].
      pose proof (resource_at c n _ at_ pd_ Hw J1 J2) as Ra. pose proof (member_at _ _ _ _ _ Ra J3) as Rx.
      apply (fine_there c q_); destruct J4 as [tl_ ->|c_ tl_ b_ ->|c_ a_ tl_ ->]; try discriminate.
      * eexists. exact Rx.
      * exists (VList tl_). change (at_path ((props_path n ++ [PKey "Targets"]) ++ [PKey "Fn::If"; PIdx 1])%list (template c) = Some (VList tl_)). rewrite at_path_app, Rx. reflexivity.
      * exists (VList tl_). change (at_path ((props_path n ++ [PKey "Targets"]) ++ [PKey "Fn::If"; PIdx 2])%list (template c) = Some (VList tl_)). rewrite at_path_app, Rx. reflexivity.
Qed.

(** E3502. *)
Lemma srv_E3502 w sp tr k rg man c ds l : lints w sp tr k rg man c ds "E3502" l -> wf (template c) ->
  let rs := w_rspec w in objects_nested sp (rs_property_types rs) (template c) ->
  (forall n d p specs, object_with sp (rs_resource_types rs) (rs_property_types rs) (template c) n d p specs ->
     plain_path p /\ tidy (VDict d) /\ ~ is_if (VDict d) /\ ~ In "Ref" (keys specs) /\ limits_known (w_json_max w) specs /\ (forall n, ~ rests_on (VDict d) n) /\
     (forall prop ps limit x, assoc prop specs = Some ps -> json_limit (w_json_max w) ps limit -> assoc prop d = Some x -> subs_written x)) ->
  tells_exactly c man ds l "E3502" (fun q words => exists n d p specs, object_with sp (rs_resource_types rs) (rs_property_types rs) (template c) n d p specs /\
    exists prop ps limit x, assoc prop specs = Some ps /\ json_limit (w_json_max w) ps limit /\ assoc prop d = Some x /\ x <> no_value /\
      too_long (fun q => String.length (w_float_text w q)) limit x /\ q = (p ++ [PKey prop])%list /\ words = json_words limit).
Proof.
  intros Hl Hw rs Ho Hs. destruct (lints_before _ _ _ _ _ _ _ _ _ _ Hl) as [_ Hg].
  set (P := fun (n : string) d p (specs : pspecs) m => exists prop ps limit x, assoc prop specs = Some ps /\ json_limit (w_json_max w) ps limit /\ assoc prop d = Some x /\ x <> no_value /\
      too_long (fun q => String.length (w_float_text w q)) limit x /\ m = mkRM (p ++ [PKey prop])%list (json_words limit)).
  assert (A : forall n d p a, object_with sp (rs_resource_types rs) (rs_property_types rs) (template c) n d p a ->
     says (json_check (w_float_text w) (w_order w) (load (w_hash w) (w_fuel w) (template c)) (template c) (w_globals w c) (w_json_max w) (VDict d) a p) (P n d p a)).
  { intros n d p a H. destruct (Hs n d p a H) as (H1 & H2 & H3 & H4 & H5 & H6 & H7). destruct (object_at _ _ _ _ _ _ _ _ Hw H) as [Ha Hn]. rewrite Hg.
    apply (c86_plain (w_float_text w) (template c) (VDict []) (w_json_max w) d a p Hw wf_empty Ha H1); auto. destruct p as [|[kk|ii] p]; [congruence | reflexivity | reflexivity]. }
  eapply (tells_specified w sp tr k rg man c ds l "E3502" _ _ _ (rs_resource_types rs) (rs_property_types rs) P); [exact Hl | is_rule | reflexivity | reflexivity | reflexivity | listed | listed | exact Hw | exact Ho | | | |].
  - intros n d p a H1 H2. cbn beta. unfold specs_of. fold rs. rewrite H2. apply A. left. auto.
  - intros n d p a H1 H2. cbn beta. unfold specs_of. fold rs. rewrite H2. apply A. right. auto.
  - intros n d p a q words. unfold P. setoid_rewrite mk_rm. reflexivity.
  - intros n d p a q words _ Ha _ (prop & ps & limit & x & _ & _ & H1 & _ & _ & -> & _). exact (parts_ok c p _ _ (member_at _ _ _ _ _ Ha H1)).
Qed.

(** E3002. *)
Definition single_choices (props : val) : Prop := forall c a b, inside props (If_of (VList [c; a; b])) -> ~ is_if a /\ ~ is_if b.
Lemma nested_none x p y q : (forall c a b, x = VList [c; a; b] -> ~ is_if a /\ ~ is_if b) -> nested_if x p y q -> y = x /\ q = p.
Proof. intros H K. destruct K as [x p|c x b p y q K|c a x p y q K]; [auto | |]; destruct (H _ _ _ eq_refl) as [H1 H2]; [elim H1 | elim H2]; eexists; reflexivity. Qed.
Lemma alternative_nonempty v p w q : alternative v p w q -> p <> [] -> q <> [].
Proof. induction 1 as [c a b p w q H IH|c a b p w q H IH|v p]; intros Hp; [apply IH; intros K; apply app_eq_nil in K as [_ [=]] | apply IH; intros K; apply app_eq_nil in K as [_ [=]] | exact Hp]. Qed.
Section Places.
Variables (rts pts : list (string * ospec)) (its : list (string * list string)) (t : val) (props : val).
Hypothesis Hc : single_choices props.
Hypothesis Hj : judgeable t props.
Definition at_place (q : path) : Prop := q <> [] /\ exists y, at_path q t = Some y.
Definition stands (v : val) (p : path) : Prop := (at_path p t = Some v /\ p <> []) /\ inside props v.
Lemma stands_at v p : stands v p -> at_place p.
Proof using. intros [[H1 H2] _]. split; [exact H2 | now exists v]. Qed.
Lemma longer (p : path) x : (p ++ [x])%list <> [].
Proof using. intros K. apply app_eq_nil in K as [_ [=]]. Qed.
Lemma if_stands x p : stands (If_of x) p -> at_path (p ++ [PKey "Fn::If"])%list t = Some x.
Proof using. intros [[H _] _]. rewrite at_path_app, H. reflexivity. Qed.
Lemma choice_stands x p y q i v : stands (If_of x) p -> nested_if x (p ++ [PKey "Fn::If"])%list y q -> chooses y i v -> stands v (q ++ [PIdx i])%list.
Proof using Hc Hj.
  intros Hs Hn Hv. destruct (nested_none _ _ _ _ (fun c a b E => Hc c a b (eq_ind x (fun z => inside props (If_of z)) (proj2 Hs) _ E)) Hn) as [-> ->].
  pose proof (if_stands _ _ Hs) as Ha. destruct Hs as [_ Hs]. destruct (proj1 Hj _ Hs) as [l ->].
  inversion Hv; subst; (split; [split; [rewrite at_path_app, Ha; reflexivity | apply longer]|]; eapply inside_trans; [exact Hs|]; eapply inside_trans; [apply inside_if|]; eapply in_item; [|apply in_here]; simpl; tauto).
Qed.
Lemma item_stands l p i x : stands (VList l) p -> nth_error l i = Some x -> stands x (p ++ [PIdx i])%list.
Proof using. intros [[H1 _] H2] H. split; [split; [rewrite at_path_app, H1; cbn [at_path]; now rewrite H | apply longer]|]. eapply inside_trans; [exact H2|]. now apply inside_item with i. Qed.
Lemma member_stands d p k x : wf t -> stands (VDict d) p -> In (k, x) d -> stands x (p ++ [PKey k])%list.
Proof using.
  intros Hw [[H1 _] H2] H. split; [split; [|apply longer]|eapply inside_trans; [exact H2|]; eapply in_member; [exact H | apply in_here]].
  assert (K : wf (VDict d)) by exact (at_path_wf _ _ _ Hw H1). apply wf_dict in K as [K _]. rewrite at_path_app, H1. cbn [at_path]. now rewrite (In_assoc _ _ _ K H).
Qed.
Lemma alternative_stands v p w q : stands v p -> alternative v p w q -> stands w q.
Proof using. intros [[H1 H3] H2] H. split; [split; [exact (alternative_at _ _ _ _ _ H H1) | exact (alternative_nonempty _ _ _ _ H H3)]|]. eapply inside_trans; [exact H2|]. exact (inside_alternative _ _ _ _ H). Qed.
Lemma gives_stands x p l q : stands x p -> gives_list x p l q -> stands (VList l) q.
Proof using Hc Hj. intros H K. destruct K as [l p|x p y q i l K1 K2]; [exact H | exact (choice_stands _ _ _ _ _ _ H K1 K2)]. Qed.
Lemma chosen_stands v p w q : chosen v p w q -> stands v p -> stands w q.
Proof using.
  induction 1 as [v p|c a b p w q H IH|c a b p w q H IH]; intros Hs; [exact Hs | |]; apply IH.
  - change [PKey "Fn::If"; PIdx 1] with ([PKey "Fn::If"] ++ [PIdx 1])%list. rewrite app_assoc. apply item_stands with [c; a; b]; [|reflexivity]. split; [split; [exact (if_stands _ _ Hs) | apply longer] | eapply inside_trans; [exact (proj2 Hs) | apply inside_if]].
  - change [PKey "Fn::If"; PIdx 2] with ([PKey "Fn::If"] ++ [PIdx 2])%list. rewrite app_assoc. apply item_stands with [c; a; b]; [|reflexivity]. split; [split; [exact (if_stands _ _ Hs) | apply longer] | eapply inside_trans; [exact (proj2 Hs) | apply inside_if]].
Qed.
Lemma primitive_stands prim v p q words : stands v p -> primitive_fault prim v p q words -> at_place q.
Proof using. intros H (w & K & _). destruct (String.eqb prim "Json"); [destruct K as [-> ->]; exact (stands_at _ _ H) | exact (stands_at _ _ (chosen_stands _ _ _ _ K H))]. Qed.
Definition place_stands (a : Expected.place) : Prop := let '(root, ty, v, p) := a in stands v p.
Lemma expects_stands parent a b : wf t -> expects rts pts parent a b -> place_stands a -> place_stands b.
Proof using Hc Hj.
  intros Hw H. destruct H; cbn [place_stands]; intros Hs.
  - eapply item_stands; eassumption.
  - eapply member_stands; eassumption.
  - eapply item_stands; [|eassumption]. eapply gives_stands; [|eassumption]. eapply member_stands; eassumption.
  - eapply alternative_stands; eassumption.
  - eapply item_stands; [|eassumption]. eapply alternative_stands; eassumption.
Qed.
Lemma reaches_stands parent a b : wf t -> reaches rts pts parent a b -> place_stands a -> place_stands b.
Proof using Hc Hj. intros Hw. induction 1; [auto|]. intros Hs. apply IHreaches. eapply expects_stands; eassumption. Qed.
Lemma list_fault_stands name prop x p q words : stands x p -> Expected.list_fault t name prop x p q words -> at_place q.
Proof using Hc Hj.
  intros Hs H. destruct H as [x p H1 H2|d p H1 H2|x n ty p H1 H2 H3 H4 H5|x p y q H1 H2|x p y q i v H1 H2 H3 H4 H5|x p y q i z n ty H1 H2 H3 H4 H5 H6];
    [exact (stands_at _ _ Hs) | exact (stands_at _ _ Hs) | exact (stands_at _ _ Hs) | | |].
  - destruct (nested_none _ _ _ _ (fun c a b E => Hc c a b (eq_ind x (fun z => inside props (If_of z)) (proj2 Hs) _ E)) H1) as [-> ->]. split; [apply longer | eexists; exact (if_stands _ _ Hs)].
  - exact (stands_at _ _ (choice_stands _ _ _ _ _ _ Hs H1 H2)).
  - exact (stands_at _ _ (choice_stands _ _ _ _ _ _ Hs H1 H2)).
Qed.
Lemma values_fault_stands name prop prim x p q words : stands x p -> values_fault its t name prop prim x p q words -> at_place q.
Proof using.
  intros Hs H. destruct H as [l i y p q words H1 H2|x p H1 H2|d r p H1 H2 H3|d s o ty p H1 H2 H3 H4 H5 H6|kk x p H1 H2]; try (exact (stands_at _ _ Hs)).
  eapply primitive_stands; [|exact H2]. eapply item_stands; eassumption.
Qed.
Lemma fault_stands parent name b q words : wf t -> place_stands b -> Expected.fault rts pts its t parent name b q words -> at_place q.
Proof using Hc Hj.
  intros Hw Hs H. destruct H as [root ty os v p H1 H2 H3 H4 H5|root ty os d p prop x H1 H2 H3 H4 H5 H6 H7 H8|root ty os d p prop x ms q words H1 H2 H3 H4 H5 H6|root ty os d p prop x ms prim q words H1 H2 H3 H4 H5 H6|root ty os d p prop x ms prim q words H1 H2 H3 H4 H5 H6]; cbn [place_stands] in Hs.
  - exact (stands_at _ _ Hs).
  - exact (stands_at _ _ (member_stands _ _ _ _ Hw Hs H3)).
  - eapply list_fault_stands; [exact (member_stands _ _ _ _ Hw Hs H2) | exact H6].
  - eapply values_fault_stands; [exact (member_stands _ _ _ _ Hw Hs H2) | exact H6].
  - eapply primitive_stands; [exact (member_stands _ _ _ _ Hw Hs H2) | exact H6].
Qed.
End Places.
Lemma tmpl_E3002 w sp tr k rg man c ds l : lints w sp tr k rg man c ds "E3002" l -> wf (template c) -> plain_sections (template c) -> text_types (template c) ->
  let rts := w_resource_objects w in let pts := w_property_objects w in
  (forall parent, In parent (keys rts) -> complete rts pts parent) ->
  (forall name rt props, described_resource rts (template c) name rt props -> judgeable (template c) props /\ forall c a b, inside props (If_of (VList [c; a; b])) -> ~ is_if a /\ ~ is_if b) ->
  tells_exactly c man ds l "E3002" (fun q words => exists name rt props (b : Expected.place), described_resource rts (template c) name rt props /\
    reaches rts pts rt (true, "", props, [PKey "Resources"; PKey name; PKey "Properties"]) b /\
    Expected.fault rts pts (w_intrinsic_types w) (template c) rt name b q words).
Proof.
  intros Hl Hw H1 H2 rts pts H3 H4. destruct (c65_total rts pts (w_intrinsic_types w) (template c) Hw H1 H2 H3 (fun n r p H => proj1 (H4 n r p H))) as [ms E].
  eapply (tells_as w sp tr k rg man c ds l "E3002"); [exact Hl | by_id | exists ms; split; [exact E | exact (c65_expected rts pts (w_intrinsic_types w) (template c) ms Hw H2 E)] | |].
  - intros q words. cbv beta. setoid_rewrite mk_rm. split; [intros (n & rt & props & b & q' & ws & K1 & K2 & K3 & -> & ->); exists n, rt, props, b; auto | intros (n & rt & props & b & K1 & K2 & K3); exists n, rt, props, b, q, words; auto 6].
  - intros q words (n & rt & props & b & K1 & K2 & K3). destruct (H4 _ _ _ K1) as [J1 J2].
    assert (S0 : stands (template c) props props [PKey "Resources"; PKey n; PKey "Properties"]).
    { split; [split; [|discriminate]|apply in_here]. destruct K1 as (o & rt' & (d & ss & D1 & D2 & D3) & _ & K & _). rewrite D1. cbn [at_path]. rewrite D2. cbn [at_path]. rewrite D3. cbn [at_path]. now rewrite K. }
    assert (S1 : place_stands (template c) props b) by exact (reaches_stands rts pts (template c) props J2 J1 rt _ b Hw K2 S0).
    destruct (fault_stands rts pts (w_intrinsic_types w) (template c) props J2 J1 rt n b q words Hw S1 K3) as [Q1 Q2]. now apply fine_there.
Qed.
