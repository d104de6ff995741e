(** Runs on templates that share parts (C110). *)
From Coq Require Import List String Bool ZArith Permutation.
From Verif.Model Require Import Base Node Locate Helpers Rules Runner Config Core Resolve PropertyRules ValueRules Standard.
From Verif.Spec Require Import Pipeline Paths References Limited ConditionUse ParameterUse Branches Walk Required Resolved Groups Sizes Values Sensitive Shipped ShippedPlaces ShippedChecks Locality.
From Verif.Proofs Require Import BaseFacts SearchProofs PropertyRuleProofs PipelineProofs RunProofs Samples RuleSetMain RuleSetWitness PropertyWitness WfDecide ParameterValueProofs StandardProofs
  ReportProofs StandardMain StandardWitness StandardPropWitness StandardFunctionWitness ReorderedFacts ReorderedWitness LocalityProofs.
Import Verif.Model.Rules.
Import ListNotations.
Local Open Scope string_scope.

(** The busy template without most of its resources, without its parameters and with a description. *)
Definition spare_list : list (string * (string * list (string * val))) :=
  [("Old", ("AWS::Lambda::Function", old_props)); ("Schedule", ("AWS::Events::Rule", event_props))].
Definition spare : val := VDict
  [("Resources", VDict (map (fun r => (fst r, resource_with (fst (snd r)) (snd (snd r)))) spare_list)); ("Description", VStr "less")].
Definition spare_cfn : cfn := mkCfn "u.yaml" "us-east-1" (marked spare).
Lemma spare_template : template spare_cfn = spare.
Proof. reflexivity. Qed.
Lemma spare_wf : wf (template spare_cfn).
Proof. apply wfb_sound; vm_compute; reflexivity. Qed.
Lemma spare_resource name rt attrs : resource_of (template spare_cfn) name rt attrs -> In name ["Old"; "Schedule"].
Proof.
  rewrite spare_template. intros (top & rs & E & H1 & H2 & H3). injection E as <-. injection H1 as <-.
  change (In (name, VDict attrs) (map (fun r => (fst r, resource_with (fst (snd r)) (snd (snd r)))) spare_list)) in H2. apply in_map_iff in H2 as [[n [t pd]] [E Hi]]. cbn [fst snd] in E. injection E as <- _.
  destruct Hi as [Hi|[Hi|[]]]; injection Hi as <- _ _; cbn; auto.
Qed.
Lemma spare_same name : In name ["Old"; "Schedule"] -> at_path [PKey "Resources"; PKey name] (template spare_cfn) = at_path [PKey "Resources"; PKey name] (template busy_cfn).
Proof. intros [<-|[<-|[]]]; reflexivity. Qed.
Lemma spare_properties rt pd p : properties_of (template spare_cfn) rt pd p -> exists name, In name ["Old"; "Schedule"] /\ part_of [PKey "Resources"; PKey name] p.
Proof. intros (name & attrs & R & _ & ->). exists name. split; [exact (spare_resource _ _ _ R) | exists [PKey "Properties"]; reflexivity]. Qed.
Lemma spare_nested n v p : nested_of small_sp (template spare_cfn) n v p -> exists name, In name ["Old"; "Schedule"] /\ part_of [PKey "Resources"; PKey name] p.
Proof.
  intros (rt & pd & p0 & P & N & _). destruct (spare_properties _ _ _ P) as (name & I & B). exists name. split; [exact I|].
  destruct (resource_nested_below _ _ _ _ _ _ _ N) as (r & ->). destruct B as (s & ->). exists (s ++ r)%list. rewrite app_assoc. reflexivity.
Qed.
Lemma spare_in_busy : (forall rt pd p, properties_of (template spare_cfn) rt pd p -> properties_of (template busy_cfn) rt pd p) /\
  (forall n v p, nested_of small_sp (template spare_cfn) n v p -> nested_of small_sp (template busy_cfn) n v p).
Proof.
  split.
  - intros rt pd p H. destruct (spare_properties _ _ _ H) as (name & I & B). exact (same_properties _ _ _ _ _ _ _ spare_wf (spare_same _ I) B (part_refl _) H).
  - intros n v p H. destruct (spare_nested _ _ _ H) as (name & I & B). exact (same_nested _ _ _ _ _ _ _ _ spare_wf (spare_same _ I) B (part_refl _) H).
Qed.
Lemma spare_each {A} (rts pts : list (string * A)) good : each_object small_sp rts pts (template busy_cfn) good -> each_object small_sp rts pts (template spare_cfn) good.
Proof.
  intros [N G]. destruct spare_in_busy as [P Q]. split; [intros n v q H; exact (N _ _ _ (Q _ _ _ H))|].
  intros n d p a [[H E] | [H E]]; apply (G n d p a); [left | right]; auto.
Qed.
Lemma busy_each {A} (rts pts : list (string * A)) (good : list (string * val) -> path -> A -> Prop) :
  (forall n d p a, object_with small_sp rts pts (template busy_cfn) n d p a -> good d p a) ->
  each_object small_sp rts pts (template busy_cfn) good /\ each_object small_sp rts pts (template spare_cfn) good.
Proof.
  intros G. assert (K : each_object small_sp rts pts (template busy_cfn) good) by (split; [intros n v q H _; exact (busy_nested n v q H) | exact G]).
  split; [exact K | exact (spare_each _ _ _ K)].
Qed.
Definition spare_ids : list (string * string) :=
  [("E3034", "Old"); ("E1027", "Schedule"); ("E2520", "Schedule"); ("E2521", "Schedule"); ("E2522", "Schedule"); ("E2523", "Schedule"); ("E3003", "Schedule"); ("E3030", "Schedule"); ("E3031", "Schedule"); ("E3032", "Schedule"); ("E3033", "Schedule")].
Lemma spare_case : wf (template busy_cfn) /\ wf (template spare_cfn) /\
  (forall id n, In (id, n) spare_ids -> at_path [PKey "Resources"; PKey n] (template busy_cfn) = at_path [PKey "Resources"; PKey n] (template spare_cfn)) /\
  exists l l', Forall (fun idn => exists fi fi', In fi l /\ In fi' l' /\ f_rule fi = fst idn /\ f_rule fi' = fst idn) spare_ids /\ forall id n, In (id, n) spare_ids ->
    lints stocked small_sp no_translator (mkColl (shipped stocked) default_settings) ["us-east-1"] [] busy_cfn [] id l /\
    lints stocked small_sp no_translator (mkColl (shipped stocked) default_settings) ["us-east-1"] [] spare_cfn [] id l'.
Proof.
  split; [exact (proj1 busy_wf)|]. split; [exact spare_wf|]. split.
  { intros id n H. symmetry. apply spare_same. unfold spare_ids in H. cbn [In] in H. repeat (destruct H as [H|H]; [injection H as _ <-; cbn; auto|]). destruct H. }
  destruct busy_lints as (l & F & H). exists l.
  assert (N : forall id n, In (id, n) spare_ids -> In id normal /\ In id busy_rules).
  { assert (K : forallb (fun idn => smem (fst idn) normal && smem (fst idn) busy_rules) spare_ids = true) by (vm_compute; reflexivity). rewrite forallb_forall in K.
    intros id n I. specialize (K _ I). cbn [fst] in K. apply andb_true_iff in K as [K1 K2]. split; now apply smem_iff. }
  assert (R : exists l', Forall (fun idn => exists fi, In fi l' /\ f_rule fi = fst idn) spare_ids /\ forall id, In id normal ->
    lints stocked small_sp no_translator (mkColl (shipped stocked) default_settings) ["us-east-1"] [] spare_cfn [] id l').
  { eexists. split; [|intros id Hid]. 2:{
      split; [exact (proj1 (loaded_with stocked _ (Permutation_refl _)))|]. split; [exact small_spec_ok|]. split; [apply e0002_iff; reflexivity|].
      split. { apply is_enabled_spec. assert (A : forallb (fun i => is_enabled i false false [] ["W"; "E"] []) normal = true) by (vm_compute; reflexivity).
        rewrite forallb_forall in A. exact (A id Hid). }
      split; [split; [reflexivity | split; reflexivity]|]. split; [eexists; eexists; reflexivity|]. split; [vm_compute; reflexivity|].
      vm_compute. reflexivity. }
    apply Forall_forall. intros [id n] Hid.
    match goal with |- exists fi, In fi ?l /\ _ => assert (A : forallb (fun i => existsb (fun fi => String.eqb (f_rule fi) (fst i)) l) spare_ids = true) by (vm_compute; reflexivity) end.
    rewrite forallb_forall in A. specialize (A _ Hid). apply existsb_exists in A as [fi [A B]]. exists fi. split; [exact A|]. now apply String.eqb_eq. }
  destruct R as (l' & F' & H'). exists l'. split; [|intros id n I; split; [apply H | apply H']; exact (proj1 (N _ _ I))].
  apply Forall_forall. intros [id n] I. rewrite Forall_forall in F, F'. destruct (F id (proj2 (N _ _ I))) as (fi & A & B). destruct (F' _ I) as (fi' & A' & B').
  exists fi, fi'. auto.
Qed.
Lemma spare_meets : let rs := w_rspec stocked in
  ~ In "" (keys (rs_value_types rs)) /\ ~ In "" (keys (w_values stocked)) /\ (forall x, Permutation (w_order stocked x) x) /\
  (let both good := each_object small_sp (rs_resource_types rs) (rs_property_types rs) (template busy_cfn) good /\ each_object small_sp (rs_resource_types rs) (rs_property_types rs) (template spare_cfn) good in
   both (fun d p _ => ~ is_if (VDict d) /\ VDict d <> NoValue /\ no_null_member d p) /\
   both (fun d p _ => all_objects (VDict d) p /\ forall e q, branch (VDict d) p (VDict e) q -> plain_object e /\ VDict e <> no_value /\ forall m, ~ members_look_at e m) /\
   both (fun d p _ => all_objects (VDict d) p /\ no_null_property (VDict d) p) /\
   both (fun d p _ => no_null_member d p /\ forall prop x r, assoc prop d = Some x -> ~ single x (p ++ [PKey prop])%list (VDict [("Fn::Sub", VList [])]) r)) /\
  (let both (tables : list (string * list (string * list string)) * list (string * list (string * list string))) good :=
     each_object small_sp (fst tables) (snd tables) (template busy_cfn) good /\ each_object small_sp (fst tables) (snd tables) (template spare_cfn) good in
   both (w_exclusive stocked) (fun d p _ => plain_object d /\ VDict d <> no_value /\ forall m, ~ members_look_at d m) /\
   both (w_inclusive stocked) (fun d p _ => plain_object d /\ VDict d <> no_value /\ forall m, ~ members_look_at d m)) /\
  (let both (tables : list (string * list (list string)) * list (string * list (list string))) :=
     each_object small_sp (fst tables) (snd tables) (template busy_cfn) (fun d p groups => groups_fit d p groups) /\ each_object small_sp (fst tables) (snd tables) (template spare_cfn) (fun d p groups => groups_fit d p groups) in
   both (w_at_least_one stocked) /\ both (w_only_one stocked)).
Proof.
  cbv zeta. destruct busy_objects as (V1 & V2 & _ & _ & _ & _ & _ & _ & _ & _ & O & X1 & X2 & G1 & G2 & _). cbv zeta in *.
  split; [exact V1|]. split; [exact V2|]. split; [intros x; apply Permutation_refl|]. split; [|split].
  - split; [|split; [|split]]; apply busy_each; intros m d p a H; destruct (O _ _ _ _ H) as (? & ? & ? & ? & ? & ? & ? & ? & ? & ? & ?); auto.
  - split; apply busy_each; [exact X1 | exact X2].
  - split; apply busy_each; [exact G1 | exact G2].
Qed.
Lemma spare_required t : t = template busy_cfn \/ t = template spare_cfn -> types_are_texts t /\ objects_nested small_sp (rs_property_types (w_rspec stocked)) t /\
  (forall name rt attrs x, resource_of t name rt attrs -> custom_type (w_rspec stocked) rt -> assoc "Properties" attrs = Some x ->
     exists props, x = VDict props /\ all_members (VDict props) [PKey "Resources"; PKey name; PKey "Properties"]) /\
  (forall m d p specs, object_with small_sp (rs_resource_types (w_rspec stocked)) (rs_property_types (w_rspec stocked)) t m d p specs -> all_members (VDict d) p).
Proof.
  destruct busy_objects as (_ & _ & _ & T & _ & N & _ & C & _ & _ & O & _). cbv zeta in *. intros [-> | ->].
  - split; [exact T|]. split; [exact (N _ _)|]. split; [exact C|]. intros m d p specs H. exact (proj1 (proj2 (proj2 (proj2 (O _ _ _ _ H))))).
  - assert (E : each_object small_sp (rs_resource_types (w_rspec stocked)) (rs_property_types (w_rspec stocked)) (template spare_cfn) (fun d p _ => all_members (VDict d) p)).
    { apply busy_each. intros m d p specs H. exact (proj1 (proj2 (proj2 (proj2 (O _ _ _ _ H))))). }
    split. { intros top rs name attrs ty E1 E2 Hi E3. right. rewrite spare_template in E1. injection E1 as <-. injection E2 as <-.
      change (In (name, VDict attrs) (map (fun r => (fst r, resource_with (fst (snd r)) (snd (snd r)))) spare_list)) in Hi. apply in_map_iff in Hi as [[n [t pd]] [E1 Hi]]. cbn [fst snd] in E1. injection E1 as <- <-. injection E3 as <-. eauto. }
    split; [exact (proj1 E)|]. split; [|exact (proj2 E)].
    intros name rt attrs x R. pose proof (spare_resource _ _ _ R) as I. exact (C name rt attrs x (same_resource _ _ _ _ _ spare_wf (spare_same _ I) R)).
Qed.

(** The jumbled template with other parts beside some of its own. *)
Definition mixed : val := VDict
  [("Resources", VDict
      [("Other", VDict [("Type", VStr "AWS::SNS::Topic"); ("DeletionPolicy", VStr "Keep")]);
       ("Queue", VDict [("Type", VStr "AWS::SQS::Queue"); ("DeletionPolicy", VStr "Retain")]);
       ("Topic", resource_with "AWS::SNS::Topic" [("A", fn "Base64" (VList [VStr "a"])); ("B", ref_to "Nothing"); ("C", fn "If" (VList [VStr "Often"; VStr "a"]))])]);
   ("Conditions", VDict [("Never", fn "And" (VList [VDict [("Condition", VStr "Often")]]))]);
   ("Mappings", VDict [("Another", VDict []); ("Map", VDict [("first", VDict [("key", VStr "a")])])]);
   ("Parameters", VDict [("Topic", VDict [("Default", VInt 1)]); ("Size", VDict [("Type", VStr "Number"); ("MaxLength", VStr "many")]); ("More", VDict [])]);
   ("Outputs", VDict [("Out-2", VDict [("Value", VStr "a")]); ("Out-1", VDict [("Description", VList [VStr "c"])])])].
Definition third_cfn : cfn := mkCfn "u.yaml" "us-east-1" (marked mixed).
Definition shared_parts : list (string * path) :=
  [("E1021", [PKey "Resources"; PKey "Topic"]); ("E8004", [PKey "Conditions"; PKey "Never"]); ("E1028", [PKey "Resources"; PKey "Topic"; PKey "Properties"]);
   ("E6004", [PKey "Outputs"; PKey "Out-1"]); ("E6002", [PKey "Outputs"; PKey "Out-1"]); ("E6005", [PKey "Outputs"; PKey "Out-1"]);
   ("E2001", [PKey "Parameters"; PKey "Topic"]); ("W3011", [PKey "Resources"; PKey "Queue"]); ("I3011", [PKey "Resources"; PKey "Queue"])].
Lemma third_wf : wf (template third_cfn).
Proof. apply wfb_sound; vm_compute; reflexivity. Qed.
Lemma shared_case : wf (template first_cfn) /\ wf (template third_cfn) /\
  (forall id p, In (id, p) shared_parts -> at_path p (template first_cfn) = at_path p (template third_cfn) /\ at_path p (template first_cfn) <> None) /\
  exists l l', Forall (fun idp => exists fi fi', In fi l /\ In fi' l' /\ f_rule fi = fst idp /\ f_rule fi' = fst idp) shared_parts /\ forall id p, In (id, p) shared_parts ->
    lints stocked small_sp no_translator (mkColl (shipped stocked) informed) ["us-east-1"] [] first_cfn [] id l /\
    lints stocked small_sp no_translator (mkColl (shipped stocked) informed) ["us-east-1"] [] third_cfn [] id l'.
Proof.
  split; [exact first_wf|]. split; [exact third_wf|]. split.
  { intros id p H. unfold shared_parts in H. cbn [In] in H. repeat (destruct H as [H|H]; [injection H as _ <-; split; [reflexivity | vm_compute; discriminate]|]). destruct H. }
  destruct order_runs as (l & l0 & F & H0). exists l.
  assert (H : forall id, In id ("E8002" :: order_ids) -> lints stocked small_sp no_translator (mkColl (shipped stocked) informed) ["us-east-1"] [] first_cfn [] id l) by (intros id I; exact (proj1 (H0 id I))).
  assert (N : forall id p, In (id, p) shared_parts -> In id order_ids).
  { assert (K : forallb (fun idn => smem (fst idn) order_ids) shared_parts = true) by (vm_compute; reflexivity). rewrite forallb_forall in K.
    intros id n I. specialize (K _ I). cbn [fst] in K. now apply smem_iff. }
  assert (R : exists l', Forall (fun idn => exists fi, In fi l' /\ f_rule fi = fst idn) shared_parts /\ forall id, In id ("E8002" :: order_ids) ->
    lints stocked small_sp no_translator (mkColl (shipped stocked) informed) ["us-east-1"] [] third_cfn [] id l').
  { eexists. split; [|intros id Hid; eapply jumbled_lints; [vm_compute; reflexivity | eexists; eexists; reflexivity | vm_compute; reflexivity | intros i _; split; [reflexivity | split; reflexivity] | exact Hid]].
    apply Forall_forall. intros [id n] Hid.
    match goal with |- exists fi, In fi ?l /\ _ => assert (A : forallb (fun i => existsb (fun fi => String.eqb (f_rule fi) (fst i)) l) shared_parts = true) by (vm_compute; reflexivity) end.
    rewrite forallb_forall in A. specialize (A _ Hid). apply existsb_exists in A as [fi [A B]]. exists fi. split; [exact A|]. now apply String.eqb_eq. }
  destruct R as (l' & F' & H'). exists l'. split; [|intros id n I; pose proof (or_intror (N _ _ I) : In id ("E8002" :: order_ids)) as J; split; [exact (H id J) | exact (H' id J)]].
  apply Forall_forall. intros [id n] I. rewrite Forall_forall in F, F'. destruct (F id (N _ _ I)) as (fi & A & B). destruct (F' _ I) as (fi' & A' & B').
  exists fi, fi'. auto.
Qed.
(** Its sections are objects whose members are objects with usual names, no Fn::If is empty, and the policies are given. *)
Definition parts (c : cfn) (s : string) : list (string * val) := match template c with VDict d => match assoc s d with Some (VDict m) => m | _ => [] end | _ => [] end.
Lemma shared_meets :
  (forall c s, In c [first_cfn; third_cfn] -> In s ["Parameters"; "Outputs"; "Mappings"; "Resources"] -> section (template c) s (parts c s) /\
     (forall n x, In (n, x) (parts c s) -> (exists def, x = VDict def) /\ forall t, n <> t ++ String "010" "")) /\
  (forall c q, In c [first_cfn; third_cfn] -> ~ occurs "Fn::If" (template c) (VDict []) q (VList [])) /\
  (forall t m o v attr, t = template first_cfn \/ t = template third_cfn -> In attr ["DeletionPolicy"; "UpdateReplacePolicy"] -> Protect.resource t m o -> assoc attr o = Some v -> ~ Faults.empty v) /\
  Faults.known_regions (w_specs stocked) (w_regions stocked).
Proof.
  split.
  { intros c s Hc H. assert (K : forallb (fun nx => is_object (snd nx) && negb (last_is "010" (fst nx))) (parts c s) = true /\ section (template c) s (parts c s)).
    { destruct Hc as [<-|[<-|[]]]; destruct H as [<-|[<-|[<-|[<-|[]]]]]; (split; [vm_compute; reflexivity | eexists; split; reflexivity]). }
    destruct K as [K S]. rewrite forallb_forall in K. split; [exact S|]. intros n x I. specialize (K _ I). cbn [fst snd] in K. apply andb_prop in K as [K1 K2]. split.
    - destruct x; try discriminate K1. eexists; reflexivity.
    - intros t ->. rewrite last_is_end in K2. discriminate K2. }
  split.
  { assert (K : forall c q, wf (template c) -> existsb empty_list (map snd (Search.search_deep_keys "Fn::If" (template c) (VDict []))) = false -> ~ occurs "Fn::If" (template c) (VDict []) q (VList [])).
    { intros c q W E H. apply (PlaceholderProofs.occurs_search "Fn::If") in H; [|exact W]. enough (X : true = false) by discriminate X. rewrite <- E. symmetry. apply existsb_exists. exists (VList []). split; [exact H | reflexivity]. }
    intros c q [<-|[<-|[]]]; apply K; [exact first_wf | vm_compute; reflexivity | exact third_wf | vm_compute; reflexivity]. }
  split.
  { intros t m o v attr Ht Ha ((d & rs & E & S & A) & T) V. apply assoc_In in A.
    destruct Ht as [-> | ->]; vm_compute in E; injection E as <-; vm_compute in S; injection S as <-; cbn [In] in A;
      repeat (destruct A as [A|A]; [injection A as <- <-; destruct Ha as [<-|[<-|[]]]; vm_compute in V; try discriminate V; injection V as <-; intros X; repeat (destruct X as [X|X]; [discriminate X || (destruct X as (? & X & _); discriminate X)|]); discriminate X|]); destruct A. }
  eexists. eexists. eexists. split; reflexivity.
Qed.
