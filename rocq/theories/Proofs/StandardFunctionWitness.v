(** Runs in which the rules about functions and conditions have something to say (C96). *)
From Coq Require Import QArith Permutation.
From Verif.Model Require Import Base Node Locate Helpers Rules Runner Config Core Search Refs ConditionRules Relationship Functions Standard.
From Verif.Spec Require Import Pipeline Paths References ConditionUse ParameterUse FunctionArguments Attributes RuleSets Shipped ShippedPlaces.
From Verif.Proofs Require Import BaseFacts SearchProofs PipelineProofs RunProofs ReportProofs PropertyRuleProofs ConditionUseProofs PlaceholderProofs Samples RuleSetMain RuleSetWitness PropertyWitness WfDecide StandardProofs StandardMain StandardWitness StandardPropWitness.
Import Verif.Model.Rules.
Local Open Scope string_scope.

Definition fn (f : string) (v : val) : val := VDict [("Fn::" ++ f, v)].
Definition ref_to (n : string) : val := VDict [("Ref", VStr n)].
(** A template with a fault in each kind of function. *)
Definition calling_props : list (string * val) :=
  [("A", fn "Base64" (VList [VStr "a"])); ("B", VDict [("Ref", VList [])]); ("C", fn "GetAZs" (VStr "nowhere")); ("D", fn "ImportValue" (VList []));
   ("E", fn "Split" (VStr "a")); ("F", fn "Sub" (VList [VStr "${X}"; VDict [("X", VStr "x"); ("Y", VStr "y")]])); ("G", fn "Select" (VList [VStr "x"; VList [VStr "a"]]));
   ("H", fn "Join" (VList [VStr ""; VList [VStr "a"; VStr "b"]])); ("I", fn "Sub" (VStr "plain")); ("J", fn "FindInMap" (VList [VStr "Map"; VStr "no"; VStr "such"; VStr "map"]));
   ("K", fn "FindInMap" (VList [VStr "Map"; VStr "other"; VStr "key"])); ("L", fn "Cidr" (VList [VStr "10.0.0.0/16"; VStr "many"; VInt 8]));
   ("M", fn "GetAtt" (VList [VStr "Nothing"; VStr "Arn"])); ("N", fn "Join" (VStr "a")); ("O", fn "Sub" (VStr "${Nothing}"));
   ("P", fn "If" (VList [VStr "Often"; VStr "a"; VStr "b"])); ("Q", fn "If" (VList [VStr "Never"; VStr "a"])); ("R", fn "Not" (VStr "a"))].
Definition calling_conditions : list (string * val) :=
  [("Often", fn "Equals" (VList [VStr "a"; VInt 1])); ("Never", fn "And" (VList [VDict [("Condition", VStr "Often")]])); ("Empty", VStr "x");
   ("Both", fn "Or" (VList [VDict [("Condition", VStr "Absent")]])); ("Same", fn "Equals" (VList [VStr "a"]));
   ("Here", fn "Equals" (VList [ref_to "Topic"; VStr "b"])); ("Not", fn "Not" (VList []))].
Definition calling : val := VDict
  [("Parameters", VDict [("Size", VDict [("Type", VStr "Number")])]);
   ("Mappings", VDict [("Map", VDict [("first", VDict [("key", VStr "a")])])]);
   ("Conditions", VDict calling_conditions);
   ("Resources", VDict [("Topic", resource_with "AWS::SNS::Topic" calling_props)]);
   ("Outputs", VDict [("Out", VDict [("Condition", VStr "Missing"); ("Value", ref_to "Topic")])])].
Definition calling_cfn : cfn := mkCfn "t.yaml" "us-east-1" (marked calling).
Definition informed : settings := mkSettings false [] ["W"; "E"; "I"] [] [].
Definition function_ids : list string :=
  ["E1010"; "E1011"; "E1015"; "E1016"; "E1017"; "E1018"; "E1019"; "E1020"; "E1021"; "E1022"; "E1023"; "E1024"; "E1026"; "E1028"; "E8001"; "E8002"; "E8003"; "E8004"; "E8005"; "E8006";
   "W1011"; "W1019"; "W1020"; "I1022"].
Lemma calling_lints : exists l, Forall (fun id => exists fi, In fi l /\ f_rule fi = id) function_ids /\ forall id, In id function_ids ->
  lints stocked small_sp no_translator (mkColl (shipped stocked) informed) ["us-east-1"] [] calling_cfn [] id l.
Proof.
  eexists. split; [|intros id Hid]. 2:{
    split; [exact (proj1 (loaded_with stocked _ (Permutation_refl _)))|]. split; [exact small_spec_ok|]. split; [apply e0002_iff; reflexivity|].
    split. { apply is_enabled_spec. assert (A : forallb (fun i => is_enabled i false false [] ["W"; "E"; "I"] []) function_ids = true) by (vm_compute; reflexivity).
      rewrite forallb_forall in A. exact (A id Hid). }
    split; [split; [reflexivity | split; reflexivity]|]. split; [eexists; eexists; reflexivity|]. split; [vm_compute; reflexivity|].
    vm_compute. reflexivity. }
  apply Forall_forall. intros id Hid.
  match goal with |- exists fi, In fi ?l /\ _ => assert (A : forallb (fun i => existsb (fun fi => String.eqb (f_rule fi) i) l) function_ids = true) by (vm_compute; reflexivity) end.
  rewrite forallb_forall in A. specialize (A id Hid). apply existsb_exists in A as [fi [A B]]. exists fi. split; [exact A|]. now apply String.eqb_eq.
Qed.
Lemma calling_template : template calling_cfn = calling.
Proof. reflexivity. Qed.
Lemma calling_wf : wf (template calling_cfn).
Proof. apply wfb_sound; vm_compute; reflexivity. Qed.
Lemma calling_sections : plain_sections (template calling_cfn) /\ plain_mappings (template calling_cfn) /\ plain_maps (template calling_cfn) /\ plain_parameters (template calling_cfn) /\
  dotless_parameters (template calling_cfn).
Proof.
  rewrite calling_template. split; [|split; [|split; [|split]]].
  - eexists. split; [reflexivity|]. intros s x [<-|[<-|[]]] E; injection E as <-; eexists; (split; [reflexivity|]); intros n y [K|[]]; injection K as <- <-;
      (eexists; split; [reflexivity|]; split; [|reflexivity]); intros K t Q; [discriminate K|]. injection Q as <-. now eexists.
  - eexists. split; [reflexivity|]. intros x E. injection E as <-. now eexists.
  - eexists. split; [reflexivity|]. intros x E. injection E as <-. eexists. split; [reflexivity|]. intros n y [K|[]]. injection K as <- <-. eexists. split; [reflexivity|].
    intros kk z [K|[]]. injection K as <- <-. now eexists.
  - eexists. split; [reflexivity|]. intros x E. injection E as <-. eexists. split; [reflexivity|]. intros n y [K|[]]. injection K as <- <-. now eexists.
  - intros n o [d [m [E [Q H]]]]. injection E as <-. injection Q as <-. cbn in H. destruct (String.eqb n "Size") eqn:N; [|discriminate H]. apply String.eqb_eq in N. subst n.
    unfold dotless. cbn. intuition discriminate.
Qed.
Lemma calling_in f p v : occurs f calling (VDict []) p v -> In v (map snd (search_deep_keys f calling (VDict []))).
Proof. intros H. apply (occurs_search f calling p v); [exact calling_wf | exact H]. Qed.
(** Its uses of functions have the shapes the theorems ask for. *)
Lemma calling_subs : closed_subs (template calling_cfn) (VDict []) /\ (forall p a b, occurs "Fn::Sub" (template calling_cfn) (VDict []) p (VList [a; b]) -> text a).
Proof.
  rewrite calling_template. split.
  - intros p v s H Ht. apply calling_in in H. vm_compute in H. destruct H as [<-|[<-|[<-|[]]]]; inversion Ht; subst; apply closedb_sound; reflexivity.
  - intros p a b H. apply calling_in in H. vm_compute in H. destruct H as [H|[H|[H|[]]]]; try discriminate H. injection H as <- <-. now eexists.
Qed.
Lemma calling_uses :
  (forall p i x, occurs "Fn::Select" (template calling_cfn) (VDict []) p (VList [i; x]) -> i <> VNull /\ ~ list_ok i) /\
  (forall p, ~ occurs "Fn::Join" (template calling_cfn) (VDict []) p (VList [])) /\
  (forall p v, occurs "Fn::FindInMap" (template calling_cfn) (VDict []) p v ->
    list_ok v /\ ((exists x, v = VList x /\ 2 <= List.length x) \/ (~ list_ok v /\ forall i, ~ In (PIdx i) p))) /\
  (forall p a b, ~ occurs "Fn::Cidr" (template calling_cfn) (VDict []) p (VList [a; b])) /\
  (forall p, ~ occurs "Fn::If" (template calling_cfn) (VDict []) p (VList [])).
Proof.
  rewrite calling_template. split; [|split; [|split; [|split]]].
  - intros p i x H. apply calling_in in H. vm_compute in H. destruct H as [H|[]]. injection H as <- <-. split; [discriminate|]. intros [y H]; discriminate H.
  - intros p H. apply calling_in in H. vm_compute in H. destruct H as [H|[H|[]]]; discriminate H.
  - intros p v H. apply calling_in in H. vm_compute in H. destruct H as [<-|[<-|[]]]; (split; [now eexists|]); left; eexists; (split; [reflexivity|]); cbn; repeat constructor.
  - intros p a b H. apply calling_in in H. vm_compute in H. destruct H as [H|[]]; discriminate H.
  - intros p H. apply calling_in in H. vm_compute in H. destruct H as [H|[H|[]]]; discriminate H.
Qed.
Lemma calling_condition_uses : plain_uses (template calling_cfn) (VDict []) /\ at_path [PKey "Conditions"] (template calling_cfn) = Some (VDict calling_conditions) /\
  (forall r a b, occurs "Fn::Equals" (template calling_cfn) (VDict []) (PKey "Conditions" :: r) (VList [a; b]) -> plain_operand (template calling_cfn) a /\ plain_operand (template calling_cfn) b).
Proof.
  split; [|split; [reflexivity|]].
  - split; [|split; [reflexivity | exact (proj2 (proj2 (proj2 (proj2 calling_uses))))]]. eexists. split; [reflexivity|]. split.
    + intros s E. injection E as <-. now eexists.
    + intros s E. injection E as <-. eexists. split; [reflexivity|]. intros n x [K|[]]. injection K as <- <-. eexists. split; [reflexivity|]. intros cc Q. injection Q as <-. now eexists.
  - rewrite calling_template. intros r a b H. apply calling_in in H. vm_compute in H. destruct H as [H|[H|[H|[]]]]; try discriminate H; injection H as <- <-;
      (split; intros y K; try discriminate K). injection K as <-. eexists. split; [reflexivity|].
    split; [|split; [|split]].
    + eapply nm_resource with (t := "AWS::SNS::Topic"); [do 2 eexists; split; [reflexivity|]; split; reflexivity | reflexivity | discriminate | reflexivity].
    + intros o o' [[d [m [E [Q H]]]] _]. injection E as <-. injection Q as <-. discriminate H.
    + intros o K. apply smem_iff in K. discriminate K.
    + intros m rest H. exfalso. destruct H as [o [t [[d [rs [E [Q H]]]] [Ht He]]]]. injection E as <-. injection Q as <-. cbn [assoc] in H.
      destruct (String.eqb m "Topic"); [|discriminate H]. injection H as <-. injection Ht as <-. discriminate He.
Qed.
(** The data files of this world. *)
Lemma stocked_types : plain_types (w_getatts stocked) /\ forall x, Permutation (w_order_values stocked x) x.
Proof. split; [intros t a H; discriminate H | intros x; apply Permutation_refl]. Qed.

(** A template on which rules end in exceptions. *)
Definition crashing_props : list (string * val) :=
  [("A", fn "Cidr" (VList [VStr "10.0.0.0/16"; VInt 2])); ("B", fn "FindInMap" (VList [VStr "Map"])); ("C", fn "Join" (VList [])); ("D", fn "If" (VList []));
   ("E", fn "Select" (VList [VNull; VList []])); ("F", VList [fn "FindInMap" (VStr "text")]); ("G", fn "Sub" (VList [VInt 1; VDict []]))].
Definition crashing : val := VDict [("Resources", VDict [("Topic", resource_with "AWS::SNS::Topic" crashing_props)])].
Definition crashing_cfn : cfn := mkCfn "t.yaml" "us-east-1" (marked crashing).
Definition crashing_ids : list string := ["E1024"; "E1011"; "I1022"; "E1028"; "E8002"; "E1017"; "W1020"].
Lemma crashing_lints : exists l, (exists fi, In fi l /\ f_rule fi = "E0002") /\ forall id, In id crashing_ids ->
  lints stocked small_sp no_translator (mkColl (shipped stocked) informed) ["us-east-1"] [] crashing_cfn [] id l.
Proof.
  eexists. split; [|intros id Hid]. 2:{
    split; [exact (proj1 (loaded_with stocked _ (Permutation_refl _)))|]. split; [exact small_spec_ok|]. split; [apply e0002_iff; reflexivity|].
    split. { apply is_enabled_spec. assert (A : forallb (fun i => is_enabled i false false [] ["W"; "E"; "I"] []) crashing_ids = true) by (vm_compute; reflexivity).
      rewrite forallb_forall in A. exact (A id Hid). }
    split; [split; [reflexivity | split; reflexivity]|]. split; [eexists; eexists; reflexivity|]. split; [vm_compute; reflexivity|].
    vm_compute. reflexivity. }
  match goal with |- exists fi, In fi ?l /\ _ => assert (A : existsb (fun fi => String.eqb (f_rule fi) "E0002") l = true) by (vm_compute; reflexivity) end.
  apply existsb_exists in A as [fi [A B]]. exists fi. split; [exact A|]. now apply String.eqb_eq.
Qed.
(** The uses that end them. *)
Lemma crashing_wf : wf (template crashing_cfn).
Proof. apply wfb_sound; vm_compute; reflexivity. Qed.
Definition prop_at (n : string) : path := [PKey "Resources"; PKey "Topic"; PKey "Properties"; PKey n].
Lemma crashing_occurs f p v : In ((p ++ [PKey f])%list, v) (search_deep_keys f (template crashing_cfn) (VDict [])) -> occurs f (template crashing_cfn) (VDict []) p v.
Proof.
  intros H. apply in_search_deep in H as [q [E H]]; [|exact crashing_wf|apply wfb_sound; reflexivity]. now apply app_inj_tail in E as [-> _].
Qed.
Lemma crashing_uses :
  (exists m x y, leads (c_tmpl crashing_cfn) (prop_at "A" ++ [PKey "Fn::Cidr"])%list (MList m [x; y])) /\
  (exists m x, leads (c_tmpl crashing_cfn) (prop_at "B" ++ [PKey "Fn::FindInMap"])%list (MList m x) /\ List.length x < 2) /\
  occurs "Fn::Join" (template crashing_cfn) (VDict []) (prop_at "C") (VList []) /\ occurs "Fn::If" (template crashing_cfn) (VDict []) (prop_at "D") (VList []) /\
  occurs "Fn::Select" (template crashing_cfn) (VDict []) (prop_at "E") (VList [VNull; VList []]) /\
  occurs "Fn::FindInMap" (template crashing_cfn) (VDict []) (prop_at "F" ++ [PIdx 0])%list (VStr "text") /\
  occurs "Fn::Sub" (template crashing_cfn) (VDict []) (prop_at "G") (VList [VInt 1; VDict []]) /\ plain_mappings (template crashing_cfn) /\ plain_parameters (template crashing_cfn).
Proof.
  repeat split; try (apply crashing_occurs; vm_compute; tauto); try (eexists; split; [reflexivity | intros x E; discriminate E]).
  - do 3 eexists. repeat (eapply l_key; [reflexivity|]). apply l_here.
  - do 2 eexists. split; [repeat (eapply l_key; [reflexivity|]); apply l_here | cbn; repeat constructor].
Qed.
