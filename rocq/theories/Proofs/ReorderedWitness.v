(** Runs on templates that differ only in the order of members (C109). *)
From Coq Require Import List String Bool ZArith Permutation.
From Verif.Model Require Import Base Node Locate Helpers Rules Runner Config Core ConditionRules Standard.
From Verif.Spec Require Import Pipeline Paths References Limited ConditionUse ParameterUse Shipped ShippedPlaces Reordered.
From Verif.Proofs Require Import BaseFacts SearchProofs PipelineProofs RunProofs Samples RuleSetMain RuleSetWitness PropertyWitness PlaceholderProofs ConditionUseProofs WfDecide StandardProofs
  ReportProofs StandardMain StandardWitness StandardPropWitness StandardFunctionWitness ReorderedFacts.
Import Verif.Model.Rules.
Import ListNotations.
Local Open Scope string_scope.

(** All members in the opposite order. *)
Fixpoint reversed (v : val) : val :=
  match v with
  | VList l => VList (map reversed l)
  | VDict d => VDict (rev (map (fun kv => (fst kv, reversed (snd kv))) d))
  | _ => v
  end.
Lemma reversed_reordered v : reordered v (reversed v).
Proof.
  induction v as [|b|z|q|t|l IH|d IH] using val_ind'; try (apply ro_value; exact Logic.I).
  - apply ro_list. cbn [reversed]. induction IH; [constructor|]. constructor; assumption.
  - cbn [reversed]. apply (ro_object _ (rev d)); [apply Permutation_rev|]. rewrite <- map_rev.
    assert (H : Forall (fun kv => reordered (snd kv) (reversed (snd kv))) (rev d)) by (apply Forall_rev; exact IH).
    clear IH. induction H; [constructor|]. constructor; [split; [reflexivity | assumption] | assumption].
Qed.

(** A template with faults of all kinds. *)
Definition jumbled : val := VDict
  [("Description", VList [VStr "a"]); ("Extra", VStr "b");
   ("Parameters", VDict [("Size", VDict [("Type", VStr "Number"); ("MaxLength", VStr "many")]); ("Topic", VDict [("Default", VInt 1)])]);
   ("Mappings", VDict [("Map", VDict [("first", VDict [("key", VStr "a")])])]);
   ("Conditions", VDict [("Often", fn "Equals" (VList [VStr "a"; VStr "b"])); ("Never", fn "And" (VList [VDict [("Condition", VStr "Often")]]))]);
   ("Resources", VDict
      [("Topic", resource_with "AWS::SNS::Topic" [("A", fn "Base64" (VList [VStr "a"])); ("B", ref_to "Nothing"); ("C", fn "If" (VList [VStr "Often"; VStr "a"]))]);
       ("Queue", VDict [("Type", VStr "AWS::SQS::Queue"); ("DeletionPolicy", VStr "Retain")])]);
   ("Outputs", VDict [("Out-1", VDict [("Description", VList [VStr "c"])])])].
Definition first_cfn : cfn := mkCfn "t.yaml" "us-east-1" (marked jumbled).
Definition second_cfn : cfn := mkCfn "t.yaml" "us-east-1" (marked (reversed jumbled)).
Definition order_ids : list string :=
  ["E1021"; "E8004"; "W3011"; "I3011"; "E1001"; "E1004"; "E6004"; "E2001"; "E6002"; "E6005"; "E3007"; "E1028"; "W8001"; "W2001"; "W7001"; "E1012"].
Lemma jumbled_lints (c : cfn) l : snd (run_checks small_sp no_translator (mkColl (shipped stocked) informed) ["us-east-1"] [] c) = Findings l ->
  (exists m d, c_tmpl c = MDict m d) -> get_directives (c_tmpl c) = Ok [] -> (forall id, In id ("E8002" :: order_ids) -> seen_as_is stocked c id) ->
  forall id, In id ("E8002" :: order_ids) -> lints stocked small_sp no_translator (mkColl (shipped stocked) informed) ["us-east-1"] [] c [] id l.
Proof.
  intros R T D S id Hid.
  split; [exact (proj1 (loaded_with stocked _ (Permutation_refl _)))|]. split; [exact small_spec_ok|]. split; [apply e0002_iff; reflexivity|].
  split. { apply is_enabled_spec. assert (A : forallb (fun i => is_enabled i false false [] ["W"; "E"; "I"] []) ("E8002" :: order_ids) = true) by (vm_compute; reflexivity).
    rewrite forallb_forall in A. exact (A id Hid). }
  split; [exact (S id Hid)|]. split; [exact T|]. split; [exact D | exact R].
Qed.
Lemma first_wf : wf (template first_cfn).
Proof. apply wfb_sound; vm_compute; reflexivity. Qed.
Lemma jumbled_order : reordered (template first_cfn) (template second_cfn) /\ template first_cfn <> template second_cfn.
Proof.
  assert (E1 : template first_cfn = jumbled) by reflexivity. assert (E2 : template second_cfn = reversed jumbled) by (vm_compute; reflexivity).
  rewrite E1, E2. split; [apply reversed_reordered | intros E; vm_compute in E; discriminate E].
Qed.
Lemma order_runs : exists l l', Forall (fun id => exists fi, In fi l /\ f_rule fi = id) order_ids /\ forall id, In id ("E8002" :: order_ids) ->
  lints stocked small_sp no_translator (mkColl (shipped stocked) informed) ["us-east-1"] [] first_cfn [] id l /\
  lints stocked small_sp no_translator (mkColl (shipped stocked) informed) ["us-east-1"] [] second_cfn [] id l'.
Proof.
  eexists. eexists. split; [|intros id Hid; split; (eapply jumbled_lints; [vm_compute; reflexivity | eexists; eexists; reflexivity | vm_compute; reflexivity | intros i _; split; [reflexivity | split; reflexivity] | exact Hid])].
  apply Forall_forall. intros id Hid.
  match goal with |- exists fi, In fi ?l /\ _ => assert (A : forallb (fun i => existsb (fun fi => String.eqb (f_rule fi) i) l) order_ids = true) by (vm_compute; reflexivity) end.
  rewrite forallb_forall in A. specialize (A id Hid). apply existsb_exists in A as [fi [A B]]. exists fi. split; [exact A|]. now apply String.eqb_eq.
Qed.
Lemma order_case : wf (template first_cfn) /\ reordered (template first_cfn) (template second_cfn) /\ template first_cfn <> template second_cfn /\
  exists l l', Forall (fun id => exists fi, In fi l /\ f_rule fi = id) order_ids /\ forall id, In id order_ids ->
    lints stocked small_sp no_translator (mkColl (shipped stocked) informed) ["us-east-1"] [] first_cfn [] id l /\
    lints stocked small_sp no_translator (mkColl (shipped stocked) informed) ["us-east-1"] [] second_cfn [] id l'.
Proof.
  split; [exact first_wf|]. split; [exact (proj1 jumbled_order)|]. split; [exact (proj2 jumbled_order)|]. destruct order_runs as (l & l' & F & H).
  exists l, l'. split; [exact F|]. intros id I. exact (H id (or_intror I)).
Qed.

(** A condition that is not defined and that two resources name, on lines 4 and 7 of either template. *)
Definition two_resources (a b : string) : mval :=
  MDict (mkMark 0 0 9 0)
    [(("Resources", Some (ln 0 0 9)), MDict (mkMark 1 2 9 0)
       [((a, Some (ln 1 2 3)), MDict (mkMark 2 4 4 0)
          [(("Type", Some (ln 2 4 8)), MStr (ln 2 10 25) "AWS::SNS::Topic"); (("Condition", Some (ln 3 4 13)), MStr (ln 3 15 20) "Gone")]);
        ((b, Some (ln 4 2 3)), MDict (mkMark 5 4 8 0)
          [(("Type", Some (ln 5 4 8)), MStr (ln 5 10 25) "AWS::SNS::Topic"); (("Condition", Some (ln 6 4 13)), MStr (ln 6 15 20) "Gone")])])].
Definition ab_cfn : cfn := mkCfn "t.yaml" "us-east-1" (two_resources "A" "B").
Definition ba_cfn : cfn := mkCfn "t.yaml" "us-east-1" (two_resources "B" "A").
Definition told (l : list finding) : list (string * string * Z) := map (fun fi => (f_rule fi, f_msg fi, f_line fi)) (filter (fun fi => String.eqb (f_rule fi) "E8002") l).
Lemma order_place : wf (template ab_cfn) /\ reordered (template ab_cfn) (template ba_cfn) /\
  exists l l', lints stocked small_sp no_translator (mkColl (shipped stocked) informed) ["us-east-1"] [] ab_cfn [] "E8002" l /\
    lints stocked small_sp no_translator (mkColl (shipped stocked) informed) ["us-east-1"] [] ba_cfn [] "E8002" l' /\
    told l = [("E8002", "Condition Gone is not defined.", 7%Z)] /\ told l' = [("E8002", "Condition Gone is not defined.", 7%Z)] /\
    position (c_tmpl ab_cfn) [PKey "Resources"; PKey "B"; PKey "Condition"] 2 (ln 6 4 13) /\
    position (c_tmpl ba_cfn) [PKey "Resources"; PKey "A"; PKey "Condition"] 2 (ln 6 4 13) /\
    position (c_tmpl ba_cfn) [PKey "Resources"; PKey "B"; PKey "Condition"] 2 (ln 3 4 13).
Proof.
  split; [apply wfb_sound; vm_compute; reflexivity|]. split.
  { assert (R : forall v, reordered v v).
    { clear. intros v. induction v as [|b|z|q|t|l IH|d IH] using val_ind'; try (apply ro_value; exact Logic.I).
      - apply ro_list. induction IH; constructor; assumption.
      - apply (ro_object _ d); [apply Permutation_refl|]. induction IH; constructor; [split; [reflexivity | assumption] | assumption]. }
    apply (ro_object _ (match template ab_cfn with VDict d => d | _ => [] end)); [apply Permutation_refl|]. constructor; [|constructor]. split; [reflexivity|]. cbn [snd].
    eapply ro_object; [apply perm_swap|]. constructor; [|constructor; [|constructor]]; (split; [reflexivity | apply R]). }
  eexists. eexists. split; [eapply jumbled_lints; [vm_compute; reflexivity | eexists; eexists; reflexivity | vm_compute; reflexivity | intros i _; split; [reflexivity | split; reflexivity] | left; reflexivity]|].
  split; [eapply jumbled_lints; [vm_compute; reflexivity | eexists; eexists; reflexivity | vm_compute; reflexivity | intros i _; split; [reflexivity | split; reflexivity] | left; reflexivity]|].
  split; [vm_compute; reflexivity|]. split; [vm_compute; reflexivity|].
  assert (K : forall t a p m x, (exists d m0, x = MDict m0 d /\ keymark p d = Some m) -> leads t [PKey "Resources"; PKey a] x -> position t [PKey "Resources"; PKey a; PKey p] 2 m).
  { clear. intros t a p m x (d & m0 & -> & E) L. exists [PKey "Resources"; PKey a], (PKey p), [], (MDict m0 d). split; [reflexivity|]. split; [reflexivity|]. split; [exact L|].
    apply mi_key. exact E. }
  split; [|split]; (eapply K; [|eapply l_key; [reflexivity|]; eapply l_key; [reflexivity|]; apply l_here]); eexists; eexists; (split; [reflexivity|]); reflexivity.
Qed.
(** The template meets what the theorems on single rules assume. *)
Definition part (s : string) : list (string * val) := match template first_cfn with VDict d => match assoc s d with Some (VDict m) => m | _ => [] end | _ => [] end.
Definition is_object (x : val) : bool := match x with VDict _ => true | _ => false end.
Fixpoint last_is (a : Ascii.ascii) (s : string) : bool := match s with EmptyString => false | String b EmptyString => Ascii.eqb a b | String _ t => last_is a t end.
Lemma last_is_end a t : last_is a (t ++ String a "") = true.
Proof. induction t as [|b t IH]; [cbn; apply Ascii.eqb_refl|]. cbn [append last_is]. destruct (t ++ String a "") eqn:E; [destruct t; discriminate E | exact IH]. Qed.
Lemma part_objects s : In s ["Parameters"; "Outputs"] -> section (template first_cfn) s (part s) /\ (forall n x, In (n, x) (part s) -> exists def, x = VDict def) /\
  (forall n x, In (n, x) (part s) -> forall t, n <> t ++ String "010" "").
Proof.
  intros H. assert (K : forallb (fun nx => is_object (snd nx) && negb (last_is "010" (fst nx))) (part s) = true /\ section (template first_cfn) s (part s)).
  { destruct H as [<-|[<-|[]]]; (split; [vm_compute; reflexivity | eexists; split; reflexivity]). }
  destruct K as [K S]. rewrite forallb_forall in K. split; [exact S|]. split; intros n x I; specialize (K _ I); cbn [fst snd] in K; apply andb_prop in K as [K1 K2].
  - destruct x; try discriminate K1. eexists; reflexivity.
  - intros t ->. rewrite last_is_end in K2. discriminate K2.
Qed.
Definition empty_list (x : val) : bool := match x with VList [] => true | _ => false end.
Lemma no_use f p : existsb empty_list (map snd (Search.search_deep_keys f (template first_cfn) (VDict []))) = false -> ~ occurs f (template first_cfn) (VDict []) p (VList []).
Proof.
  intros E H. apply (occurs_search f) in H; [|exact first_wf]. enough (X : true = false) by discriminate X. rewrite <- E. symmetry.
  apply existsb_exists. exists (VList []). split; [exact H | reflexivity].
Qed.
Lemma order_meets :
  (forall d v, template first_cfn = VDict d -> assoc "Parameters" d = Some v -> exists ps, v = VDict ps) /\
  (forall p, ~ occurs "Fn::If" (template first_cfn) (VDict []) p (VList [])) /\
  plain_uses (template first_cfn) (VDict []) /\
  (forall n x, In (n, x) (part "Parameters") -> n <> "" /\ alphanumeric n) /\
  (forall p v, occurs "Fn::Sub" (template first_cfn) (VDict []) p v -> exists s, sub_text v s /\ closed s) /\
  section (template first_cfn) "Mappings" (part "Mappings") /\ (forall p, ~ occurs "Fn::FindInMap" (template first_cfn) (VDict []) p (VList [])) /\
  plain_sections (template first_cfn) /\ at_path [PKey "Ref"] (template first_cfn) = None /\
  (forall p v, occurs "Ref" (template first_cfn) (VDict []) p v -> (forall z, v <> VInt z) /\ forall b, v <> VBool b).
Proof.
  assert (I : forall p, ~ occurs "Fn::If" (template first_cfn) (VDict []) p (VList [])) by (intros p; apply no_use; vm_compute; reflexivity).
  split. { intros d v E G. vm_compute in E. injection E as <-. vm_compute in G. injection G as <-. eexists; reflexivity. }
  split; [exact I|]. split.
  { split; [|split; [reflexivity | exact I]]. eexists. split; [reflexivity|]. split; intros s E; vm_compute in E; injection E as <-; eexists; [reflexivity|]. split; [reflexivity|].
    intros n x [H|[]]. injection H as _ <-. eexists. split; [reflexivity|]. intros c E. discriminate E. }
  split. { intros n x [H|[H|[]]]; injection H as <- _; (split; [discriminate|]); intros a H; repeat (destruct H as [<- | H]; [cbn; tauto|]); destruct H. }
  split. { intros p v H. apply (occurs_search "Fn::Sub") in H; [|exact first_wf]. vm_compute in H. destruct H. }
  split; [eexists; split; reflexivity|]. split; [intros p; apply no_use; vm_compute; reflexivity|].
  split. { eexists. split; [reflexivity|]. intros s x [<-|[<-|[]]] E; injection E as <-; eexists; (split; [reflexivity|]); intros n y [K|[K|[]]]; injection K as <- <-;
      (eexists; split; [reflexivity|]; split; [|reflexivity]); intros K t Q; try discriminate K; injection Q as <-; eexists; reflexivity. }
  split; [reflexivity|]. intros p v H. apply (occurs_search "Ref") in H; [|exact first_wf]. vm_compute in H. destruct H as [<-|[]]. split; discriminate.
Qed.
