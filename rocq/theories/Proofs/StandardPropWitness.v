(** Runs in which the rules that check properties have something to say (C95). *)
From Coq Require Import QArith Permutation.
From Verif.Model Require Import Base Node Locate Helpers Rules Runner Config Core Resolve PropertyRules ValueRules BasedOn Lambda Standard.
From Verif.Spec Require Import Pipeline Paths Branches Walk References Required Resolved Groups Values ValueRefs ParameterValues Based Events Lambda Iam Permissions StateMachine Domains Tables Sensitive RuleSets Shipped ShippedChecks.
From Verif.Proofs Require Import BaseFacts SearchProofs PipelineProofs RunProofs ReportProofs PropertyRuleProofs Samples RuleSetMain RuleSetWitness PropertyWitness WfDecide StandardProofs StandardMain StandardObjects StandardNested StandardSteady StandardWitness.
Import Verif.Model.Rules Verif.Spec.Based.
Local Open Scope string_scope.

(** A specification of event rules and functions. *)
Definition small_rs : rspec := mkRS
  [("AWS::Events::Rule", [("Name", mkPS false None (Some "String") None [("ValueType", "Name")] None); ("State", mkPS true None (Some "String") None [] None);
                          ("Targets", mkPS false (Some "List") None None [("ListValueType", "Two")] None)]);
   ("AWS::Lambda::Function", [("MemorySize", mkPS false None (Some "Integer") None [("ValueType", "Size")] None); ("Timeout", mkPS false None (Some "Integer") None [("ValueType", "Size")] None)]);
   ("AWS::CloudFormation::CustomResource", [("ServiceToken", mkPS true None (Some "String") None [] None)])]
  [("AWS::Events::Rule.Target", [("Arn", mkPS true None (Some "String") None [("ValueType", "Arn")] None); ("Id", mkPS true None (Some "String") None [("ValueType", "Name")] None)])]
  [("Two", mkVS (Some 2%Z) (Some 3%Z) None None None None); ("Name", mkVS None None (Some 2%Z) (Some 4%Z) None None); ("Size", mkVS None None None None (Some (1#1, "1")) (Some (10#1, "10")))].
Definition small_sp : spec := mkSpec
  [("AWS::Events::Rule.Target", mkTS (Some [("Arn", mkPD None None); ("Id", mkPD None None)]) None None)]
  [("AWS::Events::Rule", mkTS (Some [("Name", mkPD None None); ("State", mkPD None None); ("Targets", mkPD (Some "List") (Some "Target"))]) None None)].
Definition small_values : list (string * vrule) :=
  [("Name", mkVR ["good"] "" None None None); ("Arn", mkVR [] "arn:.*" None (Some (mkRefSpec ["AWS::SSM::Parameter::Name"] ["AWS::SQS::Queue"])) None); ("Size", mkVR ["3"] "" None None None)].
Definition small_groups : list (list string) := [["EventPattern"; "Pattern"]].
Definition small_table : btable := [("Name", [mkBS "long" [] [] ["Description"] ["ScheduleExpression"]])].
Definition stocked : world := mkWorld
  template (fun _ => VDict []) (fun _ => Some 100%Z) ["us-east-1"]
  small_rs [("us-east-1", [("AWS::Events::Rule", []); ("AWS::Lambda::Function", [])])] ["AWS::Events::Rule"; "AWS::Lambda::Function"] [] [] (fun _ _ => None) [] [] []
  small_values [("AWS::SSM::Parameter::Name", ["String"])]
  ([("AWS::Events::Rule", [("Name", ["ScheduleExpression"])])], []) ([("AWS::Events::Rule", [("Name", ["RoleArn"])])], [])
  ([("AWS::Events::Rule", small_groups)], []) ([("AWS::Events::Rule", small_groups)], []) ([("AWS::Events::Rule", small_table)], [])
  [("nodejs4.3", mkLife "a" "b" "nodejs10.x"); ("python2.7", mkLife "a" "z" "python3.8")] [] [] (fun _ => None)
  (fun s => if String.eqb s "z" then 20 else 0)%Z 10%Z (fun l => l) (fun l => l) 10%nat
  (fun _ => "") (fun _ => "") (fun _ => "") (fun _ => "") (fun s => s) (fun _ => "") (fun _ => None) (fun _ => false) (fun _ => false)
  (fun r s => prefix "long" s) (fun _ _ => Some true) (fun s => s) (fun _ => None) (fun _ => inl "no JSON") (fun _ _ => Ok None) (fun s => Ok s) (fun _ => false) "" (fun _ _ => None).

Lemma small_spec_ok : spec_ok small_sp.
Proof. intros n ts [E|[]]. injection E as <- <-. cbn. intuition discriminate. Qed.
Definition event_props : list (string * val) :=
  [("Name", VStr "longer"); ("ScheduleExpression", VStr "5 minutes"); ("Targets", VList [VDict [("Arn", VStr "{{resolve:ssm-secure:a:1}}"); ("Id", VStr "x")]; VDict [("Arn", VDict [("Ref", VStr "Size")])]; VDict [("Id", VStr "good"); ("Arn", VStr "queue")]; VDict [("Id", VStr "good"); ("Arn", VStr "long")]])].
Definition old_props : list (string * val) := [("Runtime", VStr "nodejs4.3"); ("Code", VStr "src"); ("MemorySize", VDict [("Ref", VStr "Size")]); ("Timeout", VInt 30)].
Definition ageing_props : list (string * val) := [("Runtime", VStr "python2.7"); ("MemorySize", VInt 3)].
Definition resource_with (rt : string) (pd : list (string * val)) : val := VDict [("Type", VStr rt); ("Properties", VDict pd)].
Definition queue_props : list (string * val) :=
  [("PolicyDocument", VDict [("Version", VStr "2008-10-17"); ("Statement", VList [VDict [("Effect", VStr "Maybe"); ("Action", VStr "*"); ("Principal", VStr "*"); ("Resource", VStr "*")]])])].
Definition build_props : list (string * val) := [("ServiceRole", VDict [("Ref", VStr "Role")])].
Definition role_props : list (string * val) := [("Path", VStr "/x/")].
Definition machine_props : list (string * val) := [("DefinitionString", VStr "text")].
Definition record_props : list (string * val) := [("Name", VStr "a.example.com."); ("HostedZoneName", VStr "other.com.")].
Definition certificate_props : list (string * val) := [("DomainValidationOptions", VList [VDict [("DomainName", VStr "a.com"); ("ValidationDomain", VStr "b.com")]])].
Definition table_props : list (string * val) := [("AttributeDefinitions", VList [VDict [("AttributeName", VStr "a")]]); ("KeySchema", VList [VDict [("AttributeName", VStr "b")]])].
Definition busy_list : list (string * (string * list (string * val))) :=
  [("Schedule", ("AWS::Events::Rule", event_props)); ("Old", ("AWS::Lambda::Function", old_props)); ("Ageing", ("AWS::Lambda::Function", ageing_props));
   ("Thing", ("Custom::Thing", [("A", VStr "a")])); ("Machine", ("AWS::EC2::Instance", [("AvailabilityZone", VStr "us-east-1a")]));
   ("Queue", ("AWS::SQS::QueuePolicy", queue_props)); ("Build", ("AWS::CodeBuild::Project", build_props)); ("Role", ("AWS::IAM::Role", role_props));
   ("Steps", ("AWS::StepFunctions::StateMachine", machine_props)); ("Record", ("AWS::Route53::RecordSet", record_props));
   ("Certificate", ("AWS::CertificateManager::Certificate", certificate_props)); ("Table", ("AWS::DynamoDB::Table", table_props))].
Definition busy : val := VDict
  [("Parameters", VDict [("Size", VDict [("Type", VStr "Number"); ("Default", VInt 5)])]);
   ("Resources", VDict (map (fun r => (fst r, resource_with (fst (snd r)) (snd (snd r)))) busy_list))].
Definition busy_cfn : cfn := mkCfn "t.yaml" "us-east-1" (marked busy).
(** The rules that report something. *)
Definition busy_rules : list string :=
  ["E1027"; "E2507"; "E2520"; "E2521"; "E2522"; "E2523"; "E2531"; "E2532"; "E3003"; "E3008"; "E3017"; "E3018"; "E3027"; "E3030"; "E3031"; "E3032"; "E3033"; "E3034";
   "E3039"; "E3041"; "E3050"; "E3503"; "W2030"; "W2031"; "W2510"; "W2511"; "W2531"; "W3002"; "W3010"].
Lemma busy_lints : exists l, Forall (fun id => exists fi, In fi l /\ f_rule fi = id) busy_rules /\ forall id, In id normal ->
  lints stocked small_sp no_translator (mkColl (shipped stocked) default_settings) ["us-east-1"] [] busy_cfn [] id l.
Proof.
  eexists. split; [|intros id Hid]. 2:{
    split; [exact (proj1 (loaded_with stocked _ (Permutation_refl _)))|]. split; [exact small_spec_ok|]. split; [apply e0002_iff; reflexivity|].
    split. { apply is_enabled_spec. assert (A : forallb (fun i => is_enabled i false false [] ["W"; "E"] []) normal = true) by (vm_compute; reflexivity).
      rewrite forallb_forall in A. exact (A id Hid). }
    split; [split; [reflexivity | split; reflexivity]|]. split; [eexists; eexists; reflexivity|]. split; [vm_compute; reflexivity|].
    vm_compute. reflexivity. }
  apply Forall_forall. intros id Hid.
  match goal with |- exists fi, In fi ?l /\ _ => assert (A : forallb (fun i => existsb (fun fi => String.eqb (f_rule fi) i) l) busy_rules = true) by (vm_compute; reflexivity) end.
  rewrite forallb_forall in A. specialize (A id Hid). apply existsb_exists in A as [fi [A B]]. exists fi. split; [exact A|]. now apply String.eqb_eq.
Qed.
Lemma busy_template : template busy_cfn = busy.
Proof. reflexivity. Qed.
Lemma busy_wf : wf (template busy_cfn) /\ steady (template busy_cfn) = true.
Proof. split; [apply wfb_sound; vm_compute; reflexivity | vm_compute; reflexivity]. Qed.
Lemma busy_resource name rt attrs : resource_of (template busy_cfn) name rt attrs -> exists pd, In (name, (rt, pd)) busy_list /\ attrs = [("Type", VStr rt); ("Properties", VDict pd)].
Proof.
  rewrite busy_template. intros (top & rs & E & H1 & H2 & H3). injection E as <-. injection H1 as <-.
  change (In (name, VDict attrs) (map (fun r => (fst r, resource_with (fst (snd r)) (snd (snd r)))) busy_list)) in H2. apply in_map_iff in H2 as [[n [t pd]] [E Hi]]. cbn [fst snd] in E. injection E as <- <-.
  injection H3 as ->. exists pd. auto.
Qed.
Lemma busy_properties rt pd p : properties_of (template busy_cfn) rt pd p -> exists name, In (name, (rt, pd)) busy_list /\ p = [PKey "Resources"; PKey name; PKey "Properties"].
Proof.
  intros (name & attrs & H & Hp & ->). apply busy_resource in H as [pd' [Hi ->]]. injection Hp as ->. exists name. auto.
Qed.
(** The nested objects are the targets. *)
Lemma busy_nested n v q : nested_of small_sp (template busy_cfn) n v q -> exists d, v = VDict d.
Proof.
  intros (rt & pd & p & H & Hn & _). pose proof (steady_properties busy_cfn (proj1 busy_wf) (proj2 busy_wf) _ _ _ H) as Hs. apply busy_properties in H as [name [Hi ->]].
  assert (A : forall v p, steady v = true -> (exists d, v = VDict d) -> forall w q, nested small_sp "AWS::Events::Rule" (Some "Target") v p n w q -> exists d, w = VDict d).
  { intros v0 p0 Hv [d ->] w r K. 
    assert (T : forall nm, type_name "AWS::Events::Rule" (Some "Target") nm -> nm = "AWS::Events::Rule.Target") by (intros nm T; inversion T; subst; reflexivity).
    assert (L : forall ts, listed small_sp "AWS::Events::Rule.Target" ts -> ts = mkTS (Some [("Arn", mkPD None None); ("Id", mkPD None None)]) None None).
    { intros ts (l1 & l2 & E & _). destruct l1 as [|y l1]; [injection E as E _; symmetry; exact E | injection E as _ E; destruct l1; discriminate E]. }
    assert (P : forall key pd0, has_prop [("Arn", mkPD None None); ("Id", mkPD None None)] key pd0 -> pd0 = mkPD None None).
    { intros key pd0 (l1 & l2 & E & _). assert (I : In (key, pd0) [("Arn", mkPD None None); ("Id", mkPD None None)]) by (rewrite E; apply in_or_app; right; now left).
      destruct I as [[= _ <-]|[[= _ <-]|[]]]; reflexivity. }
    inversion K; subst;
      repeat match goal with H : type_name _ _ _ |- _ => apply T in H; subst end;
      repeat match goal with H : listed _ _ _ |- _ => apply L in H; subst end; cbn [ts_props] in *; eauto;
      repeat match goal with H : Some _ = Some _ |- _ => injection H as <- end;
      repeat match goal with H : has_prop _ _ _ |- _ => apply P in H; subst end;
      try (match goal with H : list_prop _ _ |- _ => destruct H as [H _]; discriminate H end);
      try (match goal with H : pd_type _ = Some _ |- _ => discriminate H end);
      match goal with H : In ("Fn::If", _) _ |- _ => destruct (steady_member _ _ _ Hv H) as [H' _]; elim H'; reflexivity end. }
  assert (R : forall ts, resource_listed small_sp rt ts -> rt = "AWS::Events::Rule" /\ ts_props ts = Some [("Name", mkPD None None); ("State", mkPD None None); ("Targets", mkPD (Some "List") (Some "Target"))]).
  { intros ts (l1 & l2 & E & _). destruct l1 as [|y l1]; [injection E as <- <- _; auto | injection E as _ E; destruct l1; discriminate E]. }
  destruct Hn as [d vp ts sps key pd0 l i x n w q H1 H2 H3 H4 H5 H6 H7 H8|d vp ts sps key pd0 t d' n w q H1 H2 H3 H4 H5 H6 H7 H8 H9];
    apply R in H2 as [-> R2]; rewrite R2 in H3; injection H3 as <-; destruct H5 as (l1 & l2 & E & _);
    match type of E with ?L = _ => assert (I : In (key, pd0) L) by (rewrite E; apply in_or_app; right; now left) end; apply steady_branch in H1 as [H1 ->]; auto; injection H1 as ->.
  - destruct I as [[= <- <-]|[[= <- <-]|[[= <- <-]|[]]]]; try (destruct H6 as [H6 _]; discriminate H6).
    destruct (steady_member _ _ _ Hs H4) as [_ Hl]. apply nth_error_In in H7 as Hx. apply (A x _ (steady_item l x Hl Hx)) in H8; [exact H8|].
    clear -Hi H4 Hx. repeat (destruct Hi as [E|Hi]; [try discriminate E; injection E as <- <-|]); try (destruct Hi).
    destruct H4 as [[=]|[[=]|[[= <-]|[]]]]. repeat (destruct Hx as [<-|Hx]; [eauto|]). destruct Hx.
  - destruct I as [[= <- <-]|[[= <- <-]|[[= <- <-]|[]]]]; try discriminate H7. elim H6. split; [reflexivity|]. cbn. intuition discriminate.
Qed.

Ltac here Hi := repeat (destruct Hi as [Hi|Hi]; [try discriminate Hi; injection Hi as <- <-|]); try (destruct Hi).
Ltac here3 Hi := repeat (destruct Hi as [Hi|Hi]; [injection Hi as <- <- <-|]); try (destruct Hi).
(** What the theorems on resources of one type assume. *)
Lemma busy_types : let t := template busy_cfn in
  (forall pd p, properties_of t "AWS::Events::Rule" pd p -> texts_given pd p "ScheduleExpression") /\
  assoc "" (w_runtimes stocked) = None /\ (forall pd p, properties_of t "AWS::Lambda::Function" pd p -> runtimes_shaped t pd p) /\
  plain_sections t /\
  (forall pd p, properties_of t "AWS::Lambda::Function" pd p -> exists x, assoc "MemorySize" pd = Some x /\
     (forall q, ~ alternative x (p ++ [PKey "MemorySize"])%list VNull q) /\
     (forall y r, single x (p ++ [PKey "MemorySize"])%list (VDict [("Ref", y)]) r -> exists n, y = VStr n)) /\
  (forall rt pd p, properties_of t rt pd p -> version_type rt -> versions_shaped rt pd p) /\
  (forall rt pd p, properties_of t rt pd p -> In rt (resource_policy_types ++ identity_types)%list -> documents_shaped (w_json stocked) all_document_names pd p /\
     forall x q d r, document_at all_document_names pd p x q -> single x q (VDict d) r -> assoc "Resources" d = None) /\
  (forall pd p, properties_of t "AWS::CodeBuild::Project" pd p -> role_refs_shaped t pd p) /\
  (forall pd p, properties_of t "AWS::StepFunctions::StateMachine" pd p -> machine_shaped (w_loads stocked) pd p) /\
  (forall l, Permutation (w_order stocked l) l) /\
  (forall pd p, properties_of t "AWS::Route53::RecordSet" pd p -> plain_object pd /\ VDict pd <> no_value /\ (forall n, ~ group_looks_at pd ["Name"; "HostedZoneName"] n) /\ zone_shaped pd) /\
  (forall pd p x, properties_of t "AWS::CertificateManager::Certificate" pd p -> assoc "DomainValidationOptions" pd = Some x ->
     (forall q, ~ alternative x (p ++ [PKey "DomainValidationOptions"])%list VNull q) /\
     forall e q, single x (p ++ [PKey "DomainValidationOptions"])%list (VDict e) q -> ~ is_call (VDict e) -> plain_object e /\ forall n, ~ members_look_at e n) /\
  (forall rt pd p key x q, properties_of t rt pd p -> In rt (keys templated) -> assoc key pd = Some x -> ~ alternative x (p ++ [PKey key])%list VNull q) /\
  (forall pd p, properties_of t "AWS::DynamoDB::Table" pd p -> plain_object pd /\ VDict pd <> no_value /\ (forall n, ~ group_looks_at pd table_part n) /\ table_shaped pd).
Proof.
  destruct busy_wf as [Hw Hs]. cbv zeta.
  assert (W : forall rt pd p, properties_of (template busy_cfn) rt pd p -> wf (VDict pd)) by (intros rt pd p H; exact (at_path_wf p _ _ Hw (proj1 (properties_at busy_cfn rt pd p Hw H)))).
  pose proof (steady_properties busy_cfn Hw Hs) as S.
  assert (N : forall rt pd p, properties_of (template busy_cfn) rt pd p -> forall key x q r, assoc key pd = Some x -> ~ alternative x q VNull r).
  { intros rt pd p H key x q r Hx K. apply S in H. apply steady_get in Hx as [_ Hx]; auto. apply steady_alternative in K as [K _]; auto. subst x. discriminate Hx. }
  assert (O : forall rt pd p, properties_of (template busy_cfn) rt pd p -> fits_all pd p) by (intros rt pd p H; apply steady_dict; [exact (W _ _ _ H) | exact (S _ _ _ H)]).
  split; [|split; [|split; [|split; [|split; [|split; [|split; [|split; [|split; [|split; [|split; [|split; [|split]]]]]]]]]]]].
  - intros pd p H x Hx. split; [intros r; exact (N _ _ _ H _ _ _ r Hx)|]. intros w r K _. destruct (busy_properties _ _ _ H) as [name [Hi _]]. here Hi.
    injection Hx as <-. apply steady_single in K as [_ [(_ & -> & _)|(l & i & [=] & _)]]; [eauto | reflexivity].
  - reflexivity.
  - intros pd p H. split; [eexists; split; [reflexivity|]; intros ps E; vm_compute in E; injection E as <-; eauto|]. intros x Hx. split; [intros r; exact (N _ _ _ H _ _ _ r Hx)|].
    destruct (busy_properties _ _ _ H) as [name [Hi _]]. split; intros w r K.
    + intros _. here Hi; injection Hx as <-; (apply steady_single in K as [_ [(_ & -> & _)|(l & i & [=] & _)]]; [split; reflexivity | reflexivity]).
    + exfalso. here Hi; injection Hx as <-; (apply steady_single in K as [_ [(_ & K & _)|(l & i & [=] & _)]]; [discriminate K | reflexivity]).
  - eexists. split; [reflexivity|]. intros sec s Hsec E. destruct Hsec as [<-|[<-|[]]]; vm_compute in E; injection E as <-; eexists; (split; [reflexivity|]); intros n x Hx.
    + destruct Hx as [[= <- <-]|[]]. eexists. split; [reflexivity|]. split; [discriminate | reflexivity].
    + repeat (destruct Hx as [[= <- <-]|Hx]; [eexists; split; [reflexivity|]; split; [intros _ u [= <-]; eauto | reflexivity]|]). destruct Hx.
  - intros pd p H. destruct (busy_properties _ _ _ H) as [name [Hi _]]. here Hi; (eexists; split; [reflexivity|]; split; [intros q K; inversion K|]); intros y r K.
    + apply steady_single in K as [_ [(_ & K & _)|(l & i & [=] & _)]]; [injection K as ->; eauto | reflexivity].
    + apply steady_single in K as [_ [(_ & K & _)|(l & i & [=] & _)]]; [discriminate K | reflexivity].
  - intros rt pd p H _. split.
    + intros x q Hx. assert (Hsx : steady x = true).
      { pose proof (S _ _ _ H) as Hp. destruct Hx as [k x _ Hx|l i o x _ Hx Ho Hd]; [exact (proj2 (steady_get _ _ _ Hp Hx))|]. apply steady_get in Hx as [_ Hx]; auto.
        apply nth_error_In in Ho. apply steady_item with (x := VDict o) in Hx; auto. exact (proj2 (steady_get _ _ _ Hx Hd)). }
      split; [intros r K; apply steady_alternative in K as [K _]; auto; subst x; discriminate Hsx|]. intros d r d' r' K1 K2. apply steady_single in K1 as [K1 _]; auto.
      apply steady_branch in K2 as [K2 _]; auto. rewrite K2. now apply steady_not_if.
    + intros _ v Hv. destruct (busy_properties _ _ _ H) as [name [Hi _]]. here3 Hi; discriminate Hv.
  - intros rt pd p H Ht. destruct (busy_properties _ _ _ H) as [name [Hi _]].
    assert (D : forall x q, document_at all_document_names pd p x q -> x = VDict [("Version", VStr "2008-10-17"); ("Statement", VList [VDict [("Effect", VStr "Maybe"); ("Action", VStr "*"); ("Principal", VStr "*"); ("Resource", VStr "*")]])]).
    { intros x q Hx. destruct Hx as [k x Hk Hx|l i o x Hx _ _]; [|exfalso; clear Ht; here3 Hi; discriminate Hx].
      assert (R : rt = "AWS::SQS::QueuePolicy" \/ rt = "AWS::IAM::Role").
      { clear Hx Hk. repeat (destruct Hi as [Hi|Hi]; [injection Hi as <- <- <-; try (left; reflexivity); try (right; reflexivity); exfalso; apply smem_iff in Ht; discriminate Ht|]). destruct Hi. }
      destruct R as [-> | ->]; here Hi; repeat (destruct Hk as [<-|Hk]; [try discriminate Hx; injection Hx as <-; reflexivity|]); destruct Hk. }
    split.
    + intros x q Hx. apply D in Hx as ->. split; [intros r K; inversion K|]. intros w r K _ v d q0 y Hdoc Hd B Hy Hy'. exfalso. apply steady_single in K as [_ [(_ & -> & _)|(l & i & [=] & _)]]; [|reflexivity].
      inversion Hdoc; subst. apply steady_branch in B as [B _]; [|reflexivity]. injection B as ->. destruct Hy as [[=]|[[= <-]|[]]]. discriminate Hy'.
    + intros x q d r Hx K. apply D in Hx as ->. apply steady_single in K as [_ [(_ & K & _)|(l & i & [=] & _)]]; [injection K as ->; reflexivity | reflexivity].
  - intros pd p H x Hx. split; [intros r; exact (N _ _ _ H _ _ _ r Hx)|]. destruct (busy_properties _ _ _ H) as [name [Hi _]]. here Hi. injection Hx as <-. intros v r K.
    apply steady_single in K as [_ [(_ & K & _)|(l & i & [=] & _)]]; [|reflexivity]. injection K as ->. split; [reflexivity|]. split; [reflexivity|].
    intros n o y [= <-] (top & sec & E1 & E2 & E3) Hy. vm_compute in E1. injection E1 as <-. vm_compute in E2. injection E2 as <-. vm_compute in E3. injection E3 as <-. vm_compute in Hy. injection Hy as <-. reflexivity.
  - intros pd p H x Hx. split; [intros r; exact (N _ _ _ H _ _ _ r Hx)|]. destruct (busy_properties _ _ _ H) as [name [Hi _]]. here Hi. injection Hx as <-. intros w r K.
    apply steady_single in K as [_ [(_ & -> & _)|(l & i & [=] & _)]]; [|reflexivity]. split; [intros _ v [=] | intros y [=]].
  - intros l. apply Permutation_refl.
  - intros pd p H. destruct (O _ _ _ H) as (_ & K2 & _ & K4 & _ & _ & _ & _ & K9). split; [exact K4|]. split; [exact K2|]. split; [intros n; apply K9|]. destruct (busy_properties _ _ _ H) as [name [Hi _]]. here Hi.
    intros n z [= <-] [= <-]. split; discriminate.
  - intros pd p x H Hx. split; [intros r; exact (N _ _ _ H _ _ _ r Hx)|]. intros e q K _. pose proof (S _ _ _ H) as Hp. destruct (steady_get _ _ _ Hp Hx) as [_ Hx']. apply steady_single in K as [Ke K]; auto.
    assert (We : wf (VDict e)). { pose proof (W _ _ _ H) as Wp. apply wf_dict in Wp as [_ Wp]. apply assoc_In in Hx. apply Wp in Hx. destruct K as [(_ & -> & _)|(l & i & -> & K & _)]; [exact Hx|]. apply nth_error_In in K. exact (wf_list l Hx _ K). }
    destruct (steady_dict e [] We Ke) as (_ & _ & _ & K4 & _ & _ & _ & K8 & _). auto.
  - intros rt pd p key x q H _ Hx. exact (N _ _ _ H _ _ _ q Hx).
  - intros pd p H. destruct (O _ _ _ H) as (_ & K2 & _ & K4 & _ & _ & _ & _ & K9). split; [exact K4|]. split; [exact K2|]. split; [intros n; apply K9|]. destruct (busy_properties _ _ _ H) as [name [Hi _]]. here Hi.
    split; [|split].
    + intros x [= <-]. eexists. split; [reflexivity|]. intros y [<-|[]]. eauto.
    + intros x l k [= <-] (p0 & q & B) Hk. apply steady_branch in B as [B _]; [|reflexivity]. injection B as ->. destruct Hk as [<-|[]]. eexists. split; [reflexivity|]. intros y s p1 q1 [= <-] B. apply steady_branch in B as [B _]; [now symmetry | reflexivity].
    + intros key x l y [-> | ->] Hx; discriminate Hx.
Qed.

(** The only functions are Refs to names. *)
Fixpoint only_refs (v : val) : bool :=
  match v with
  | VList l => forallb only_refs l
  | VDict d => forallb (fun kv => negb (String.eqb (fst kv) "Fn::GetAtt") && negb (String.eqb (fst kv) "Fn::Sub") && (negb (String.eqb (fst kv) "Ref") || match snd kv with VStr _ => true | _ => false end) && only_refs (snd kv)) d
  | _ => true
  end%bool.
Lemma only_refs_member d k x : only_refs (VDict d) = true -> In (k, x) d -> k <> "Fn::GetAtt" /\ k <> "Fn::Sub" /\ (k = "Ref" -> exists n, x = VStr n) /\ only_refs x = true.
Proof.
  intros H Hx. cbn [only_refs] in H. rewrite forallb_forall in H. specialize (H _ Hx). cbn [fst snd] in H. apply Bool.andb_true_iff in H as [H H4]. apply Bool.andb_true_iff in H as [H H3]. apply Bool.andb_true_iff in H as [H1 H2].
  split; [intros ->; discriminate H1|]. split; [intros ->; discriminate H2|]. split; [|exact H4]. intros ->. destruct x; try discriminate H3. eauto.
Qed.
Lemma only_refs_item l x : only_refs (VList l) = true -> In x l -> only_refs x = true.
Proof. intros H Hx. cbn [only_refs] in H. rewrite forallb_forall in H. now apply H. Qed.
Lemma only_refs_at p : forall t v, only_refs t = true -> at_path p t = Some v -> only_refs v = true.
Proof.
  induction p as [|[k|i] p IH]; intros t v H; cbn [at_path]; [now intros [= <-]| |].
  - destruct t as [| | | | | |d]; try discriminate. destruct (assoc k d) as [x|] eqn:E; [|discriminate]. apply IH. apply assoc_In in E. exact (proj2 (proj2 (proj2 (only_refs_member d k x H E)))).
  - destruct t as [| | | | |l|]; try discriminate. destruct (nth_error l i) as [x|] eqn:E; [|discriminate]. apply IH. apply (only_refs_item l x H). now apply nth_error_In in E.
Qed.
(** What the theorems on objects with a specification, and on tables of properties, assume. *)
Lemma busy_objects : let t := template busy_cfn in let rs := w_rspec stocked in
  ~ In "" (keys (rs_value_types rs)) /\ ~ In "" (keys (w_values stocked)) /\ kinds_known (w_values stocked) (w_kinds stocked) /\ types_are_texts t /\ allowed_lists t /\
  (forall A (pts : list (string * A)), objects_nested small_sp pts t) /\
  (forall n v q, nested_of small_sp t n v q -> In n zone_property_types -> exists d, v = VDict d) /\
  (forall name rt attrs x, resource_of t name rt attrs -> custom_type rs rt -> assoc "Properties" attrs = Some x ->
     exists props, x = VDict props /\ all_members (VDict props) [PKey "Resources"; PKey name; PKey "Properties"]) /\
  (forall rt pd p, properties_of t rt pd p -> In rt zone_resource_types -> no_null_member pd p) /\
  (forall n d p, nested_of small_sp t n (VDict d) p -> In n zone_property_types -> no_null_member d p) /\
  (forall n d p specs, object_with small_sp (rs_resource_types rs) (rs_property_types rs) t n d p specs ->
     ~ is_if (VDict d) /\ VDict d <> NoValue /\ no_null_member d p /\ all_members (VDict d) p /\ all_objects (VDict d) p /\ no_null_property (VDict d) p /\
     (forall e q, branch (VDict d) p (VDict e) q -> plain_object e /\ VDict e <> no_value /\ forall n, ~ members_look_at e n) /\
     ~ In "Fn::If" (keys specs) /\ judgeable (VDict d) p /\ refs_are_names d p /\
     (forall prop x r, assoc prop d = Some x -> ~ single x (p ++ [PKey prop])%list (VDict [("Fn::Sub", VList [])]) r)) /\
  (forall n d p table, object_with small_sp (fst (w_exclusive stocked)) (snd (w_exclusive stocked)) t n d p table -> plain_object d /\ VDict d <> no_value /\ forall n, ~ members_look_at d n) /\
  (forall n d p table, object_with small_sp (fst (w_inclusive stocked)) (snd (w_inclusive stocked)) t n d p table -> plain_object d /\ VDict d <> no_value /\ forall n, ~ members_look_at d n) /\
  (forall n d p groups, object_with small_sp (fst (w_at_least_one stocked)) (snd (w_at_least_one stocked)) t n d p groups -> groups_fit d p groups) /\
  (forall n d p groups, object_with small_sp (fst (w_only_one stocked)) (snd (w_only_one stocked)) t n d p groups -> groups_fit d p groups) /\
  (forall n d p table, object_with small_sp (fst (w_based_on stocked)) (snd (w_based_on stocked)) t n d p table -> based_fit t bs_required d table /\ based_fit t bs_unwanted d table).
Proof.
  destruct busy_wf as [Hw Hs]. cbv zeta.
  assert (V : forall prop x d q w r, steady (VDict d) = true -> assoc prop d = Some x -> single x q w r -> steady w = true).
  { intros prop x d q w r H Hx K. apply steady_get in Hx as [_ Hx]; auto. exact (proj1 (steady_single _ _ _ _ Hx K)). }
  assert (G : forall group, In group small_groups -> proper_group group).
  { intros group [<-|[]]. split; [discriminate|]. split; [apply nodupb_sound; reflexivity|]. intros K. apply smem_iff in K. discriminate K. }
  assert (Z : forall n d p, nested_of small_sp (template busy_cfn) n (VDict d) p -> no_null_member d p).
  { intros n d p H. destruct (nested_at small_sp busy_cfn n (VDict d) p Hw H) as [Ha _]. destruct (steady_dict d p (at_path_wf p _ _ Hw Ha) (steady_at p _ _ Hs Ha)) as (_ & _ & _ & _ & K5 & _). exact K5. }
  assert (R : forall rt pd p, properties_of (template busy_cfn) rt pd p -> no_null_member pd p).
  { intros rt pd p H. destruct (properties_at busy_cfn rt pd p Hw H) as [Ha _]. destruct (steady_dict pd p (at_path_wf p _ _ Hw Ha) (steady_at p _ _ Hs Ha)) as (_ & _ & _ & _ & K5 & _). exact K5. }
  assert (T : forall (B : Type) (one : string * B) n d p a, object_with small_sp [("AWS::Events::Rule", snd one)] [] (template busy_cfn) n d p a -> d = event_props /\ a = snd one).
  { intros B one n d p a [[H E]|[_ E]]; [|discriminate E]. cbn [assoc] in E. destruct (String.eqb n "AWS::Events::Rule") eqn:En; [|discriminate E]. injection E as <-. apply String.eqb_eq in En as ->.
    destruct (busy_properties _ _ _ H) as [name [Hi _]]. here Hi. auto. }
  split; [cbn; intuition discriminate|]. split; [cbn; intuition discriminate|]. split.
  { intros t vr sp k H1 H2 H3. apply assoc_In in H1. destruct H1 as [[= <- <-]|[[= <- <-]|[[= <- <-]|[]]]]; try discriminate H2. injection H2 as <-. destruct H3 as [<-|[]]. now left. }
  split. { intros top rs name attrs ty E1 E2 Hi E3. right. rewrite busy_template in E1. injection E1 as <-. injection E2 as <-.
    change (In (name, VDict attrs) (map (fun r => (fst r, resource_with (fst (snd r)) (snd (snd r)))) busy_list)) in Hi. apply in_map_iff in Hi as [[n [t pd]] [E Hi]]. cbn [fst snd] in E. injection E as <- <-. injection E3 as <-. eauto. }
  split. { intros n o v (top & sec & E1 & E2 & E3) Hv. rewrite busy_template in E1. injection E1 as <-. injection E2 as <-. cbn [assoc] in E3. destruct (String.eqb n "Size"); [|discriminate E3]. injection E3 as <-. discriminate Hv. }
  split; [intros A pts n v q H _; exact (busy_nested n v q H)|]. split; [intros n v q H _; exact (busy_nested n v q H)|].
  split. { apply (steady_custom busy_cfn Hw Hs). intros name rt attrs x H _ Hx. apply busy_resource in H as [pd [_ ->]]. injection Hx as <-. eauto. }
  split; [intros rt pd p H _; exact (R _ _ _ H)|]. split; [intros n d p H _; exact (Z _ _ _ H)|]. split.
  { intros n d p specs H. destruct (steady_sizes busy_cfn Hw Hs _ _ _ _ _ _ _ H) as (H1 & H2 & H3). destruct (steady_values busy_cfn Hw Hs _ _ _ _ _ _ _ H) as (H4 & H5 & H6).
    destruct (steady_lists busy_cfn Hw Hs _ _ _ _ _ _ _ H) as (_ & H7). destruct (steady_object busy_cfn Hw Hs _ _ _ _ _ _ _ H) as (Hd & F). assert (Ha : at_path p (template busy_cfn) = Some (VDict d)).
    { destruct H as [[H _]|[H _]]; [exact (proj1 (properties_at busy_cfn n d p Hw H)) | exact (proj1 (nested_at small_sp busy_cfn n (VDict d) p Hw H))]. }
    assert (Ho : only_refs (VDict d) = true) by (apply (only_refs_at p (template busy_cfn)); [vm_compute; reflexivity | exact Ha]).
    assert (Sv : forall prop x q w r, assoc prop d = Some x -> single x q w r -> only_refs w = true).
    { intros prop x q w r Hx K. destruct (steady_get _ _ _ Hd Hx) as [_ Hx']. apply assoc_In in Hx. destruct (only_refs_member _ _ _ Ho Hx) as (_ & _ & _ & Hy).
      apply steady_single in K as [_ [(_ & -> & _)|(l & i & -> & K & _)]]; auto. apply nth_error_In in K. exact (only_refs_item l w Hy K). }
    assert (Rf : forall prop x q y r, assoc prop d = Some x -> single x q (VDict [("Ref", y)]) r -> exists n, y = VStr n).
    { intros prop x q y r Hx K. apply (Sv prop) in K; auto. destruct (only_refs_member _ "Ref" y K (or_introl eq_refl)) as (_ & _ & K' & _). now apply K'. }
    assert (Sg : forall prop x q y r, assoc prop d = Some x -> ~ single x q (VDict [("Fn::GetAtt", y)]) r /\ ~ single x q (VDict [("Fn::Sub", y)]) r).
    { intros prop x q y r Hx. split; intros K; apply (Sv prop) in K; auto; destruct (only_refs_member _ _ y K (or_introl eq_refl)) as (K1 & K2 & _); [now elim K1 | now elim K2]. }
    split; [exact H1|]. split; [exact H2|]. split; [exact H3|]. split; [exact H5|]. split; [exact H4|]. split; [exact H6|]. split; [exact H7|].
    destruct F as (_ & _ & _ & _ & _ & _ & B & _). split.
    { destruct H as [[_ E]|[_ E]]; apply assoc_In in E; cbn in E; intros K; intuition (try discriminate); repeat match goal with E : (_, _) = _ |- _ => injection E as <- <- end; cbn in K; intuition discriminate. }
    split; [|split].
    - intros prop x q r (e & He & Hx). apply B in He as [E ->]. injection E as ->. split; [intros y K; exact (Rf _ _ _ _ _ Hx K)|]. intros y K. destruct (proj1 (Sg _ _ _ y r Hx) K).
    - intros prop x q r y (e & He & Hx) K. apply B in He as [E ->]. injection E as ->. exact (Rf _ _ _ _ _ Hx K).
    - intros prop x r Hx K. destruct (proj2 (Sg _ _ _ (VList []) r Hx) K). }
  split; [intros n d p table H; exact (steady_tables busy_cfn Hw Hs _ _ _ _ _ _ _ H)|]. split; [intros n d p table H; exact (steady_tables busy_cfn Hw Hs _ _ _ _ _ _ _ H)|].
  split. { intros n d p groups H. apply (steady_groups busy_cfn Hw Hs _ _ _ _ _ _ _ H). destruct (T _ ("", small_groups) n d p groups H) as [_ ->]. exact G. }
  split. { intros n d p groups H. apply (steady_groups busy_cfn Hw Hs _ _ _ _ _ _ _ H). destruct (T _ ("", small_groups) n d p groups H) as [_ ->]. exact G. }
  intros n d p table H. destruct (steady_object busy_cfn Hw Hs _ _ _ _ _ _ _ H) as (_ & (_ & K2 & _ & K4 & _ & _ & _ & _ & K9)). destruct (T _ ("", small_table) n d p table H) as [-> ->].
  assert (E : forall which, (which = bs_required \/ which = bs_unwanted) -> based_fit (template busy_cfn) which event_props small_table).
  { intros which Hwh. split; [exact K4|]. split; [exact K2|]. intros k s (l & [[= <- <-]|[]] & [<-|[]]). split; [intros K; apply smem_iff in K; destruct Hwh as [-> | ->]; discriminate K|].
    split; [intros m; apply K9|]. intros x [= <-]. split; [intros y [=] | intros l [=]]. }
  split; apply E; auto.
Qed.
