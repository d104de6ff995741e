(** Runs of the whole program that meet the hypotheses of C105. *)
From Coq Require Import List String Ascii Bool Permutation ZArith.
From Verif.Model Require Import Loading.
From Verif.Model Require Import Base Node Locate Helpers Rules Runner Config Core Refs CommandLine Startup Standard.
From Verif.Spec Require Import Pipeline Options CommandLine Startup RuleSets Paths References Faults Shipped Selection.
From Verif.Proofs Require Import BaseFacts WfDecide PropertyWitness StandardPropWitness StandardMain CrashWitness SilenceWitness CommandLineProofs CommandLineWitness SelectionProofs.
Import Verif.Model.Rules.
Import ListNotations.
Local Open Scope string_scope.

(** The shipped rules and an experimental one, as one module. *)
Definition trial_rule : rule := mkRule "E9009" true [] [] [] [] (fun _ => ([], [])) (Some (fun _ _ => Ok [mkRM [PKey "Resources"] "trial"])) None None.
Definition class_of (r : rule) : string * cls := (r_id r, mkCls [("cfnlint.rules", "CloudFormationLintRule")] (Ok r)).
Definition module_of (path : string) : Loading.module := Ok (map class_of (if String.eqb path "cfnlint.rules" then shipped ample else [trial_rule])).
Definition told_template (n : option string) : decoded := DecOk (marked rich).
Definition the_program (argv : list string) : finish :=
  main (fun _ => false) (fun _ => Err EKey) (Ok tt) (Ok tt) (Ok tt) true (fun _ => []) (fun _ => "") "cfnlint.rules" (fun _ => None) module_of small_sp keeping told_template
    (fun _ => "t.yaml") (fun _ _ _ => Ok None) (fun _ _ _ => Ok tt) argv.

Lemma insert_perm x l : Permutation (insert_member x l) (x :: l).
Proof. induction l as [|y l IH]; [reflexivity|]. cbn. destruct (str_leb (fst x) (fst y)); [reflexivity|]. rewrite IH. apply perm_swap. Qed.
Lemma by_name_perm l : Permutation (Loading.by_name l) l.
Proof. induction l as [|x l IH]; [reflexivity|]. cbn. rewrite insert_perm. now constructor. Qed.
Lemma create_perm rs : exists rs', create_rules (map class_of rs) = Ok rs' /\ Permutation rs' rs.
Proof.
  unfold create_rules. pose proof (by_name_perm (map class_of rs)) as P. apply Permutation_map_inv in P as (l & E & P). rewrite E. exists l. split; [|now symmetry].
  clear. induction l as [|r l IH]; [reflexivity|]. cbn. cbn in IH. rewrite IH. reflexivity.
Qed.

(** cfn-lint a.yaml -i E2,E6 -m E2015 -c I2,I6 -e -a trial *)
Definition told_line : list string := ["a.yaml"; "-i"; "E2,E6"; "-m"; "E2015"; "-c"; "I2,I6"; "-e"; "-a"; "trial"].
Definition told_groups : list (opt * list string) :=
  [(an_option "-i", ["E2,E6"]); (an_option "-m", ["E2015"]); (an_option "-c", ["I2,I6"]); (an_option "-e", []); (an_option "-a", ["trial"])].
Lemma told_command : command told_line told_groups ["a.yaml"].
Proof.
  change told_line with ([] ++ ["a.yaml"] ++ (["-i"; "E2,E6"] ++ (["-m"; "E2015"] ++ (["-c"; "I2,I6"] ++ (["-e"] ++ (["-a"; "trial"] ++ []))))))%list.
  change told_groups with ([] ++ ([(an_option "-i", ["E2,E6"])] ++ ([(an_option "-m", ["E2015"])] ++ ([(an_option "-c", ["I2,I6"])] ++ ([(an_option "-e", [])] ++ ([(an_option "-a", ["trial"])] ++ []))))))%list.
  eapply names_among; [apply say_nothing | plain_text | constructor |].
  eapply say_more; [|eapply say_more; [|eapply say_more; [|eapply say_more; [|eapply say_more; [|apply say_nothing]]]]].
  - apply (by_letters "i"). apply last_letter; [apply by_letter; eexists; reflexivity|]. apply some_values; [reflexivity | plain_text | constructor].
  - apply (by_letters "m"). apply last_letter; [apply by_letter; eexists; reflexivity|]. apply some_values; [reflexivity | plain_text | constructor].
  - apply (by_letters "c"). apply last_letter; [apply by_letter; eexists; reflexivity|]. apply some_values; [reflexivity | plain_text | constructor].
  - apply (by_letters "e"). apply last_letter; [apply by_letter; eexists; reflexivity|]. constructor; reflexivity.
  - apply (by_letters "a"). apply last_letter; [apply by_letter; eexists; reflexivity|]. apply some_values; [reflexivity | plain_text | constructor].
Qed.
Lemma told_good : Forall good_use told_groups.
Proof. repeat (constructor; [exact I || (constructor; [right; right; left; reflexivity | constructor]) || idtac|]); try constructor. Qed.
Lemma told_said : comma_said told_groups "--ignore-checks" ["E2"; "E6"] /\ comma_said told_groups "--mandatory-checks" ["E2015"] /\ comma_said told_groups "--include-checks" ["I2"; "I6"].
Proof.
  split; [|split]; [exists [["E2"; "E6"]] | exists [["E2015"]] | exists [["I2"; "I6"]]]; (split; [|reflexivity]); (constructor; [|constructor]); (split; [discriminate|]); (split; [reflexivity|]);
    repeat (constructor; [apply free_has; reflexivity|]); constructor.
Qed.
(** The run: E2015 although E2 is ignored; the I-rules asked for; the experimental rule; nothing else under E2 and E6. *)
Definition reports_as (l : list finding) : bool :=
  forallb (reporting l) ["E2015"; "I2012"; "E9009"; "E1012"; "W2001"] && forallb (fun id => negb (reporting l id)) ["E2001"; "E6001"; "E6012"; "I7012"].
Lemma told_reports : match the_program told_line with Linted l => reports_as l | _ => false end = true.
Proof. vm_compute. reflexivity. Qed.
Lemma reporting_in l id : reporting l id = true -> exists fi, In fi l /\ f_rule fi = id.
Proof. intros H. apply existsb_exists in H as (fi & H1 & H2). apply String.eqb_eq in H2. exists fi. auto. Qed.
Lemma told_loaded : exists cli rs, make_config (fun _ => false) (fun _ => Err EKey) told_line = Config cli [] /\ append_rules (mkSources cli [] []) = Ok ["trial"] /\
  concat_res (load_path (fun _ => None) module_of) ["cfnlint.rules"; "trial"] = Ok rs /\ Permutation rs (shipped ample ++ [trial_rule])%list /\
  get_args_filenames (fun _ => false) (fun _ => Err EKey) (Ok tt) (Ok tt) (Ok tt) true (fun _ => []) (fun _ => "") "cfnlint.rules" (fun _ => None) module_of told_line = Go cli [] [Some "a.yaml"].
Proof.
  destruct (create_perm (shipped ample)) as (rs & E & P). destruct (create_perm [trial_rule]) as (rs2 & E2 & P2).
  exists (match make_config (fun _ => false) (fun _ => Err EKey) told_line with Config c _ => c | _ => [] end), (rs ++ (rs2 ++ []))%list.
  split; [vm_compute; reflexivity|]. split; [vm_compute; reflexivity|]. split.
  - cbn [concat_res]. unfold load_path. cbn [String.eqb]. unfold import_module. cbn [String.eqb]. unfold module_of. cbn [bind]. 
    change (if String.eqb "cfnlint.rules" "cfnlint.rules" then shipped ample else [trial_rule]) with (shipped ample). change (if String.eqb "trial" "cfnlint.rules" then shipped ample else [trial_rule]) with [trial_rule].
    cbn [Ascii.eqb Bool.eqb bind]. rewrite E, E2. reflexivity.
  - split; [rewrite app_nil_r; now apply Permutation_app|]. vm_compute. reflexivity.
Qed.
Lemma told_shipped rs : Permutation rs (shipped ample ++ [trial_rule])%list -> with_shipped ample rs.
Proof.
  intros P. destruct all_loaded as [[A B] _]. split.
  - intros r0 H0. destruct (A r0 H0) as (r & Hr & S). exists r. split; [|exact S]. apply (Permutation_in _ (Permutation_sym P)). apply in_or_app. now left.
  - intros r0 r H0 Hr E. apply (Permutation_in _ P) in Hr. apply in_app_or in Hr as [Hr|[<-|[]]]; [exact (B r0 r H0 Hr E)|]. exfalso.
    assert (K : smem (r_id trial_rule) (map r_id (shipped ample)) = false) by (vm_compute; reflexivity).
    rewrite E in K. assert (X : In (r_id r0) (map r_id (shipped ample))) by now apply in_map. apply smem_iff in X. congruence.
Qed.
Lemma told_seen region : seen_as_is ample (mkCfn "t.yaml" region (marked rich)) "E1012".
Proof. split; [vm_compute; reflexivity|]. split; [intros [K|[K|[K|[]]]]; discriminate K | reflexivity]. Qed.

(** Everything together: one command line and one report meet the hypotheses of all four theorems. *)
Lemma told_case : exists l, the_program told_line = Linted l /\ command told_line told_groups ["a.yaml"] /\ Forall good_use told_groups /\
  comma_said told_groups "--ignore-checks" ["E2"; "E6"] /\
  (exists fi, In fi l /\ f_rule fi = "E2015") /\ (exists fi, In fi l /\ f_rule fi = "I2012") /\ (exists fi, In fi l /\ f_rule fi = "E9009") /\ (exists fi, In fi l /\ f_rule fi = "E1012") /\
  (forall c fi, In fi (fst (keeping c)) -> In (f_rule fi) built_in_ids).
Proof.
  pose proof told_reports as R. destruct (the_program told_line) as [l|z|e]; [|discriminate R|discriminate R]. exists l. split; [reflexivity|]. split; [exact told_command|]. split; [exact told_good|].
  split; [apply told_said|]. apply andb_true_iff in R as [R _]. cbn [forallb] in R.
  apply andb_true_iff in R as [R1 R]. apply andb_true_iff in R as [R2 R]. apply andb_true_iff in R as [R3 R]. apply andb_true_iff in R as [R4 R].
  split; [now apply reporting_in|]. split; [now apply reporting_in|]. split; [now apply reporting_in|]. split; [now apply reporting_in|]. intros c fi [].
Qed.
Lemma told_reported : (exists cli file ap rs, make_config (fun _ => false) (fun _ => Err EKey) told_line = Config cli file /\ append_rules (mkSources cli [] file) = Ok ap /\
     concat_res (load_path (fun _ => None) module_of) ("cfnlint.rules" :: ap) = Ok rs /\ with_shipped ample rs /\
     (forall i, In i ["E1012"; "E0002"] -> unnamed i (value_in file "ignore_checks"))) /\
  (forall i p, In i ["E1012"; "E0002"] -> In p ["E2"; "E6"] -> p <> "" -> ~ is_prefix p i) /\
  truthy (erase (marked rich)) = true /\ at_keys ["Metadata"; "cfn-lint"; "config"] (erase (marked rich)) = None /\ spec_ok small_sp /\
  (forall region, seen_as_is ample (mkCfn "t.yaml" region (marked rich)) "E1012") /\ (exists m d, marked rich = MDict m d) /\ get_directives (marked rich) = Ok [].
Proof.
  split; [|split; [|split; [|split; [|split; [|split; [exact told_seen|]]]]]].
  - destruct told_loaded as (cli & rs & A & B & C & P & _). exists cli, [], ["trial"], rs. split; [exact A|]. split; [exact B|]. split; [exact C|]. split; [exact (told_shipped rs P)|].
    intros i _ x (vs & E & _). discriminate E.
  - intros i p Hi Hp _ [r E]. destruct Hi as [<-|[<-|[]]]; destruct Hp as [<-|[<-|[]]]; discriminate E.
  - vm_compute. reflexivity.
  - vm_compute. reflexivity.
  - exact small_spec_ok.
  - split; [|vm_compute; reflexivity]. unfold rich. eexists. eexists. reflexivity.
Qed.
Lemma rich_erased : erase (marked rich) = rich.
Proof. vm_compute. reflexivity. Qed.
Lemma rich_names n o : defined_in "Parameters" rich n o \/ defined_in "Resources" rich n o -> In n ["P"; "Q"; "R"; "A"; "B"].
Proof.
  intros [(d & s & E & A & B)|(d & s & E & A & B)]; unfold rich in E; injection E as <-; vm_compute in A; injection A as <-; apply BaseFacts.assoc_In in B; cbn [In] in B;
    repeat (destruct B as [B|B]; [injection B as <- _; cbn; tauto|]); destruct B.
Qed.
Lemma told_dangling : wf (erase (marked rich)) /\ plain_sections (erase (marked rich)) /\ at_path [PKey "Ref"] (erase (marked rich)) = None /\
  (exists ms, ref_exist_match (erase (marked rich)) (VDict []) = Ok ms) /\
  at_path ([PKey "Resources"; PKey "B"; PKey "Properties"; PKey "Name"] ++ [PKey "Ref"])%list (erase (marked rich)) = Some (VStr "Missing") /\
  (forall x rest, References.names (erase (marked rich)) x \/ References.module (erase (marked rich)) x -> "Missing" <> x ++ rest).
Proof.
  rewrite rich_erased. split; [apply wfb_sound; vm_compute; reflexivity|]. split; [|split; [reflexivity|split; [|split; [reflexivity|]]]].
  - exists rich_sections. split; [reflexivity|]. intros section s [<-|[<-|[]]] A; vm_compute in A; injection A as <-; eexists; (split; [reflexivity|]); intros n x Hi; cbn [In] in Hi;
      repeat (destruct Hi as [Hi|Hi]; [injection Hi as <- <-; eexists; (split; [reflexivity|]); (split; [|reflexivity]); intros K; try discriminate K; intros t Ht; vm_compute in Ht; injection Ht as <-; eexists; reflexivity|]); destruct Hi.
  - exists (match ref_exist_match rich (VDict []) with Ok ms => ms | Err _ => [] end). vm_compute. reflexivity.
  - intros x rest H. assert (K : In x ["P"; "Q"; "R"; "A"; "B"; "AWS::AccountId"; "AWS::NotificationARNs"; "AWS::NoValue"; "AWS::Partition"; "AWS::Region"; "AWS::StackId"; "AWS::StackName"; "AWS::URLSuffix"]).
    { destruct H as [[n o t Hd _|n o t Hd _ _ _|n Hn]|(o & t & Hd & _)].
      - pose proof (rich_names n o (or_introl Hd)) as K. cbn in *. tauto.
      - pose proof (rich_names n o (or_intror Hd)) as K. cbn in *. tauto.
      - cbn in *. tauto.
      - pose proof (rich_names x o (or_intror Hd)) as K. cbn in *. tauto. }
    intros E. cbn [In] in K. repeat (destruct K as [<-|K]; [discriminate E|]). destruct K.
Qed.
