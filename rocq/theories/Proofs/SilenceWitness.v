(** A template whose faults all these rules report, until one malformed member is added (C104). *)
From Coq Require Import List String Bool ZArith.
From Verif.Model Require Import Base Locate Helpers Node Rules Runner Config Core Standard.
From Verif.Spec Require Import Pipeline Paths Faults Shipped Crashes Silence.
From Verif.Proofs Require Import PropertyWitness StandardPropWitness CrashWitness DecodeProofs SilenceProofs.
Import Verif.Model.Rules.
Import ListNotations.
Local Open Scope string_scope.

Fixpoint long_text (n : nat) : string := match n with O => "" | S m => "x" ++ long_text m end.
Definition attributes (n : nat) : val := VDict (map (fun i => (long_text i, VStr "v")) (seq 1 n)).
Definition rich_sections : list (string * val) :=
  [("Parameters", VDict
     [("P", VDict [("Type", VStr "Nothing"); ("Color", VStr "red")]);
      ("Q", VDict [("Type", VStr "String"); ("Default", VStr "c"); ("AllowedValues", VList [VStr "a"]); ("MaxLength", VInt 5000); ("NoEcho", VBool true)]);
      ("R", VDict [("Type", VStr "String"); ("MaxLength", VInt 4000)])]);
   ("Conditions", VDict [("C", VDict [("Fn::Equals", VList [VStr "a"])])]);
   ("Resources", VDict
     [("A", VDict [("Type", VStr "AWS::Events::Rule"); ("DependsOn", VStr "B"); ("Metadata", VDict [("Secret", VDict [("Ref", VStr "Q")])])]);
      ("B", VDict [("Type", VStr "AWS::Events::Rule"); ("DependsOn", VStr "A"); ("Properties", VDict [("ImageId", VDict [("a", VStr "b"); ("c", VStr "d")]); ("Name", VDict [("Ref", VStr "Missing")])])])]);
   ("Outputs", VDict
     [("X", VDict [("Value", VStr "x"); ("Color", VStr "red"); ("Description", VList [VStr "d"])]);
      ("Y", VDict [("Value", VStr "x"); ("Description", VStr (long_text 1025))]);
      ("Z", VDict [("Value", VStr "x"); ("Description", VStr (long_text 1000))])]);
   ("Mappings", VDict [("M", VDict [("k", attributes 201); ("l", attributes 190)])])].
Definition rich : val := VDict rich_sections.
Definition with_bad (section : string) : val :=
  VDict (set_assoc section (match assoc section rich_sections with Some (VDict d) => VDict (d ++ [("Bad", VStr "oops")]) | _ => VNull end) rich_sections).

Definition run_on (t : val) : outcome := snd (run_checks small_sp keeping all_rules ["us-east-1"] [] (crash_cfn t)).
Definition reporting (l : list finding) (id : string) : bool := existsb (fun f => String.eqb (f_rule f) id) l.
Definition crashing (l : list finding) (id : string) : bool := existsb (fun f => String.prefix ("Unknown exception while processing rule " ++ id) (f_msg f)) l.
Lemma rich_reports : match run_on rich with Findings l => forallb (fun e => forallb (reporting l) (snd e)) needing | Exit _ => false end = true.
Proof. vm_compute. reflexivity. Qed.
Lemma bad_silent : forallb (fun e => match run_on (with_bad (fst e)) with Findings l => forallb (fun id => negb (crashing l id)) (snd e) | Exit _ => false end) needing = true.
Proof. vm_compute. reflexivity. Qed.
Lemma bad_good : good_template rich && forallb (fun e => good_template (with_bad (fst e))) needing = true.
Proof. vm_compute. reflexivity. Qed.

Lemma c104_refuted : exists w sp tr k regions mandatory c l, plain_run w sp tr k regions mandatory c l /\
  forall section ids id, In (section, ids) needing -> In id ids -> reports_of l id /\
    exists c' l', plain_run w sp tr k regions mandatory c' l' /\ one_more (template c) (template c') section "Bad" (VStr "oops") /\
      ~ reports_of l' id /\ ~ crashed l' id.
Proof.
  pose proof bad_good as G. apply andb_true_iff in G as [G0 G1]. pose proof rich_reports as R.
  destruct (run_on rich) as [l|] eqn:E; [|discriminate R]. destruct (good_run rich l G0 E) as [P _].
  exists ample, small_sp, keeping, all_rules, ["us-east-1"], [], (crash_cfn rich), l. split; [exact P|]. intros section ids id H1 H2. split.
  { pose proof (proj1 (forallb_forall _ _) (proj1 (forallb_forall _ _) R _ H1) id H2) as K. apply existsb_exists in K as [fi [K1 K2]]. apply String.eqb_eq in K2. exists fi. auto. }
  pose proof (proj1 (forallb_forall _ _) bad_silent _ H1) as S. pose proof (proj1 (forallb_forall _ _) G1 _ H1) as Gb. cbn [fst snd] in S, Gb.
  destruct (run_on (with_bad section)) as [l'|] eqn:E'; [|discriminate S]. destruct (good_run _ l' Gb E') as [P' _].
  exists (crash_cfn (with_bad section)), l'. split; [exact P'|].
  assert (O : one_more (template (crash_cfn rich)) (template (crash_cfn (with_bad section))) section "Bad" (VStr "oops")).
  { cbn [needing In] in H1. destruct H1 as [[= <- <-]|[[= <- <-]|[[= <- <-]|[[= <- <-]|[]]]]]; eexists _, _; (split; [reflexivity|]; split; [reflexivity|]; split; [reflexivity | vm_compute; reflexivity]). }
  split; [exact O|]. split.
  - apply (c104_silent _ _ _ _ _ _ _ _ section ids id P'); [|exact H1 | exact H2].
    exists "Bad", (VStr "oops"). split; [|left; eexists; reflexivity].
    cbn [needing In] in H1. destruct H1 as [[= <- <-]|[[= <- <-]|[[= <- <-]|[[= <- <-]|[]]]]]; vm_compute; reflexivity.
  - intros (why & fi & K1 & _ & K3). pose proof (proj1 (forallb_forall _ _) S id H2) as K. apply negb_true_iff in K.
    assert (X : crashing l' id = true).
    { apply existsb_exists. exists fi. split; [exact K1|]. apply prefix_app. exists (": " ++ why). rewrite K3. reflexivity. }
    rewrite X in K. discriminate K.
Qed.
