(** Runs without findings (C106). *)
From Coq Require Import List String Bool ZArith.
From Verif.Model Require Import Base Locate Helpers Node Rules Runner Config Core Standard.
From Verif.Spec Require Import Pipeline Paths Limited ConditionUse Faults Shipped Crashes Silence Clean.
From Verif.Proofs Require Import PropertyWitness StandardPropWitness CrashWitness SilenceWitness PipelineProofs.
Import Verif.Model.Rules.
Import ListNotations.
Local Open Scope string_scope.

Definition a_token : string * val := ("ServiceToken", VStr "arn:aws:sns:us-east-1:123456789012:t").
(** A template with all sections in order. *)
Definition tidy_template : val := VDict
  [("Description", VStr "tidy");
   ("Parameters", VDict [("P", VDict [("Type", VStr "String"); ("Default", VStr "x")])]);
   ("Mappings", VDict [("M", VDict [("a", VDict [("b", VStr "c")])])]);
   ("Conditions", VDict [("C", VDict [("Fn::Equals", VList [VDict [("Ref", VStr "P")]; VStr "x"])])]);
   ("Resources", VDict [("A", VDict [("Type", VStr "Custom::Thing"); ("Condition", VStr "C");
      ("Properties", VDict [a_token; ("Name", VDict [("Fn::FindInMap", VList [VStr "M"; VStr "a"; VStr "b"])])])])]);
   ("Outputs", VDict [("O", VDict [("Value", VDict [("Ref", VStr "P")])])])].
(** A template whose sections are nearly all nonsense. *)
Definition hollow_template : val := VDict
  [("AWSTemplateFormatVersion", VInt 3); ("Parameters", VStr "none"); ("Mappings", VList [VStr "m"]); ("Conditions", VStr "none"); ("Metadata", VStr "none");
   ("Rules", VInt 1); ("Resources", VDict [("A", VDict [("Type", VStr "Custom::Thing"); ("Properties", VDict [a_token])])]);
   ("Outputs", VDict [("O", VStr "No Value here")])].
Lemma tidy_clean : good_template tidy_template = true /\ run_on tidy_template = Findings [].
Proof. split; vm_compute; reflexivity. Qed.
Lemma hollow_clean : good_template hollow_template = true /\ run_on hollow_template = Findings [].
Proof. split; vm_compute; reflexivity. Qed.
Lemma rules_on : forall id, In id section_rules ->
  selected id false (s_experimental (k_set all_rules)) (s_ignore (k_set all_rules)) (s_include (k_set all_rules)) (s_mandatory (k_set all_rules)).
Proof.
  intros id H. assert (K : forallb (fun id => is_rule_enabled (k_set all_rules) id false) section_rules = true) by (vm_compute; reflexivity).
  apply is_enabled_spec. exact (proj1 (forallb_forall _ _) K id H).
Qed.
Lemma clean_case : plain_run ample small_sp keeping all_rules ["us-east-1"] [] (crash_cfn tidy_template) [] /\ get_directives (c_tmpl (crash_cfn tidy_template)) = Ok [] /\
  (forall id, In id section_rules -> selected id false (s_experimental (k_set all_rules)) (s_ignore (k_set all_rules)) (s_include (k_set all_rules)) (s_mandatory (k_set all_rules))) /\
  known_regions (w_specs ample) (w_regions ample).
Proof.
  destruct tidy_clean as [G E]. split; [exact (proj1 (good_run _ _ G E))|]. split; [vm_compute; reflexivity|]. split; [exact rules_on|].
  eexists _, _, _. split; reflexivity.
Qed.
Lemma c106_refuted : exists w sp tr k regions mandatory c d, plain_run w sp tr k regions mandatory c [] /\ get_directives (c_tmpl c) = Ok [] /\
  (forall id, In id section_rules -> selected id false (s_experimental (k_set k)) (s_ignore (k_set k)) (s_include (k_set k)) (s_mandatory (k_set k))) /\
  known_regions (w_specs w) (w_regions w) /\ template c = VDict d /\
  (forall name, In name ["Parameters"; "Mappings"; "Conditions"; "Metadata"] -> exists v, assoc name d = Some v /\ no_object v) /\
  (exists z, assoc "AWSTemplateFormatVersion" d = Some (VInt z)) /\ (exists z, assoc "Rules" d = Some (VInt z)) /\ malformed (template c) "Outputs".
Proof.
  destruct hollow_clean as [G E]. eexists ample, small_sp, keeping, all_rules, ["us-east-1"], [], (crash_cfn hollow_template), _.
  split; [exact (proj1 (good_run _ _ G E))|]. split; [vm_compute; reflexivity|]. split; [exact rules_on|].
  split; [eexists _, _, _; split; reflexivity|]. split; [vm_compute; reflexivity|].
  split; [|split; [|split]].
  - intros name H. cbn [In] in H. destruct H as [<-|[<-|[<-|[<-|[]]]]]; eexists; (split; [vm_compute; reflexivity|]); unfold no_object; [left|right|left|left]; eexists; reflexivity.
  - eexists; vm_compute; reflexivity.
  - eexists; vm_compute; reflexivity.
  - exists "O", (VStr "No Value here"). split; [vm_compute; reflexivity | left; eexists; reflexivity].
Qed.
(** The program does not look at an empty template, although a rule has something to say about it. *)
Definition empty_template : val := VDict [].
Lemma empty_silent : exists w sp tr all c l, with_shipped w all /\ only_shipped w all /\ template c = VDict [] /\
  snd (lint_one (fun _ => "") sp tr all [] [] initial_state (c_file c) (DecOk (c_tmpl c))) = Ok (Findings []) /\
  snd (run_checks sp tr (mkColl all (k_set all_rules)) ["us-east-1"] [] c) = Findings l /\ reports_of l "E1001".
Proof.
  destruct all_loaded as [A B].
  destruct (run_on empty_template) as [l|] eqn:E; [|exfalso; vm_compute in E; discriminate].
  exists ample, small_sp, keeping, (shipped ample), (crash_cfn empty_template), l. split; [exact A|]. split; [exact B|]. split; [reflexivity|].
  split; [vm_compute; reflexivity|]. split; [exact E|].
  assert (K : match run_on empty_template with Findings l => existsb (fun f => String.eqb (f_rule f) "E1001") l | Exit _ => false end = true) by (vm_compute; reflexivity).
  rewrite E in K. apply existsb_exists in K as [fi [K1 K2]]. apply String.eqb_eq in K2. exists fi. auto.
Qed.
Lemma c106_empty str sp tr all cli fl st name d st' o : truthy (erase d) = false -> lint_one str sp tr all cli fl st name (DecOk d) = (st', Ok o) -> o = Findings [].
Proof.
  intros Ht. unfold lint_one. destruct (get_template_rules str all cli fl st (DecOk d)) as [st1 r] eqn:E.
  unfold get_template_rules in E. destruct (ignore_bad cli fl st) as [b|e]; [|injection E as <- <-; discriminate].
  destruct (set_template_args (erase d)) as [targs|e]; [|injection E as <- <-; discriminate].
  match type of E with (match ?k with _ => _ end) = _ => destruct k as [k'|e] end; injection E as <- <-; [|discriminate].
  rewrite Ht. cbn [negb]. now intros [= _ <-].
Qed.
