(** Runs without findings and their references (C107). *)
From Coq Require Import List String Bool ZArith Relations.
From Verif.Model Require Import Base Locate Helpers Node Rules Runner Config Core Standard.
From Verif.Spec Require Import Pipeline Paths References Limited ConditionUse Faults Dependencies Protect Shipped Crashes Silence Clean Resolving.
From Verif.Proofs Require Import PropertyWitness StandardPropWitness CrashWitness SilenceWitness PipelineProofs GraphProofs CleanWitness.
Import Verif.Model.Rules.
Import ListNotations.
Local Open Scope string_scope.

(** A template whose parts refer to each other. *)
Definition linked_template : val := VDict
  [("Parameters", VDict [("P", VDict [("Type", VStr "String"); ("Default", VStr "x")])]);
   ("Conditions", VDict [("C", VDict [("Fn::Equals", VList [VDict [("Ref", VStr "P")]; VStr "x"])]);
                         ("D", VDict [("Fn::Not", VList [VDict [("Condition", VStr "C")]])])]);
   ("Resources", VDict
     [("A", VDict [("Type", VStr "Custom::Thing"); ("Properties", VDict [a_token])]);
      ("B", VDict [("Type", VStr "Custom::Thing"); ("DependsOn", VStr "A"); ("Condition", VStr "D");
        ("Properties", VDict [a_token; ("Name", VDict [("Fn::If", VList [VStr "C"; VStr "x"; VDict [("Ref", VStr "P")]])])])]);
      ("E", VDict [("Type", VStr "Custom::Thing"); ("Condition", VStr "D"); ("DependsOn", VList [VStr "A"]); ("Properties", VDict [a_token; ("Of", VDict [("Ref", VStr "B")])])])]);
   ("Outputs", VDict [("O", VDict [("Condition", VStr "C"); ("Value", VDict [("Ref", VStr "P")])])])].
(** A template whose references all lead nowhere. *)
Definition dangling_template : val := VDict
  [("Parameters", VStr "none"); ("Outputs", VList []);
   ("Resources", VDict
     [("A", VDict [("Type", VStr "Custom::Thing"); ("Condition", VStr "Nowhere"); ("DependsOn", VStr "");
        ("Properties", VDict [a_token; ("Name", VDict [("Ref", VStr "Nothing")])])])])].
Definition longer_template : val := VDict
  [("Resources", VDict
     [("A", VDict [("Type", VStr "Custom::Thing"); ("Properties", VDict [a_token])]);
      ("B", VDict [("Type", VStr "Custom::Thing"); ("Properties", VDict [a_token; ("Name", VDict [("Ref", VStr "Another")])])])])].
Lemma linked_clean : good_template linked_template = true /\ run_on linked_template = Findings [].
Proof. split; vm_compute; reflexivity. Qed.
Lemma dangling_clean : good_template dangling_template = true /\ run_on dangling_template = Findings [].
Proof. split; vm_compute; reflexivity. Qed.
Lemma longer_clean : good_template longer_template = true /\ run_on longer_template = Findings [].
Proof. split; vm_compute; reflexivity. Qed.
Lemma references_on : forall id, In id reference_rules ->
  selected id false (s_experimental (k_set all_rules)) (s_ignore (k_set all_rules)) (s_include (k_set all_rules)) (s_mandatory (k_set all_rules)).
Proof.
  intros id H. assert (K : forallb (fun id => is_rule_enabled (k_set all_rules) id false) reference_rules = true) by (vm_compute; reflexivity).
  apply is_enabled_spec. exact (proj1 (forallb_forall _ _) K id H).
Qed.
Lemma resolves_hyps t : good_template t = true -> run_on t = Findings [] -> get_directives (c_tmpl (crash_cfn t)) = Ok [] ->
  plain_run ample small_sp keeping all_rules ["us-east-1"] [] (crash_cfn t) [] /\ get_directives (c_tmpl (crash_cfn t)) = Ok [] /\
  (forall id, In id reference_rules -> selected id false (s_experimental (k_set all_rules)) (s_ignore (k_set all_rules)) (s_include (k_set all_rules)) (s_mandatory (k_set all_rules))) /\
  known_regions (w_specs ample) (w_regions ample) /\ finds_cycles (w_find_cycle ample).
Proof.
  intros G E D. split; [exact (proj1 (good_run _ _ G E))|]. split; [exact D|]. split; [exact references_on|]. split; [eexists _, _, _; split; reflexivity|].
  exact find_cycle_dfs_contract.
Qed.
Lemma resolves_case : (plain_run ample small_sp keeping all_rules ["us-east-1"] [] (crash_cfn linked_template) [] /\ get_directives (c_tmpl (crash_cfn linked_template)) = Ok [] /\
  (forall id, In id reference_rules -> selected id false (s_experimental (k_set all_rules)) (s_ignore (k_set all_rules)) (s_include (k_set all_rules)) (s_mandatory (k_set all_rules))) /\
  known_regions (w_specs ample) (w_regions ample) /\ finds_cycles (w_find_cycle ample)) /\
  uses_condition linked_template (VDict []) "D" /\ depends linked_template "E" "B".
Proof.
  destruct linked_clean as [G E]. split; [exact (resolves_hyps _ G E ltac:(vm_compute; reflexivity))|]. split.
  - eapply (uc_resource _ _ _ "B"); [eexists _, _; split; [reflexivity|]; split; reflexivity | reflexivity | discriminate | reflexivity].
  - apply (dp_function _ _ _ [PKey "Properties"; PKey "Of"] "Ref" (VStr "B")); [eexists _, _, _; split; [reflexivity|]; split; [reflexivity|]; split; [reflexivity | discriminate] | reflexivity | constructor].
Qed.
(** No name of the template is the beginning of "Nothing". *)
Lemma nothing_named : ~ begins_with_name dangling_template "Nothing".
Proof.
  intros (n & rest & H & E). assert (P : prefix n "Nothing" = true) by (rewrite E; clear; induction n as [|a n IH]; cbn [append prefix]; [destruct rest; reflexivity|]; destruct (Ascii.ascii_dec a a); congruence).
  enough (F : prefix n "Nothing" = false) by congruence. clear P E.
  destruct H as [H|(o & t & (d & s & K1 & K2 & K3) & _)]; [inversion H as [n0 o t (d & s & K1 & K2 & K3) _|n0 o t (d & s & K1 & K2 & K3) _ _ _|n0 Hn]; subst|].
  - injection K1 as <-. cbn in K2. discriminate K2.
  - injection K1 as <-. cbn in K2. injection K2 as <-. apply BaseFacts.assoc_In in K3. destruct K3 as [K3|[]]. injection K3 as <- _. reflexivity.
  - cbn in Hn. repeat (destruct Hn as [<-|Hn]; [reflexivity|]). destruct Hn.
  - injection K1 as <-. cbn in K2. injection K2 as <-. apply BaseFacts.assoc_In in K3. destruct K3 as [K3|[]]. injection K3 as <- _. reflexivity.
Qed.
Lemma c107_refuted : exists w sp tr k regions mandatory c, plain_run w sp tr k regions mandatory c [] /\ get_directives (c_tmpl c) = Ok [] /\
  (forall id, In id reference_rules -> selected id false (s_experimental (k_set k)) (s_ignore (k_set k)) (s_include (k_set k)) (s_mandatory (k_set k))) /\
  known_regions (w_specs w) (w_regions w) /\
  (exists p s, at_path (p ++ [PKey "Ref"])%list (template c) = Some (VStr s) /\ ~ begins_with_name (template c) s) /\
  (exists n, uses_condition (template c) (VDict []) n /\ ~ condition_defined (template c) n) /\
  (exists n p, depends_entry (template c) n p (VStr "")).
Proof.
  destruct dangling_clean as [G E]. destruct (resolves_hyps _ G E ltac:(vm_compute; reflexivity)) as (H1 & H2 & H3 & H4 & _).
  exists ample, small_sp, keeping, all_rules, ["us-east-1"], [], (crash_cfn dangling_template).
  split; [exact H1|]. split; [exact H2|]. split; [exact H3|]. split; [exact H4|].
  assert (T : template (crash_cfn dangling_template) = dangling_template) by (vm_compute; reflexivity). rewrite T. split; [|split].
  - exists [PKey "Resources"; PKey "A"; PKey "Properties"; PKey "Name"], "Nothing". split; [reflexivity | exact nothing_named].
  - exists "Nowhere". split; [eapply (uc_resource _ _ _ "A"); [eexists _, _; split; [reflexivity|]; split; reflexivity | reflexivity | discriminate | reflexivity]|].
    intros (d & cs & K1 & K2 & _). injection K1 as <-. cbn in K2. discriminate K2.
  - exists "A". eexists. eapply de_one; [split; [eexists _, _; split; [reflexivity|]; split; reflexivity | eexists; split; [reflexivity | discriminate]] | reflexivity | intros l K; discriminate K].
Qed.
Lemma c107_longer : exists w sp tr k regions mandatory c, plain_run w sp tr k regions mandatory c [] /\ get_directives (c_tmpl c) = Ok [] /\
  (forall id, In id reference_rules -> selected id false (s_experimental (k_set k)) (s_ignore (k_set k)) (s_include (k_set k)) (s_mandatory (k_set k))) /\
  known_regions (w_specs w) (w_regions w) /\
  exists p s, at_path (p ++ [PKey "Ref"])%list (template c) = Some (VStr s) /\ ~ References.names (template c) s /\ forall n, ~ References.module (template c) n.
Proof.
  destruct longer_clean as [G E]. destruct (resolves_hyps _ G E ltac:(vm_compute; reflexivity)) as (H1 & H2 & H3 & H4 & _).
  exists ample, small_sp, keeping, all_rules, ["us-east-1"], [], (crash_cfn longer_template).
  split; [exact H1|]. split; [exact H2|]. split; [exact H3|]. split; [exact H4|].
  assert (T : template (crash_cfn longer_template) = longer_template) by (vm_compute; reflexivity). rewrite T.
  exists [PKey "Resources"; PKey "B"; PKey "Properties"; PKey "Name"], "Another". split; [reflexivity|]. split.
  - intros H. inversion H as [n0 o t (d & s & K1 & K2 & K3) _|n0 o t (d & s & K1 & K2 & K3) _ _ _|n0 Hn]; subst.
    + injection K1 as <-. cbn in K2. discriminate K2.
    + injection K1 as <-. cbn in K2. injection K2 as <-. cbn in K3. discriminate K3.
    + cbn in Hn. repeat (destruct Hn as [Hn|Hn]; [discriminate Hn|]). destruct Hn.
  - intros n (o & t & (d & s & K1 & K2 & K3) & Ht & Hm). injection K1 as <-. cbn in K2. injection K2 as <-. apply BaseFacts.assoc_In in K3.
    destruct K3 as [K3|[K3|[]]]; injection K3 as <- <-; cbn in Ht; injection Ht as <-; discriminate Hm.
Qed.
