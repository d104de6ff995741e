(** A run without findings on a template with properties of all kinds (C108). *)
From Coq Require Import List String Bool ZArith Permutation.
From Verif.Model Require Import Base Locate Helpers Node Rules Runner Config Core PropertyRules ValueRules Standard.
From Verif.Spec Require Import Pipeline Paths Branches Walk Required Resolved Groups Sizes Values Shipped ShippedChecks Crashes Filled.
From Verif.Proofs Require Import BaseFacts PropertyWitness StandardPropWitness CrashWitness SilenceWitness CleanWitness PipelineProofs.
Import Verif.Model.Rules.
Import ListNotations.
Local Open Scope string_scope.

Definition full_target : val := VDict [("Arn", VStr "long one"); ("Id", VStr "good")].
Definition full_properties : list (string * val) :=
  [("Name", VStr "good"); ("State", VStr "x"); ("Pattern", VStr "x"); ("RoleArn", VStr "y"); ("Targets", VList [full_target; full_target])].
Definition full_template : val := VDict
  [("Resources", VDict [("A", VDict [("Type", VStr "AWS::Events::Rule"); ("Properties", VDict full_properties)]);
                        ("B", VDict [("Type", VStr "Custom::Thing"); ("Properties", VDict [a_token])])])].
Lemma full_clean : good_template full_template = true /\ run_on full_template = Findings [].
Proof. split; vm_compute; reflexivity. Qed.
Lemma filling_on : forall id, In id filling_rules ->
  selected id false (s_experimental (k_set all_rules)) (s_ignore (k_set all_rules)) (s_include (k_set all_rules)) (s_mandatory (k_set all_rules)).
Proof.
  intros id H. assert (K : forallb (fun id => is_rule_enabled (k_set all_rules) id false) filling_rules = true) by (vm_compute; reflexivity).
  apply is_enabled_spec. exact (proj1 (forallb_forall _ _) K id H).
Qed.
Definition full_place : path := [PKey "Resources"; PKey "A"; PKey "Properties"].
Lemma full_case : (plain_run ample small_sp keeping all_rules ["us-east-1"] [] (crash_cfn full_template) [] /\ get_directives (c_tmpl (crash_cfn full_template)) = Ok [] /\
  (forall id, In id filling_rules -> selected id false (s_experimental (k_set all_rules)) (s_ignore (k_set all_rules)) (s_include (k_set all_rules)) (s_mandatory (k_set all_rules))) /\
  types_are_texts (template (crash_cfn full_template)) /\ (forall l, Permutation (w_order ample l) l) /\ ~ In "" (keys (w_values ample)) /\ ~ In "" (keys (rs_value_types (w_rspec ample)))) /\
  (exists specs ps, object_with small_sp (rs_resource_types (w_rspec ample)) (rs_property_types (w_rspec ample)) full_template "AWS::Events::Rule" full_properties full_place specs /\
     In ("State", ps) specs /\ ps_required ps = true /\ branch (VDict full_properties) full_place (VDict full_properties) full_place) /\
  (exists q specs ps, object_with small_sp (rs_resource_types (w_rspec ample)) (rs_property_types (w_rspec ample)) full_template "AWS::Events::Rule.Target"
     [("Arn", VStr "long one"); ("Id", VStr "good")] q specs /\ In ("Arn", ps) specs /\ ps_required ps = true) /\
  (exists groups, object_with small_sp (fst (w_only_one ample)) (snd (w_only_one ample)) full_template "AWS::Events::Rule" full_properties full_place groups /\ groups <> []).
Proof.
  destruct full_clean as [G E].
  assert (Pr : properties_of full_template "AWS::Events::Rule" full_properties full_place).
  { exists "A", [("Type", VStr "AWS::Events::Rule"); ("Properties", VDict full_properties)]. split; [|split; reflexivity].
    eexists _, _. split; [reflexivity|]. split; [reflexivity|]. split; [now left | reflexivity]. }
  assert (Br : branch (VDict full_properties) full_place (VDict full_properties) full_place).
  { apply br_leaf; [intros [x K]; discriminate K | discriminate|]. constructor. repeat (apply pr_keep; [discriminate|]). constructor. }
  split; [|split; [|split]].
  - split; [exact (proj1 (good_run _ _ G E))|]. split; [vm_compute; reflexivity|]. split; [exact filling_on|]. split; [|split; [|split]].
    + assert (T : template (crash_cfn full_template) = full_template) by (vm_compute; reflexivity). rewrite T. intros top rs name attrs ty [= <-] K1 K2 K3. injection K1 as <-.
      destruct K2 as [K2|[K2|[]]]; injection K2 as <- <-; injection K3 as <-; right; eauto.
    + intros l. apply Permutation_refl.
    + intros K. cbn in K. repeat (destruct K as [K|K]; [discriminate K|]). destruct K.
    + intros K. cbn in K. repeat (destruct K as [K|K]; [discriminate K|]). destruct K.
  - eexists _, _. split; [left; split; [exact Pr | reflexivity]|]. split; [right; left; reflexivity|]. split; [reflexivity | exact Br].
  - eexists (full_place ++ [PKey "Targets"; PIdx 0])%list, _, _. split; [right; split; [|reflexivity]|split; [left; reflexivity | reflexivity]].
    exists "AWS::Events::Rule", full_properties, full_place. split; [exact Pr|]. split; [|intros [x K]; discriminate K].
    eapply (rn_list small_sp "AWS::Events::Rule" _ _ full_properties full_place _ _ "Targets" _ [full_target; full_target] 0%nat full_target); [exact Br | exists [], []; split; [reflexivity | intros []] | reflexivity | | | | reflexivity |].
    + right; right; right; right; left; reflexivity.
    + eexists [_; _], []. split; [reflexivity|]. intros [K|[K|[]]]; discriminate K.
    + split; [reflexivity|]. intros [K|[K|[K|[]]]]; discriminate K.
    + eapply n_here; [apply (tn_other "AWS::Events::Rule" "Target"); discriminate|]. exists [], []. split; [reflexivity | intros []].
  - eexists. split; [left; split; [exact Pr | reflexivity] | discriminate].
Qed.
