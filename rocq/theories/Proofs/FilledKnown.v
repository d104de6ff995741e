(** Runs without findings and the properties the specification knows (C108). *)
From Coq Require Import List String Bool ZArith.
From Verif.Model Require Import Base Node Locate Helpers Rules Runner Config Core PropertyTree Standard.
From Verif.Spec Require Import Pipeline Paths Branches References Expected Shipped Crashes Filled.
From Verif.Proofs Require Import BaseFacts ExpectedProofs ExpectedWitness StandardRules StandardChecks CleanProofs PropertyWitness StandardPropWitness CrashWitness SilenceWitness CleanWitness PipelineProofs FilledProofs FilledWitness.
Import Verif.Model.Rules.
Import ListNotations.
Local Open Scope string_scope.

Lemma c108_known w sp tr k rg man c : plain_run w sp tr k rg man c [] -> get_directives (c_tmpl c) = Ok [] ->
  selected "E3002" false (s_experimental (k_set k)) (s_ignore (k_set k)) (s_include (k_set k)) (s_mandatory (k_set k)) ->
  plain_sections (template c) -> text_types (template c) ->
  let rts := w_resource_objects w in let pts := w_property_objects w in
  (forall parent, In parent (keys rts) -> complete rts pts parent) ->
  (forall name rt props, described_resource rts (template c) name rt props -> Expected.judgeable (template c) props) ->
  forall name rt props b q words, described_resource rts (template c) name rt props ->
    reaches rts pts rt (true, "", props, [PKey "Resources"; PKey name; PKey "Properties"]) b ->
    ~ Expected.fault rts pts (w_intrinsic_types w) (template c) rt name b q words.
Proof.
  intros Hrun Hds Hsel H1 H2 rts pts H3 H4 name rt props b q words K1 K2 K3.
  assert (Hw : wf (template c)) by exact (proj1 (proj2 (proj2 (proj2 (proj2 (proj2 (proj2 (proj2 (proj2 Hrun))))))))).
  destruct (c65_total rts pts (w_intrinsic_types w) (template c) Hw H1 H2 H3 H4) as [ms E].
  assert (S : properties_match rts pts (w_intrinsic_types w) (template c) = Ok [] \/ properties_match rts pts (w_intrinsic_types w) (template c) = Err ETemplateAttribute).
  { apply (clean_check w sp tr k rg man c "E3002" _ Hrun Hds Hsel). by_id. }
  destruct S as [S|S]; [|congruence]. assert (ms = []) by congruence. subst ms.
  apply (proj2 (c65_expected rts pts (w_intrinsic_types w) (template c) [] Hw H2 E (mkRM q words))). exists name, rt, props, b, q, words. auto.
Qed.
Lemma known_case : (plain_run ample small_sp keeping all_rules ["us-east-1"] [] (crash_cfn full_template) [] /\ get_directives (c_tmpl (crash_cfn full_template)) = Ok [] /\
  selected "E3002" false (s_experimental (k_set all_rules)) (s_ignore (k_set all_rules)) (s_include (k_set all_rules)) (s_mandatory (k_set all_rules)) /\
  plain_sections (template (crash_cfn full_template)) /\ text_types (template (crash_cfn full_template)) /\
  (forall parent, In parent (keys (w_resource_objects ample)) -> complete (w_resource_objects ample) (w_property_objects ample) parent) /\
  (forall name rt props, described_resource (w_resource_objects ample) (template (crash_cfn full_template)) name rt props -> Expected.judgeable (template (crash_cfn full_template)) props)) /\
  exists props, described_resource (w_resource_objects ample) (template (crash_cfn full_template)) "B" "AWS::CloudFormation::CustomResource" props.
Proof.
  destruct full_clean as [G E]. assert (T : template (crash_cfn full_template) = full_template) by (vm_compute; reflexivity).
  split; [split; [exact (proj1 (good_run _ _ G E))|]; split; [vm_compute; reflexivity|]; rewrite T|rewrite T].
  - split; [apply is_enabled_spec; vm_compute; reflexivity|]. split; [|split; [|split; [exact tree_complete|]]].
    + eexists. split; [reflexivity|]. intros section s Hs E1. destruct Hs as [<-|[<-|[]]]; [discriminate E1|]. injection E1 as <-. eexists. split; [reflexivity|].
      intros n x [[= <- <-]|[[= <- <-]|[]]]; eexists; (split; [reflexivity|]); (split; [|reflexivity]); intros _ t [= <-]; eauto.
    + intros name x [d [ps [[= <-] [K _]]]]. discriminate K.
    + intros name rt props [o [rt' [[d [s [[= <-] [[= <-] K]]]] [_ [Ep _]]]]]. apply assoc_In in K. destruct K as [K|[K|[]]]; injection K as <- <-; injection Ep as <-; apply judgeableb_sound; reflexivity.
  - eexists. exists [("Type", VStr "Custom::Thing"); ("Properties", VDict [a_token])], "Custom::Thing". split; [eexists _, _; split; [reflexivity|]; split; reflexivity|]. split; [reflexivity|]. split; [reflexivity|].
    split; [|cbn; auto]. right. split; [reflexivity|]. split; [now exists "Thing"|]. intros K. cbn in K. repeat (destruct K as [K|K]; [discriminate K|]). destruct K.
Qed.
