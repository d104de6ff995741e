(** Samples for the rules on properties (C27-C30). *)
From Coq Require Import Permutation Lia.
From Verif.Model Require Import Base Helpers Locate Node Conditions Search Resolve Rules Refs Relationship Parameters JsonDump PropertyRules.
From Verif.Spec Require Import Paths Branches Walk Required Resolved.
From Verif.Proofs Require Import BaseFacts WfDecide BranchProofs SearchProofs Samples PropertyRuleProofs.
Import ListNotations.
Import Verif.Model.Rules.
Local Open Scope string_scope.

(** A template whose elements all have the same position. *)
Fixpoint marked (v : val) : mval :=
  match v with
  | VStr s => MStr (mk 0 1) s
  | VList l => MList (mk 0 1) (map marked l)
  | VDict d => MDict (mk 0 1) (map (fun kv => ((fst kv, Some (mk 0 1)), marked (snd kv))) d)
  | v => MScalar v
  end.
Definition pspec_required : pspec := mkPS true None (Some "String") None [] None.
Definition pspec_optional : pspec := mkPS false None (Some "String") None [] None.
Definition sample_rs : rspec := mkRS
  [("AWS::X::Table", [("Name", pspec_required); ("Rules", mkPS false (Some "List") None None [] (Some false)); ("Kind", pspec_required)]);
   ("AWS::CloudFormation::CustomResource", [("ServiceToken", pspec_required)])]
  [("AWS::X::Table.Rule", [("Id", pspec_required); ("Text", pspec_optional)])] [].
Definition sample_sp : spec := mkSpec
  [("AWS::X::Table.Rule", mkTS (Some [("Id", mkPD None None); ("Text", mkPD None None)]) None None)]
  [("AWS::X::Table", mkTS (Some [("Name", mkPD None None); ("Rules", mkPD (Some "List") (Some "Rule")); ("Kind", mkPD None None)]) None None)].
Definition sample_props : list (string * val) :=
  [("Fn::If", VList [VStr "IsProd"; VDict [("Name", VStr "a"); ("Kind", NoValue); ("Rules", VList [VDict [("Id", VInt 1)]; VDict [("Text", VStr "x")]])];
                     VDict [("Name", VStr "b"); ("Kind", VStr "k")]])].
Definition sample_attrs : list (string * val) := [("Type", VStr "AWS::X::Table"); ("Properties", VDict sample_props)].
Definition sample_template : val :=
  VDict [("Resources", VDict [("T", VDict sample_attrs); ("C", VDict [("Type", VStr "Custom::Thing"); ("Properties", VDict [("A", VStr "a")])])])].
Definition sample_cfn : cfn := mkCfn "t.yaml" "us-east-1" (marked sample_template).

Lemma required_example : let k := mkColl [required_rule sample_rs] default_settings in
  exists raw, snd (coll_run sample_sp k sample_cfn) = Ok raw /\
    map f_msg raw = ["Property ServiceToken missing at Resources/C/Properties";
                     "Property Kind missing at Resources/T/Properties/Fn::If/1";
                     "Property Id missing at Resources/T/Properties/Fn::If/1/Rules/1"].
Proof. cbv zeta. eexists. split; vm_compute; reflexivity. Qed.
Lemma required_hypotheses :
  In (required_rule sample_rs) (k_all (mkColl [required_rule sample_rs] default_settings)) /\ enabled default_settings (required_rule sample_rs) = true /\
  wf (template sample_cfn) /\ (exists m d, c_tmpl sample_cfn = MDict m d) /\ resource_of (template sample_cfn) "T" "AWS::X::Table" sample_attrs /\
  all_members (VDict sample_props) [PKey "Resources"; PKey "T"; PKey "Properties"] /\
  requires (rs_resource_types sample_rs) "AWS::X::Table" "Kind" /\
  (exists w q, branch (VDict sample_props) [PKey "Resources"; PKey "T"; PKey "Properties"] w q /\ lacks w "Kind") /\
  (exists d q, resource_nested sample_sp "AWS::X::Table" (VDict sample_props) [PKey "Resources"; PKey "T"; PKey "Properties"] "AWS::X::Table.Rule" (VDict d) q /\
     ~ is_if (VDict d) /\ branch (VDict d) q (VDict d) q /\ requires (rs_property_types sample_rs) "AWS::X::Table.Rule" "Id" /\ lacks (VDict d) "Id").
Proof.
  split; [now left|]. split; [reflexivity|]. split; [apply wfb_sound; reflexivity|]. split; [do 2 eexists; reflexivity|].
  split; [do 2 eexists; split; [reflexivity|]; split; [reflexivity|]; split; [now left | reflexivity]|].
  assert (Hb : branch (VDict sample_props) [PKey "Resources"; PKey "T"; PKey "Properties"]
    (VDict [("Name", VStr "a"); ("Rules", VList [VDict [("Id", VInt 1)]; VDict [("Text", VStr "x")]])]) [PKey "Resources"; PKey "T"; PKey "Properties"; PKey "Fn::If"; PIdx 1]).
  { apply items_safe_spec. now left. }
  split.
  { intros w q H. apply items_safe_spec in H. cbn in H. destruct H as [[= <- <-]|[[= <- <-]|[]]]; left; eauto. }
  split; [do 2 eexists; split; [reflexivity|]; split; [now do 2 right; left | reflexivity]|]. split.
  - do 2 eexists. split; [exact Hb|]. constructor. cbn. intuition discriminate.
  - exists [("Text", VStr "x")], [PKey "Resources"; PKey "T"; PKey "Properties"; PKey "Fn::If"; PIdx 1; PKey "Rules"; PIdx 1].
    split.
    + eapply rn_list with (key := "Rules") (l := [VDict [("Id", VInt 1)]; VDict [("Text", VStr "x")]]) (i := 1).
      * exact Hb.
      * exists [], []. split; [reflexivity | intros []].
      * reflexivity.
      * now right; left.
      * exists [("Name", mkPD None None)], [("Kind", mkPD None None)]. split; [reflexivity|]. cbn. intuition discriminate.
      * split; [reflexivity|]. cbn. intuition discriminate.
      * reflexivity.
      * eapply n_here; [apply tn_other; discriminate|]. exists [], []. split; [reflexivity | intros []].
    + split; [intros [x E]; discriminate|]. split; [apply items_safe_spec; now left|].
      split; [do 2 eexists; split; [reflexivity|]; split; [now left | reflexivity]|]. constructor. cbn. intuition discriminate.
Qed.
