(** Samples and refutations for C67. *)
From Coq Require Import List.
Import ListNotations.
From Verif.Model Require Import Base Helpers Locate Node Conditions Search Rules Refs Relationship SubNeeded.
From Verif.Spec Require Import Paths Substitution.
From Verif.Proofs Require Import BaseFacts WfDecide SearchProofs Samples PropertyWitness MatchRun SubstitutionProofs.
Import Verif.Model.Rules.
Local Open Scope string_scope.

Definition no_pattern (r t : string) : bool := starts_with r t.
Definition no_excludes : config := [("custom_excludes", VStr "")].
Definition bucket : val :=
  VDict [("Type", VStr "AWS::X::Bucket");
         ("Properties", VDict [("Name", VStr "x-${Env}-${AWS::Region}"); ("Title", VDict [("Fn::Sub", VStr "y-${Env}")]);
                               ("Policy", VDict [("Resource", VList [VStr "arn/${aws:username}"])]); ("UserData", VStr "${foo}");
                               ("Uri", VStr "${stageVariables.f}")])].
Definition machine (l : list (string * val)) : val :=
  VDict [("Type", VStr "AWS::StepFunctions::StateMachine"); ("Properties", VDict l)].
Definition texts : val :=
  VDict [("Parameters", VDict [("Env", VDict [("Description", VStr "${Env}")])]);
         ("Resources", VDict [("A", bucket);
                              ("M", machine [("DefinitionString", VStr "call ${f}"); ("DefinitionSubstitutions", VDict [("f", VStr "arn")])])])].
Definition name_path : path := [PKey "Resources"; PKey "A"; PKey "Properties"; PKey "Name"].

Lemma env_variable : has_variable "x-${Env}-${AWS::Region}" "Env".
Proof.
  split; [|exists "x-", "-${AWS::Region}"; reflexivity]. split; [discriminate|].
  intros a H. apply variable_char_iff. destruct H as [<-|[<-|[<-|[]]]]; reflexivity.
Qed.
Lemma name_not_excused t : ~ excused t name_path "Env".
Proof.
  intros H. unfold below in *. destruct H as [H|r H|k H H'|H H'|k r H H' H''|[a [b [x [[H _] _]]]]].
  - cbn in H. destruct H as [H|[H|[H|[H|[]]]]]; discriminate H.
  - discriminate H.
  - cbn in H, H'. destruct H' as [H'|[H'|[H'|[H'|[]]]]]; injection H' as <-; repeat (destruct H as [H|H]; [discriminate H|]); destruct H.
  - destruct H as [H|H]; destruct H as [H|[H|[H|[H|[]]]]]; discriminate H.
  - discriminate H''.
  - destruct a as [|e1 [|e2 [|e3 [|e4 a]]]]; try discriminate H. injection H as _ _ _ _ H. destruct a; discriminate H.
Qed.
(** The hypotheses of the theorems are met: the texts below Name are reported, the others are excused. *)
Lemma texts_example :
  wf texts /\ assoc "custom_excludes" no_excludes = Some (VStr "") /\ readable_definitions texts /\
  (at_path name_path texts = Some (VStr "x-${Env}-${AWS::Region}") /\ has_variable "x-${Env}-${AWS::Region}" "Env" /\
   ~ excused texts name_path "Env" /\ ~ spared no_pattern "" "Env") /\
  sub_needed_match texts no_pattern no_excludes = Ok [unsubstituted_at name_path "Env"; unsubstituted_at name_path "AWS::Region"].
Proof.
  split; [apply wfb_sound; reflexivity|]. split; [reflexivity|]. split; [|split; [split; [reflexivity|]; split; [exact env_variable|]; split|]].
  - intros a o x Ha Ho.
    assert (Hp : In (a ++ [PKey "DefinitionString"], x)%list (search "DefinitionString" texts [])).
    { apply search_spec; [apply wfb_sound; reflexivity|]. exists a. split; [reflexivity|]. rewrite SubstitutionProofs.at_path_app, Ha. cbn [at_path]. now rewrite Ho. }
    vm_compute in Hp. destruct Hp as [Hp|[]]. injection Hp as Hp _.
    change ([PKey "Resources"; PKey "M"; PKey "Properties"] ++ [PKey "DefinitionString"] = a ++ [PKey "DefinitionString"])%list in Hp.
    apply app_inj_tail in Hp as [<- _]. split.
    + intros e [<-|[<-|[<-|[]]]]; eauto.
    + vm_compute in Ha. injection Ha as <-. intros y [= <-]. eauto.
  - apply name_not_excused.
  - intros [H _]. now apply H.
  - vm_compute. reflexivity.
Qed.
Definition texts_cfn : cfn := mkCfn "t.yaml" "us-east-1" (marked (VDict [("Resources", VDict [("A", bucket)])])).
Lemma texts_run_example :
  let k := mkColl [sub_needed_rule no_pattern no_excludes] default_settings in
  exists raw, snd (coll_run sample_sp k texts_cfn) = Ok raw /\ enabled (k_set k) (sub_needed_rule no_pattern no_excludes) = true /\
    wf (template texts_cfn) /\ plain_definitions (template texts_cfn) /\
    map f_msg raw = [rm_msg (unsubstituted_at name_path "Env"); rm_msg (unsubstituted_at name_path "AWS::Region")].
Proof.
  eexists. split; [vm_compute; reflexivity|]. split; [reflexivity|]. split; [apply wfb_sound; reflexivity|]. split; [|reflexivity].
  intros p s n Hp Hv Hb.
  assert (Hw : wf (template texts_cfn)) by (apply wfb_sound; reflexivity).
  assert (Hi : In (p, n) (match_values (template texts_cfn) [])) by (apply (match_values_iff _ [] Hw); now exists p, s).
  vm_compute in Hi. unfold below in Hb.
  repeat (destruct Hi as [Hi|Hi]; [injection Hi as <- _; repeat (destruct Hb as [Hb|Hb]; [discriminate Hb|]); destruct Hb|]). destruct Hi.
Qed.

(** * Deviations *)

(** A variable in a state machine's definition is reported at a place that is not there. *)
Lemma definition_place_witness : exists t p q s n,
  wf t /\ at_path p t = Some (VStr s) /\ has_variable s n /\
  sub_needed_match t no_pattern no_excludes = Ok [unsubstituted_at q n] /\ at_path q t = None.
Proof.
  exists (VDict [("Resources", VDict [("M", machine [("DefinitionString", VStr "call ${f}")])])]),
    [PKey "Resources"; PKey "M"; PKey "Properties"; PKey "DefinitionString"],
    [PKey "Resources"; PKey "M"; PKey "Properties"; PKey "DefinitionSubstitutions"], "call ${f}", "f".
  split; [apply wfb_sound; reflexivity|]. split; [reflexivity|]. split; [apply variables_iff; now left|]. split; [vm_compute; reflexivity | reflexivity].
Qed.
(** Those of the section Globals are reported a second time, at a place that is not there. *)
Lemma globals_place_witness : exists t p s n,
  wf t /\ at_path (PKey "Globals" :: p) t = Some (VStr s) /\ has_variable s n /\
  sub_needed_match t no_pattern no_excludes = Ok [unsubstituted_at (PKey "Globals" :: p) n; unsubstituted_at p n] /\ at_path p t = None.
Proof.
  exists (VDict [("Globals", VDict [("Function", VDict [("Role", VStr "r-${Env}")])])]), [PKey "Function"; PKey "Role"], "r-${Env}", "Env".
  split; [apply wfb_sound; reflexivity|]. split; [reflexivity|]. split; [apply variables_iff; now left|]. split; [vm_compute; reflexivity | reflexivity].
Qed.
(** With a state machine whose properties depend on a condition the check fails without a word, and nothing of it is reported. *)
Definition silent : val :=
  VDict [("Resources", VDict [("A", bucket);
     ("M", VDict [("Type", VStr "AWS::StepFunctions::StateMachine");
                  ("Properties", VDict [("Fn::If", VList [VStr "C"; VDict [("DefinitionString", VStr "call ${f}")]; VDict [("Ref", VStr "AWS::NoValue")]])])])])].
Lemma silent_witness : exists t p s n,
  wf (template t) /\ at_path p (template t) = Some (VStr s) /\ has_variable s n /\ ~ excused (template t) p n /\
  sub_needed_match (template t) no_pattern no_excludes = Err ETemplateAttribute /\
  snd (coll_run sample_sp (mkColl [sub_needed_rule no_pattern no_excludes] default_settings) t) = Ok [].
Proof.
  exists (mkCfn "t.yaml" "us-east-1" (marked silent)), name_path, "x-${Env}-${AWS::Region}", "Env".
  split; [apply wfb_sound; reflexivity|]. split; [reflexivity|]. split; [exact env_variable|]. split; [apply name_not_excused|].
  split; [vm_compute; reflexivity | vm_compute; reflexivity].
Qed.
