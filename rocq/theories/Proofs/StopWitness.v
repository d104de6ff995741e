(** Templates that stop the program and templates that do not (C111). *)
From Coq Require Import List String ZArith Bool.
From Verif.Model Require Import Base Node Locate Helpers Rules Runner Config Core.
From Verif.Spec Require Import Pipeline Stops.
From Verif.Proofs Require Import BaseFacts WfDecide Samples PropertyWitness.
Import Verif.Model.Rules.
Import ListNotations.
Local Open Scope string_scope.

(** A rule with an integer setting. *)
Definition counting_rule : rule := mkRule "W9001" false [("limit", (CInteger, VInt 3))] [] [] [] (fun _ => ([], [])) (r_match bad_b) (r_match_props bad_b) (r_match_subs bad_b).
Definition given_options : list (string * val) := [("ignore_checks", VList []); ("include_checks", VList [VStr "I"]); ("regions", VNull); ("format", VStr "quiet")].
Definition file_options : list (string * val) := [("regions", VList [VStr "us-east-1"; VStr "eu-west-1"]); ("configure_rules", VDict [("W9001", VDict [("limit", VInt 5)])])].
Definition with_config (cs : list (string * val)) : val :=
  VDict [("Metadata", VDict [("cfn-lint", VDict [("config", VDict cs)])]); ("Resources", VDict [("Topic", VDict [("Type", VStr "AWS::SNS::Topic")])])].
Definition calm_config : list (string * val) := [("ignore_checks", VList [VStr "E3012"; VStr "W"]); ("regions", VList [VStr "ALL_REGIONS"]); ("include_checks", VStr "I"); ("configure_rules", VDict [("W9001", VDict [("limit", VBool true)])])].
Lemma config_is cs cs' : configuration (with_config cs) cs' -> cs' = cs.
Proof. intros (d & ms & s & E & E1 & E2 & E3). injection E as <-. injection E1 as <-. injection E2 as <-. injection E3 as <-. reflexivity. Qed.
Lemma with_config_shaped cs : metadata_shaped (with_config cs).
Proof. intros d m E E1. injection E as <-. injection E1 as <-. eexists. split; [reflexivity|]. intros x E. injection E as <-. eexists; reflexivity. Qed.
Ltac texts := match goal with |- exists ss, _ = map VStr ss => first [exists []; reflexivity | eexists [_]; reflexivity | eexists [_; _]; reflexivity] end.
Lemma stop_options : sound_options [counting_rule] given_options /\ sound_options [counting_rule] file_options /\ only_lists given_options /\ only_lists file_options.
Proof.
  split; [|split; [|split]].
  - split; [|split].
    + intros name l I H. repeat (destruct H as [H|H]; [try discriminate H; injection H as <- <-; texts|]). destruct H.
    + intros ss H. repeat (destruct H as [H|H]; [discriminate H|]). destruct H.
    + intros cs r set key df v H. repeat (destruct H as [H|H]; [discriminate H|]). destruct H.
  - split; [|split].
    + intros name l I H. repeat (destruct H as [H|H]; [try discriminate H; injection H as <- <-; texts|]). destruct H.
    + intros ss H. right. destruct H as [H|[H|[]]]; [|discriminate H]. injection H as H. destruct ss as [|a [|b [|c ss]]]; try discriminate H. injection H as <- <-.
      intros r [<-|[<-|[]]]; apply smem_iff; vm_compute; reflexivity.
    + intros cs r set key df v H Hr Hs Hk Hd. destruct H as [H|[H|[]]]; [discriminate H|]. injection H as <-. destruct Hs as [Hs|[]]. injection Hs as _ <-. destruct Hk as [Hk|[]]. injection Hk as <- <-. left; eexists; reflexivity.
  - intros name v I H. cbn in I. repeat (destruct H as [H|H]; [injection H as <- <-; try (left; reflexivity); try (right; eexists; reflexivity); repeat (destruct I as [I|I]; [discriminate I|]); destruct I|]). destruct H.
  - intros name v I H. cbn in I. repeat (destruct H as [H|H]; [injection H as <- <-; try (right; eexists; reflexivity); repeat (destruct I as [I|I]; [discriminate I|]); destruct I|]). destruct H.
Qed.
Lemma stop_calm : calm [counting_rule] (erase (marked (with_config calm_config))) /\ calm [counting_rule] (erase (marked (with_config []))).
Proof.
  assert (E : forall cs, (cs = calm_config \/ cs = []) -> erase (marked (with_config cs)) = with_config cs) by (intros cs [-> | ->]; reflexivity). rewrite !E by auto.
  split; (split; [apply with_config_shaped|]); intros cs H; apply config_is in H; subst cs; [|split; [intros ? ? _ []|]; split; [intros ? [] | intros ? ? ? ? ? ? []]].
  split; [|split].
  - intros name l I H. repeat (destruct H as [H|H]; [try discriminate H; injection H as <- <-; texts|]). destruct H.
  - intros ss H. left. destruct H as [H|[H|[H|[H|[]]]]]; try discriminate H. injection H as H. destruct ss as [|a [|b ss]]; try discriminate H. injection H as <-. now left.
  - intros cs r set key df v H Hr Hs Hk Hd. repeat (destruct H as [H|H]; [try discriminate H|]); [|destruct H]. injection H as <-. destruct Hs as [Hs|[]]. injection Hs as _ <-. destruct Hk as [Hk|[]]. injection Hk as <- <-. right; eexists; reflexivity.
Qed.
(** Templates whose metadata is a text, which ignores the check 1012, and which names a region that does not exist. *)
Definition noted : val := VDict [("Metadata", VStr "made by hand"); ("Resources", VDict [])].
Definition bad_entry : list (string * val) := [("ignore_checks", VList [VInt 1012])].
Definition bad_region : list (string * val) := [("regions", VList [VStr "eu-west-9"]); ("ignore_checks", VList [VStr "W"])].
Lemma stop_bad : ~ metadata_shaped (erase (marked noted)) /\
  (configuration (erase (marked (with_config bad_entry))) bad_entry /\ In ("ignore_checks", VList [VInt 1012]) bad_entry /\ NoDup (keys bad_entry)) /\
  (metadata_shaped (erase (marked (with_config bad_region))) /\ truthy (erase (marked (with_config bad_region))) = true /\ configuration (erase (marked (with_config bad_region))) bad_region /\
   lists_of_texts bad_region /\ integers_given [counting_rule] bad_region /\ In ("regions", VList (map VStr ["eu-west-9"])) bad_region /\ NoDup (keys bad_region) /\
   ~ In "eu-west-9" REGIONS /\ ~ In "ALL_REGIONS" ["eu-west-9"]) /\
  lookup given_options "ignore_checks" = VList [] /\ lookup given_options "regions" = VNull.
Proof.
  assert (E1 : erase (marked noted) = noted) by reflexivity. assert (E2 : erase (marked (with_config bad_entry)) = with_config bad_entry) by reflexivity.
  assert (E3 : erase (marked (with_config bad_region)) = with_config bad_region) by reflexivity. rewrite E1, E2, E3.
  split. { intros M. destruct (M _ _ eq_refl eq_refl) as (ms & H & _). discriminate H. }
  split. { split; [eexists; eexists; eexists; repeat split; reflexivity|]. split; [now left | apply nodupb_sound; reflexivity]. }
  split; [|split; reflexivity].
  split; [apply with_config_shaped|]. split; [reflexivity|]. split; [eexists; eexists; eexists; repeat split; reflexivity|].
  split; [intros name l I H; repeat (destruct H as [H|H]; [try discriminate H; injection H as <- <-; texts|]); destruct H|].
  split; [intros cs r set key df v H; repeat (destruct H as [H|H]; [discriminate H|]); destruct H|]. split; [now left|]. split; [apply nodupb_sound; reflexivity|].
  split; [|intros [H|[]]; discriminate H]. intros H. apply smem_iff in H. vm_compute in H. discriminate H.
Qed.
