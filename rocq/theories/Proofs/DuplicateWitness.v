(** Samples for C30. *)
From Coq Require Import Permutation Lia Qcanon.
From Verif.Model Require Import Base Helpers Node Conditions Search Resolve Rules Relationship Parameters JsonDump PropertyRules.
From Verif.Spec Require Import Paths SameJson Branches Required Truth Resolved Groups.
From Verif.Proofs Require Import BaseFacts FormatProofs DumpProofs WfDecide ConditionWitness PropertyRuleProofs DuplicateProofs.
Import ListNotations.
Local Open Scope string_scope.

(** A text for floats. *)
Definition sample_float (q : QArith_base.Q) : string := str_of_Z (Qnum (Qred q)) ++ "." ++ str_of_Z (Zpos (Qden (Qred q))).
Lemma sample_float_texts : float_texts sample_float.
Proof.
  unfold float_texts, sample_float. split; [|split; [|split]].
  - intros q. destruct (str_of_Z_first (Qnum (Qred q))) as [a [s [-> H]]]. cbn [append]. eauto.
  - intros q a. rewrite !has_char_app, !orb_true_iff. assert (K : forall z, has_char a (str_of_Z z) = true -> number_char a).
    { intros z H. unfold number_char. destruct (is_digit a) eqn:E; [now left|]. right. destruct (ascii_dec a "-"%char) as [->|N]; [now left|].
      pose proof (str_of_Z_free a z E N) as F. apply free_has in F. congruence. }
    intros [H|[H|H]]; [now apply K in H | | now apply K in H]. cbn [has_char] in H. rewrite orb_false_r in H. apply Ascii.eqb_eq in H. subst a. right. cbn. tauto.
  - intros q z E. assert (K : has_char "." (str_of_Z z) = false) by (apply free_has, str_of_Z_free; [reflexivity | discriminate]).
    rewrite <- E, !has_char_app in K. cbn in K. rewrite orb_true_r in K. discriminate.
  - intros q q'. split.
    + intros E. apply cut_inj in E as [E1 E2]; try (apply str_of_Z_free; [reflexivity | discriminate]). apply str_of_Z_inj in E1, E2. injection E2 as E2.
      rewrite <- (Qred_correct q), <- (Qred_correct q'). destruct (Qred q), (Qred q'). cbn in *. now subst.
    + intros E. apply Qred_complete in E. now rewrite E.
Qed.

Definition sample_lists : val := if_ "IsProd" (VList [VDict [("a", VInt 1); ("b", VInt 2)]; VStr "x"; VDict [("b", VInt 2); ("a", VInt 1)]]) (VList [VStr "x"]).
Lemma sample_conditional : conditional_list sample_lists.
Proof.
  apply cl_if; apply cl_list; intros x Hx; repeat (destruct Hx as [<-|Hx]; [try apply pi_str; apply pi_object; intros y [=]|]); destruct Hx.
Qed.
Lemma duplicate_example : let l := [VDict [("a", VInt 1); ("b", VInt 2)]; VStr "x"; VDict [("b", VInt 2); ("a", VInt 1)]] in
  float_texts sample_float /\ Forall wf l /\ no_collision (fun s => s) (map (dumps sample_float) l) /\ repeats l 2 /\
  check_duplicates (fun l => l) (load toy_hash 9 env) (fun s => s) sample_float (VList l) [PKey "P"] = Ok [mkRM [PKey "P"; PIdx 2] "List has a duplicate value at P/2"].
Proof.
  cbv zeta. split; [exact sample_float_texts|]. split; [repeat (apply Forall_cons; [apply wfb_sound; reflexivity|]); apply Forall_nil|]. split; [now intros x y _ _|]. split; [|vm_compute; reflexivity].
  exists 0. do 2 eexists. split; [lia|]. split; [reflexivity|]. split; [reflexivity|]. constructor.
  - intros k. cbn. tauto.
  - intros k x y Hx Hy. cbn in Hx, Hy. destruct Hx as [[= <- <-]|[[= <- <-]|[]]]; destruct Hy as [[= <-]|[[= <-]|[]]]; constructor.
Qed.
Lemma conditional_duplicate_example :
  conditional_list sample_lists /\ (forall n, In n ["IsProd"] <-> chosen_by sample_lists n) /\ gives env_defs env_values ["IsProd"] env_bools /\
  (exists l, resolved (known ["IsProd"] env_bools) sample_lists (Some (VList l)) /\ Forall wf l /\ repeats l 2) /\
  check_duplicates (fun l => l) (load toy_hash 9 env) (fun s => s) sample_float sample_lists [PKey "P"] =
    Ok [mkRM [PKey "P"] "List has a duplicate value at P when condition ""IsProd"" is True"].
Proof.
  split; [exact sample_conditional|]. split; [|split; [|split]].
  - intros n. cbn [In]. split; [intros [<-|[]]; apply cb_here | intros H; inversion H; now left].
  - intros n [<-|[]]. apply env_gives. now left.
  - destruct duplicate_example as [_ [Hw [_ [Hr _]]]]. eexists. split; [|split; [exact Hw | exact Hr]]. apply r_then; [reflexivity|]. apply r_list.
    repeat (apply ri_keep; [first [apply r_str | apply r_object; [intros y [=] | discriminate]]|]). apply ri_nil.
  - vm_compute. reflexivity.
Qed.

(** Conditions on the items of a list are not looked at. *)
Lemma c30_items_refuted : exists l c l', 
  resolved_items (fun n => if String.eqb n c then Some true else None) l l' /\ repeats l' 1 /\
  forall order cs sha1 float_text p, no_collision sha1 (map (dumps float_text) l) -> check_duplicates order cs sha1 float_text (VList l) p = Ok [].
Proof.
  exists [if_ "c" (VStr "a") no_value; VStr "a"], "c", [VStr "a"; VStr "a"]. split; [|split].
  - apply ri_keep; [apply r_then; [reflexivity | apply r_str] | apply ri_keep; [apply r_str | apply ri_nil]].
  - exists 0. do 2 eexists. split; [lia|]. split; [reflexivity|]. split; [reflexivity|]. constructor.
  - intros order cs sha1 float_text p Hn. cbn [check_duplicates duplicates_in duplicates_from smem existsb app].
    destruct (String.eqb_spec (sha1 (dumps float_text (VStr "a"))) (sha1 (dumps float_text (if_ "c" (VStr "a") no_value)))) as [E|_]; [|reflexivity].
    apply Hn in E; [vm_compute in E; discriminate | right; now left | now left].
Qed.
