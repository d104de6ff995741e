(** Concrete templates for C15, C16 and C17, and the determinism of the specification. *)
From Coq Require Import Permutation Lia.
From Verif.Model Require Import Base Helpers Conditions.
From Verif.Spec Require Import Truth.
From Verif.Proofs Require Import BaseFacts ConditionProofs.

Lemma literal_det l s s' : literal l s -> literal l s' -> s = s'.
Proof. intros H H'. inversion H; subst; inversion H'; subst; reflexivity. Qed.
Lemma truth_det defs values :
  (forall v b, truth defs values v b -> forall b', truth defs values v b' -> b = b') /\
  (forall vs bs, truths defs values vs bs -> forall bs', truths defs values vs bs' -> bs = bs').
Proof.
  apply truth_truths_ind.
  - intros k a l s x Hl Hx b' H. inversion H; subst.
    + match goal with H1 : values _ = Some ?y, H2 : literal l ?t |- _ = String.eqb ?y ?t =>
        rewrite Hx in H1; injection H1 as <-; now rewrite (literal_det _ _ _ Hl H2) end.
    + match goal with H : literal (VDict _) _ |- _ => inversion H end.
  - intros k a l s x Hl Hx b' H. inversion H; subst.
    + match goal with H : literal (VDict _) _ |- _ => inversion H end.
    + match goal with H1 : values _ = Some ?y, H2 : literal l ?t |- _ = String.eqb ?y ?t =>
        rewrite Hx in H1; injection H1 as <-; now rewrite (literal_det _ _ _ Hl H2) end.
  - intros vs bs Hne Hts IH b' H. inversion H; subst. f_equal. auto.
  - intros vs bs Hne Hts IH b' H. inversion H; subst. f_equal. auto.
  - intros v b Hv IH b' H. inversion H; subst. f_equal. auto.
  - intros n v b Hn Hv IH b' H. inversion H; subst. match goal with H1 : assoc n defs = Some ?w |- _ => rewrite Hn in H1; injection H1 as <- end. auto.
  - intros bs' H. now inversion H.
  - intros v b vs bs Hv IH1 Hvs IH2 bs' H. inversion H; subst. f_equal; auto.
Qed.

(** A digest that tells the parameters a, b, c, d and e apart. *)
Fixpoint times (n : nat) (s : string) : string := match n with O => "" | S m => (s ++ times m s)%string end.
Definition toy_hash (v : val) : string :=
  match v with
  | VDict [(k, VStr s)] => if String.eqb k "Ref" && smem s ["a"; "b"; "c"; "d"; "e"] then times 40 s else times 40 "f"
  | _ => times 40 "f"
  end.
Lemma digest_times s : In s ["a"; "b"; "c"; "d"; "e"; "f"] -> digest (times 40 s).
Proof.
  cbn [In]. intros H. repeat destruct H as [<-|H]; try destruct H; (split; [reflexivity|]); cbn; repeat split; right; cbn; lia.
Qed.
Lemma toy_digest v : digest (toy_hash v).
Proof.
  assert (Hf : digest (times 40 "f")) by (apply digest_times; cbn; auto 8).
  destruct v as [| | | | | |[|[k x] tl]]; try exact Hf. destruct x as [| | | |s| |]; try exact Hf.
  destruct tl; [|exact Hf]. unfold toy_hash.
  destruct (String.eqb k "Ref" && smem s ["a"; "b"; "c"; "d"; "e"]) eqn:E; [|exact Hf].
  apply andb_true_iff in E as [_ E]. apply smem_iff in E. apply digest_times. cbn [In] in *. tauto.
Qed.

Definition ref (n : string) : val := VDict [("Ref", VStr n)].
Definition fn_equals (a b : val) : val := VDict [("Fn::Equals", VList [a; b])].
Definition toy_template (ps cs : list (string * val)) : val := VDict [("Parameters", VDict ps); ("Conditions", VDict cs)].
Lemma toy_conditions ps cs : section_of "Conditions" (toy_template ps cs) cs.
Proof. eexists. split; [reflexivity|]. left. reflexivity. Qed.
Lemma toy_parameters ps cs : section_of "Parameters" (toy_template ps cs) ps.
Proof. eexists. split; [reflexivity|]. left. reflexivity. Qed.
Lemma not_digest s : String.length s <> 40 -> ~ digest s.
Proof. intros H [H' _]. contradiction. Qed.
Definition lit_str' s (H : String.length s <> 40) : literal (VStr s) s := lit_str s (not_digest s H).

Definition env_params : list (string * val) :=
  [("a", VDict [("AllowedValues", VList [VStr "prod"; VStr "dev"])]); ("b", VDict [("Type", VStr "String")])].
Definition env_defs : list (string * val) :=
  [("IsProd", fn_equals (ref "a") (VStr "prod"));
   ("IsDev", fn_equals (VStr "dev") (ref "a"));
   ("Both", VDict [("Fn::And", VList [VDict [("Condition", VStr "IsProd")]; VDict [("Fn::Not", VList [fn_equals (ref "b") (VInt 1)])]])])].
Definition env : val := toy_template env_params env_defs.
Definition env_values (v : val) : string := if String.eqb (toy_hash v) (toy_hash (ref "a")) then "prod" else "2".

Lemma env_truth_prod w : truth env_defs (fun c => Some (w c)) (fn_equals (ref "a") (VStr "prod")) (String.eqb (w (ref "a")) "prod").
Proof. apply tr_equals_left; [|reflexivity]. now apply lit_str'. Qed.
Lemma env_truth_dev w : truth env_defs (fun c => Some (w c)) (fn_equals (VStr "dev") (ref "a")) (String.eqb (w (ref "a")) "dev").
Proof. apply tr_equals_right; [|reflexivity]. now apply lit_str'. Qed.
Lemma env_truth_both w : truth env_defs (fun c => Some (w c))
  (VDict [("Fn::And", VList [VDict [("Condition", VStr "IsProd")]; VDict [("Fn::Not", VList [fn_equals (ref "b") (VInt 1)])]])])
  (String.eqb (w (ref "a")) "prod" && (negb (String.eqb (w (ref "b")) "1") && true)).
Proof.
  change (String.eqb (w (ref "a")) "prod" && (negb (String.eqb (w (ref "b")) "1") && true))
    with (forallb (fun b => b) [String.eqb (w (ref "a")) "prod"; negb (String.eqb (w (ref "b")) "1")]).
  apply tr_and; [discriminate|]. constructor; [|constructor; [|constructor]].
  - eapply tr_condition; [reflexivity | apply env_truth_prod].
  - apply tr_not. apply tr_equals_left; [|reflexivity]. change "1" with (str_of_Z 1) at 1. apply lit_int. now apply not_digest.
Qed.
Lemma env_wf n v : In (n, v) env_defs -> well_formed env_defs v.
Proof.
  intros [[= <- <-]|[[= <- <-]|[[= <- <-]|[]]]]; exists (fun c => Some (env_values c)); eexists;
    [apply env_truth_prod | apply env_truth_dev | apply env_truth_both].
Qed.
Lemma env_deployment : deployment toy_hash env_params env_values.
Proof.
  split.
  - intros c c' H. unfold env_values. now rewrite H.
  - intros name attrs x xs [[= <- <-]|[[= <- <-]|[]]] Ha; [|discriminate]. injection Ha as <- <-.
    exists (VStr "prod"). split; [now left|]. left. reflexivity.
Qed.
Definition env_bools (n : string) : bool := negb (String.eqb n "IsDev").
Lemma env_gives : gives env_defs env_values ["IsProd"; "IsDev"; "Both"] env_bools.
Proof.
  intros n [<-|[<-|[<-|[]]]]; eexists; (split; [reflexivity|]).
  - exact (env_truth_prod env_values).
  - exact (env_truth_dev env_values).
  - exact (env_truth_both env_values).
Qed.
Lemma env_related : some_related env_defs ["IsProd"; "IsDev"; "Both"].
Proof.
  exists "IsProd", "IsDev". eexists _, _. repeat (split; [cbn; auto; discriminate || reflexivity|]).
  exists (ref "a"), "prod", "dev". split; [apply cp_left | apply cp_right]; now apply lit_str'.
Qed.
Lemma env_told_apart : told_apart toy_hash env_params.
Proof. intros n n' [<-|[<-|[]]] [<-|[<-|[]]]; vm_compute; congruence. Qed.
Lemma env_plain n p : In (n, p) env_params -> plain_parameter p.
Proof.
  intros [[= <- <-]|[[= <- <-]|[]]]; eexists; (split; [reflexivity|]); intros l; [|discriminate].
  intros [= <-] y [<-|[<-|[]]]; left; eauto.
Qed.

(** * Five conditions without a call in common *)
Definition five_defs : list (string * val) :=
  map (fun n => (n, fn_equals (ref n) (VStr "x"))) ["a"; "b"; "c"; "d"; "e"].
Definition five : val := toy_template [] five_defs.
Definition five_values (v : val) : string := if String.eqb (toy_hash v) (toy_hash (ref "a")) then "x" else "y".
Lemma c16_refuted : exists hash order template defs parameters fuel names w b out,
  (forall v, digest (hash v)) /\ (forall l, Permutation (order l) l) /\
  section_of "Conditions" template defs /\ section_of "Parameters" template parameters /\
  names <> [] /\ NoDup names /\
  (forall n, In n names -> mem_assoc n (cs_conditions (load hash fuel template)) = true) /\
  deployment hash parameters w /\ gives defs w names b /\
  get_scenarios order (load hash fuel template) names = Ok out /\ ~ In (scenario_of names b) out.
Proof.
  exists toy_hash, (fun l => l), five, five_defs, [], 5, ["a"; "b"; "c"; "d"; "e"], five_values, (fun n => String.eqb n "a").
  eexists. split; [apply toy_digest|]. split; [intros; apply Permutation_refl|]. split; [apply toy_conditions|].
  split; [apply toy_parameters|]. split; [discriminate|].
  split; [repeat constructor; cbn; intuition discriminate|].
  split; [intros n Hn; repeat destruct Hn as [<-|Hn]; try destruct Hn; reflexivity|].
  split; [split; [intros c c' H; unfold five_values; now rewrite H | intros ? ? ? ? []]|].
  split.
  - intros n Hn. exists (fn_equals (ref n) (VStr "x")).
    repeat destruct Hn as [<-|Hn]; try destruct Hn; (split; [reflexivity|]);
      (match goal with |- truth _ _ _ ?b => change b with (String.eqb (five_values (ref "a")) "x") || change b with (String.eqb (five_values (ref "b")) "x") end);
      (apply tr_equals_left; [now apply lit_str' | reflexivity]).
  - split; [vm_compute; reflexivity|]. vm_compute. intros H. repeat destruct H as [H|H]; discriminate || exact H.
Qed.

(** * A condition that is always true *)
Definition sure_defs : list (string * val) :=
  [("K", VDict [("Fn::Or", VList [fn_equals (ref "a") (VStr "x"); VDict [("Fn::Not", VList [fn_equals (ref "a") (VStr "x")])]])])].
Lemma sure_truth w : truth sure_defs (fun c => Some (w c)) (snd (nth 0 sure_defs ("", VNull))) true.
Proof.
  cbn [nth snd sure_defs].
  assert (E : existsb (fun b => b) [String.eqb (w (ref "a")) "x"; negb (String.eqb (w (ref "a")) "x")] = true)
    by (cbn; now destruct (String.eqb (w (ref "a")) "x")).
  match goal with |- ?P true => enough (P (existsb (fun b => b) [String.eqb (w (ref "a")) "x"; negb (String.eqb (w (ref "a")) "x")])) as H by (rewrite E in H; exact H) end.
  apply tr_or; [discriminate|]. repeat constructor; now apply not_digest.
Qed.
Lemma c17_refuted : exists hash order template defs parameters names,
  (forall v, digest (hash v)) /\ (forall l, Permutation (order l) l) /\
  section_of "Conditions" template defs /\ section_of "Parameters" template parameters /\
  NoDup (keys defs) /\ (forall n v, In (n, v) defs -> well_formed defs v) /\
  NoDup (keys parameters) /\ (forall n p, In (n, p) parameters -> plain_parameter p) /\ told_apart hash parameters /\
  names <> [] /\ NoDup names /\ (forall n, In n names -> In n (keys defs)) /\
  exists fuel out b, get_scenarios order (load hash fuel template) names = Ok out /\ In (scenario_of names b) out /\
    forall w, ~ gives defs w names b.
Proof.
  exists toy_hash, (fun l => l), (toy_template [] sure_defs), sure_defs, [], ["K"].
  split; [apply toy_digest|]. split; [intros; apply Permutation_refl|]. split; [apply toy_conditions|].
  split; [apply toy_parameters|]. split; [repeat constructor; cbn; tauto|].
  split. { intros n v [[= <- <-]|[]]. exists (fun c => Some (env_values c)), true. apply sure_truth. }
  split; [constructor|]. split; [intros n p []|]. split; [intros n n' []|]. split; [discriminate|]. split; [repeat constructor; cbn; tauto|].
  split; [intros n [<-|[]]; now left|].
  exists 5. eexists. exists (fun _ => false). split; [vm_compute; reflexivity|]. split; [vm_compute; auto|].
  intros w H. destruct (H "K") as [v [Hv Ht]]; [now left|]. injection Hv as <-.
  assert (E := proj1 (truth_det sure_defs (fun c => Some (w c))) _ _ (sure_truth w) _ Ht). discriminate.
Qed.

(** * Operands outside the specification *)
Lemma c15_boolean : exists hash template fuel t scenario,
  section_of "Conditions" template [("K", fn_equals (ref "a") (VBool true))] /\
  condition_named hash fuel template "K" = Ok t /\ assoc (hash (ref "a")) scenario = Some "true" /\
  term_test t scenario = Ok (Some false).
Proof.
  exists toy_hash, (toy_template [] [("K", fn_equals (ref "a") (VBool true))]), 5. eexists.
  exists [(toy_hash (ref "a"), "true")]. split; [apply toy_conditions|]. split; [vm_compute; reflexivity|]. split; vm_compute; reflexivity.
Qed.
Lemma c15_two_calls : exists hash template fuel t scenario,
  section_of "Conditions" template [("K", fn_equals (ref "a") (ref "b"))] /\
  condition_named hash fuel template "K" = Ok t /\
  assoc (hash (ref "a")) scenario = Some "x" /\ assoc (hash (ref "b")) scenario = Some "x" /\
  term_test t scenario = Ok (Some false).
Proof.
  exists toy_hash, (toy_template [] [("K", fn_equals (ref "a") (ref "b"))]), 5. eexists.
  exists [(toy_hash (ref "a"), "x"); (toy_hash (ref "b"), "x")].
  split; [apply toy_conditions|]. split; [vm_compute; reflexivity|]. repeat split; vm_compute; reflexivity.
Qed.
Lemma c15_two_literals : exists template, forall hash, exists fuel t,
  section_of "Conditions" template [("K", fn_equals (VStr "x") (VStr "x"))] /\
  condition_named hash fuel template "K" = Ok t /\ term_test t [] = Ok None.
Proof.
  exists (toy_template [] [("K", fn_equals (VStr "x") (VStr "x"))]). intros hash. exists 5. eexists.
  split; [apply toy_conditions|]. split; [vm_compute; reflexivity|]. vm_compute; reflexivity.
Qed.
