(** Computations that succeed with a list of exactly the things that satisfy a predicate. *)
From Coq Require Import List.
From Verif.Model Require Import Base Rules PropertyRules.
From Verif.Spec Require Import Branches Values.
From Verif.Proofs Require Import BaseFacts SearchProofs ValueProofs.
Import ListNotations.

Definition says {B} (r : res (list B)) (P : B -> Prop) : Prop := exists o, r = Ok o /\ forall m, In m o <-> P m.
Lemma says_ext {B} (r : res (list B)) (P Q : B -> Prop) : says r P -> (forall m, P m <-> Q m) -> says r Q.
Proof. intros [o [E H]] Hq. exists o. split; [exact E|]. intros m. now rewrite H. Qed.
Lemma says_ok {B} (o : list B) : says (Ok o) (fun m => In m o).
Proof. exists o. split; [reflexivity|]. reflexivity. Qed.
Lemma says_none {B} : says (@Ok (list B) []) (fun _ => False).
Proof. exists []. split; [reflexivity|]. reflexivity. Qed.
Lemma says_one {B} (x : B) : says (Ok [x]) (fun m => m = x).
Proof. exists [x]. split; [reflexivity|]. intros m. split; [intros [H|[]]; now symmetry | intros ->; now left]. Qed.
Lemma says_if {B} (b : bool) (x : B) : says (Ok (if b then [x] else [])) (fun m => b = true /\ m = x).
Proof. destruct b; [eapply says_ext; [apply says_one|]; intuition | eapply says_ext; [apply says_none|]; intuition discriminate]. Qed.
Lemma says_app {B} (r1 r2 : res (list B)) P1 P2 : says r1 P1 -> says r2 P2 ->
  says (bind r1 (fun a => bind r2 (fun b => Ok (a ++ b)))) (fun m => P1 m \/ P2 m).
Proof.
  intros [a [-> Ha]] [b [-> Hb]]. cbn [bind]. exists (a ++ b). split; [reflexivity|]. intros m. now rewrite in_app_iff, Ha, Hb.
Qed.
Lemma says_cons {B} (o : list B) (r : res (list B)) P : says r P -> says (bind r (fun b => Ok (o ++ b))) (fun m => In m o \/ P m).
Proof. intros [b [-> Hb]]. cbn [bind]. exists (o ++ b). split; [reflexivity|]. intros m. now rewrite in_app_iff, Hb. Qed.
Lemma says_concat {A B} (f : A -> res (list B)) l (P : A -> B -> Prop) : (forall x, In x l -> says (f x) (P x)) ->
  says (concat_res f l) (fun m => exists x, In x l /\ P x m).
Proof.
  intros H. destruct (concat_res_total f l) as [o Eo].
  { intros x Hx. destruct (H x Hx) as [o [E _]]. eauto. }
  exists o. split; [exact Eo|]. intros m. rewrite (concat_res_ok_iff _ _ _ Eo). split.
  - intros [x [o' [Hx [E' Hm]]]]. destruct (H x Hx) as [o'' [E'' H'']]. rewrite E' in E''. injection E'' as <-. exists x. split; [exact Hx | now apply H''].
  - intros [x [Hx Hm]]. destruct (H x Hx) as [o' [E' H']]. exists x, o'. split; [exact Hx|]. split; [exact E' | now apply H'].
Qed.
(** The values of a property, when there are no functions to look into. *)
Lemma says_values f props prop x p (P : val -> path -> rulematch -> Prop) : assoc prop props = Some x ->
  (forall q, ~ alternative x (p ++ [PKey prop]) VNull q) ->
  (forall w r, single x (p ++ [PKey prop]) w r -> ~ is_call w -> says (f w r) (P w r)) ->
  says (check_value (VDict props) prop p f []) (fun m => exists w r, single x (p ++ [PKey prop]) w r /\ ~ is_call w /\ P w r m).
Proof.
  intros Hx Hn Hf. destruct (check_value_calls f [] props prop x p Hx Hn) as [o [Eo Ho]].
  { intros w r Hs. split; [|intros fn y h _ [=]]. intros Hc. destruct (Hf w r Hs Hc) as [o [E _]]. eauto. }
  exists o. split; [exact Eo|]. intros m. rewrite Ho. split.
  - intros [w [r [Hs [[Hc [o' [E' Hm]]]|[fn [y [h [o' [_ [[=] _]]]]]]]]]]. exists w, r. split; [exact Hs|]. split; [exact Hc|].
    destruct (Hf w r Hs Hc) as [o'' [E'' H'']]. rewrite E' in E''. injection E'' as <-. now apply H''.
  - intros [w [r [Hs [Hc Hm]]]]. exists w, r. split; [exact Hs|]. left. split; [exact Hc|]. destruct (Hf w r Hs Hc) as [o' [E' H']]. exists o'. split; [exact E' | now apply H'].
Qed.
