(** Proofs for C22, C43 and C31: uses and forms of conditions. *)
From Coq Require Import Lia.
From Verif.Model Require Import Base Helpers Search Rules Refs ConditionRules.
From Verif.Spec Require Import Paths References ConditionUse.
From Verif.Proofs Require Import BaseFacts SearchProofs RelationRule RefProofs.

Lemma in_search_deep f template globals q v : wf template -> wf globals ->
  In (q, v) (search_deep_keys f template globals) <-> exists p, q = p ++ [PKey f] /\ occurs f template globals p v.
Proof.
  intros Hw Hg. unfold search_deep_keys, occurs. rewrite in_app_iff, !search_spec by assumption. cbn [app]. split.
  - intros [[r [-> H]]|[r [-> H]]]; exists r; auto.
  - intros [p [-> [H|H]]]; [left|right]; exists p; auto.
Qed.
Lemma from_conditions_iff p : from_conditions p = true <-> exists r, p = PKey "Conditions" :: r.
Proof.
  destruct p as [|[k|i] p]; cbn; try (split; [discriminate | intros [r H]; discriminate]).
  rewrite String.eqb_eq. split; [intros ->; eauto | intros [r [= -> _]]; reflexivity].
Qed.
Lemma from_conditions_snoc p f : f <> "Conditions" -> from_conditions (p ++ [PKey f]) = true <-> exists r, p = PKey "Conditions" :: r.
Proof.
  intros Hf. rewrite from_conditions_iff. split.
  - intros [r H]. destruct p as [|x p]; cbn in H; injection H as H; [congruence|]. subst. eauto.
  - intros [r ->]. cbn. eauto.
Qed.

(** * The dict of used conditions *)
Lemma py_eq_text s v : py_eq (VStr s) v = true <-> v = VStr s.
Proof. destruct v; cbn; split; try discriminate; try congruence. - intros H. apply String.eqb_eq in H. congruence. - intros [= ->]. apply String.eqb_refl. Qed.
Lemma set_key_text s p d : forall v, In v (map fst (set_key (VStr s) p d)) <-> v = VStr s \/ In v (map fst d).
Proof.
  intros v. induction d as [|[k p'] d IH]; cbn [set_key map fst In].
  - intuition congruence.
  - destruct (py_eq (VStr s) k) eqn:E; cbn [map fst In].
    + apply py_eq_text in E. subst. intuition congruence.
    + rewrite IH. intuition congruence.
Qed.
Lemma set_key_NoDup s p d : NoDup (map fst d) -> NoDup (map fst (set_key (VStr s) p d)).
Proof.
  induction d as [|[k p'] d IH]; cbn [set_key map fst]; intros H.
  - constructor; [intros [] | constructor].
  - inversion H as [|? ? H1 H2]; subst. destruct (py_eq (VStr s) k) eqn:E; cbn [map fst]; constructor; auto.
    rewrite set_key_text. intros [->|Hi]; [|contradiction]. assert (py_eq (VStr s) (VStr s) = true) by now apply py_eq_text. congruence.
Qed.

(** [holds d U]: the keys of [d] are the texts in [U], each once. *)
Definition holds (d : list (val * path)) (U : string -> Prop) : Prop :=
  NoDup (map fst d) /\ forall v, In v (map fst d) <-> exists n, v = VStr n /\ U n.
Lemma holds_add d U s p : holds d U -> holds (set_key (VStr s) p d) (fun n => U n \/ n = s).
Proof.
  intros [H1 H2]. split; [now apply set_key_NoDup|]. intros v. rewrite set_key_text, H2. split.
  - intros [->|[n [-> H]]]; eauto.
  - intros [n [-> [H|H]]]; [right; eauto | left; now subst].
Qed.
Lemma holds_ext d U V : (forall n, U n <-> V n) -> holds d U -> holds d V.
Proof. intros E [H1 H2]. split; [exact H1|]. intros v. rewrite H2. split; intros [n [-> H]]; exists n; split; auto; now apply E. Qed.

Lemma exists_ifs_holds l : forall d U, holds d U -> (forall p, ~ In (p, VList []) l) ->
  exists d', exists_ifs l d = Ok d' /\ holds d' (fun n => U n \/ exists p rest, In (p, VList (VStr n :: rest)) l).
Proof.
  induction l as [|[p v] l IH]; intros d U Hd Hne; cbn [exists_ifs].
  - exists d. split; [reflexivity|]. revert Hd. apply holds_ext. intros n. split; [now left | intros [H|[p [r []]]]; exact H].
  - assert (Hne' : forall q, ~ In (q, VList []) l) by (intros q H; exact (Hne q (or_intror H))).
    destruct v as [| | | | |[|x rest]|]; try (destruct (IH d U Hd Hne') as [d' [E Hd']]; exists d'; split; [exact E|]; revert Hd'; apply holds_ext; intros n; split;
      [intros [H|[pp [r H]]]; [auto | right; exists pp, r; now right] | intros [H|[pp [r [H|H]]]]; [auto | discriminate | right; eauto]]).
    + exfalso. exact (Hne p (or_introl eq_refl)).
    + destruct x as [| | | |s| |]; try (destruct (IH d U Hd Hne') as [d' [E Hd']]; exists d'; split; [exact E|]; revert Hd'; apply holds_ext; intros n; split;
      [intros [H|[pp [r H]]]; [auto | right; exists pp, r; now right] | intros [H|[pp [r [H|H]]]]; [auto | discriminate | right; eauto]]).
      destruct (IH _ _ (holds_add d U s p Hd) Hne') as [d' [E Hd']]. exists d'. split; [exact E|]. revert Hd'. apply holds_ext. intros n. split.
      * intros [[H| ->]|[pp [r H]]]; [auto | right; exists p, rest; now left | right; exists pp, r; now right].
      * intros [H|[pp [r [[= _ -> _]|H]]]]; [auto | auto | right; eauto].
Qed.
Lemma exists_resources_holds rs : (forall n x, In (n, x) rs -> exists o, x = VDict o) -> forall d U, holds d U ->
  exists d', exists_resources rs d = Ok d' /\ holds d' (fun n => U n \/ exists r o, In (r, VDict o) rs /\ assoc "Condition" o = Some (VStr n)).
Proof.
  induction rs as [|[r x] rs IH]; intros Ho d U Hd; cbn [exists_resources].
  - exists d. split; [reflexivity|]. revert Hd. apply holds_ext. intros n. split; [now left | intros [H|[p [o [[] _]]]]; exact H].
  - destruct (Ho r x (or_introl eq_refl)) as [o ->]. cbn [vget bind]. assert (Ho' := fun n y H => Ho n y (or_intror H)).
    destruct (assoc "Condition" o) as [c|] eqn:Ec.
    + destruct c as [| | | |s| |]; try (destruct (IH Ho' d U Hd) as [d' [E Hd']]; exists d'; split; [exact E|]; revert Hd'; apply holds_ext; intros n; split;
      [intros [H|[pp [o' [H H']]]]; [auto | right; exists pp, o'; split; [now right | exact H']] | intros [H|[pp [o' [[[= -> ->]|H] H']]]]; [auto | congruence | right; eauto]]).
      destruct (IH Ho' _ _ (holds_add d U s [PKey "Resources"; PKey r; PKey "Condition"] Hd)) as [d' [E Hd']]. exists d'. split; [exact E|]. revert Hd'. apply holds_ext. intros n. split.
      * intros [[H| ->]|[pp [o' [H H']]]]; [auto | right; exists r, o; split; [now left | exact Ec] | right; exists pp, o'; split; [now right | exact H']].
      * intros [H|[pp [o' [[[= -> ->]|H] H']]]]; [auto | left; right; congruence | right; eauto].
    + destruct (IH Ho' d U Hd) as [d' [E Hd']]; exists d'; split; [exact E|]; revert Hd'; apply holds_ext; intros n; split;
      [intros [H|[pp [o' [H H']]]]; [auto | right; exists pp, o'; split; [now right | exact H']] | intros [H|[pp [o' [[[= -> ->]|H] H']]]]; [auto | congruence | right; eauto]].
Qed.
Lemma exists_conditions_holds l : forall d U, holds d U ->
  holds (exists_conditions l d) (fun n => U n \/ exists p, In (p, VStr n) l /\ from_conditions p = true).
Proof.
  induction l as [|[p v] l IH]; intros d U Hd; cbn [exists_conditions].
  - revert Hd. apply holds_ext. intros n. split; [now left | intros [H|[p [[] _]]]; exact H].
  - destruct v as [| | | |s| |]; try (generalize (IH d U Hd); apply holds_ext; intros n; split;
      [intros [H|[pp [H H']]]; [auto | right; exists pp; split; [now right | exact H']] | intros [H|[pp [[H|H] H']]]; [auto | discriminate | right; eauto]]).
    destruct (from_conditions p) eqn:Ef.
    + generalize (IH _ _ (holds_add d U s [PKey "Conditions"; PKey s] Hd)). apply holds_ext. intros n. split.
      * intros [[H| ->]|[pp [H H']]]; [auto | right; exists p; split; [now left | exact Ef] | right; exists pp; split; [now right | exact H']].
      * intros [H|[pp [[[= -> ->]|H] H']]]; [auto | auto | right; eauto].
    + generalize (IH d U Hd). apply holds_ext. intros n. split.
      * intros [H|[pp [H H']]]; [auto | right; exists pp; split; [now right | exact H']].
      * intros [H|[pp [[[= -> ->]|H] H']]]; [auto | congruence | right; eauto].
Qed.
Lemma exists_outputs_holds str_of os : (forall n x, In (n, x) os -> exists o, x = VDict o /\ forall c, assoc "Condition" o = Some c -> exists t, c = VStr t) ->
  forall d U, holds d U ->
  exists d', exists_outputs str_of os d = Ok d' /\ holds d' (fun n => U n \/ exists r o, In (r, VDict o) os /\ assoc "Condition" o = Some (VStr n)).
Proof.
  induction os as [|[r x] os IH]; intros Ho d U Hd; cbn [exists_outputs].
  - exists d. split; [reflexivity|]. revert Hd. apply holds_ext. intros n. split; [now left | intros [H|[p [o [[] _]]]]; exact H].
  - destruct (Ho r x (or_introl eq_refl)) as [o [-> Hc]]. cbn [member_of bind]. assert (Ho' := fun n y H => Ho n y (or_intror H)).
    destruct (assoc "Condition" o) as [c|] eqn:Ec.
    + destruct (Hc c eq_refl) as [s ->]. cbn [hashable].
      destruct (IH Ho' _ _ (holds_add d U s [PKey "Outputs"; PKey s] Hd)) as [d' [E Hd']]. exists d'. split; [exact E|]. revert Hd'. apply holds_ext. intros n. split.
      * intros [[H| ->]|[pp [o' [H H']]]]; [auto | right; exists r, o; split; [now left | exact Ec] | right; exists pp, o'; split; [now right | exact H']].
      * intros [H|[pp [o' [[[= -> ->]|H] H']]]]; [auto | left; right; congruence | right; eauto].
    + destruct (IH Ho' d U Hd) as [d' [E Hd']]; exists d'; split; [exact E|]; revert Hd'; apply holds_ext; intros n; split;
      [intros [H|[pp [o' [H H']]]]; [auto | right; exists pp, o'; split; [now right | exact H']] | intros [H|[pp [o' [[[= -> ->]|H] H']]]]; [auto | congruence | right; eauto]].
Qed.

Lemma in_get_resources template r x : wf template -> In (r, x) (get_resources template) <->
  exists o t, x = VDict o /\ defined_in "Resources" template r o /\ assoc "Type" o = Some t /\ t <> VNull.
Proof.
  intros Hw. unfold get_resources, defined_in. destruct template as [| | | | | |d]; try (split; [intros [] | intros [o [t [_ [[dd [ss [H _]]] _]]]]; discriminate]).
  cbn [vget_def]. destruct (assoc "Resources" d) as [s|] eqn:E.
  - destruct s as [| | | | | |rs]; try (split; [intros [] | intros [o [t [_ [[dd [ss [[= <-] [H _]]]] _]]]]; congruence]).
    assert (Hnd : NoDup (map fst rs)). { apply wf_dict in Hw as [_ Hw]. apply assoc_In in E. apply Hw in E. now apply wf_dict in E as [E _]. }
    rewrite filter_In. cbn [snd]. split.
    + intros [Hi Hf]. destruct x as [| | | | | |o]; try discriminate. destruct (assoc "Type" o) as [t|] eqn:Et; [|discriminate].
      exists o, t. split; [reflexivity|]. split; [exists d, rs; split; [reflexivity|]; split; [exact E|]; now apply In_assoc|]. split; [exact Et|]. intros ->. discriminate.
    + intros [o [t [-> [[d' [s' [[= <-] [H Ha]]]] [Ht Hn]]]]]. rewrite E in H. injection H as <-. split; [now apply assoc_In|]. rewrite Ht. destruct t; congruence.
  - split; [intros []|]. intros [o [t [_ [[d' [s' [[= <-] [H _]]]] _]]]]. congruence.
Qed.

(** The text of a message. *)
Lemma append_cancel_l a b c : (a ++ b)%string = (a ++ c)%string -> b = c.
Proof. induction a as [|x a IH]; cbn; [auto|]. intros [= H]. auto. Qed.
Lemma append_cancel_r a b c : (a ++ c)%string = (b ++ c)%string -> a = b.
Proof.
  revert b. induction a as [|x a IH]; intros b H.
  - destruct b as [|y b]; [reflexivity|]. exfalso. apply (f_equal String.length) in H. rewrite !length_append in H. cbn in H. lia.
  - destruct b as [|y b].
    + exfalso. apply (f_equal String.length) in H. rewrite !length_append in H. cbn in H. lia.
    + cbn in H. injection H as -> H. f_equal. now apply IH.
Qed.

Section Uses.
Variable template globals : val.
Variable str_of : val -> string.
Hypothesis Hwf : wf template.
Hypothesis Hgw : wf globals.
Hypothesis Hpl : plain_uses template globals.

Lemma conditions_section : exists x m, vget_def "Conditions" (VDict []) template = Ok x /\ x = VDict m /\
  forall n, In n (map fst m) <-> condition_defined template n.
Proof using Hpl Hwf.
  destruct Hpl as [[d [-> [Hc _]]] _]. cbn [vget_def]. destruct (assoc "Conditions" d) as [s|] eqn:E.
  - destruct (Hc s eq_refl) as [m ->]. exists (VDict m), m. split; [reflexivity|]. split; [reflexivity|]. intros n. split.
    + intros H. exists d, m. auto.
    + intros [d' [m' [[= <-] [E' H]]]]. congruence.
  - exists (VDict []), []. split; [reflexivity|]. split; [reflexivity|]. intros n. split; [intros []|]. intros [d' [m' [[= <-] [E' H]]]]. congruence.
Qed.
Lemma outputs_section : exists x m, vget_def "Outputs" (VDict []) template = Ok x /\ items_of x = Ok m /\
  (forall n y, In (n, y) m -> exists o, y = VDict o /\ forall c, assoc "Condition" o = Some c -> exists t, c = VStr t) /\
  forall n o, In (n, VDict o) m <-> defined_in "Outputs" template n o.
Proof using Hpl Hwf.
  destruct Hpl as [[d [-> [_ Hc]]] _]. cbn [vget_def]. destruct (assoc "Outputs" d) as [s|] eqn:E.
  - destruct (Hc s eq_refl) as [m [-> Hm]]. exists (VDict m), m. split; [reflexivity|]. split; [reflexivity|]. split; [exact Hm|].
    apply wf_dict in Hwf as [_ Hw]. apply assoc_In in E as Ei. apply Hw in Ei. apply wf_dict in Ei as [Hnd _]. intros n o. split.
    + intros H. exists d, m. split; [reflexivity|]. split; [exact E|]. now apply In_assoc.
    + intros [d' [m' [[= <-] [E' H]]]]. rewrite E in E'. injection E' as <-. now apply assoc_In.
  - exists (VDict []), []. split; [reflexivity|]. split; [reflexivity|]. split; [intros n y []|]. intros n o. split; [intros []|]. intros [d' [m' [[= <-] [E' H]]]]. congruence.
Qed.
Lemma no_empty_if q : ~ In (q, VList []) (search_deep_keys "Fn::If" template globals).
Proof using Hwf Hgw Hpl. intros H. apply in_search_deep in H as [p [_ H]]; try assumption. destruct Hpl as [_ [_ Hn]]. exact (Hn p H). Qed.
Lemma condition_reference n : (exists q, In (q, VStr n) (search_deep_keys "Condition" template globals) /\ from_conditions q = true) <->
  exists p, at_path (PKey "Conditions" :: p ++ [PKey "Condition"]) template = Some (VStr n).
Proof using Hwf Hgw Hpl.
  split.
  - intros [q [Hi Hf]]. apply in_search_deep in Hi as [p [-> Hp]]; try assumption. apply from_conditions_snoc in Hf as [r ->]; [|discriminate].
    exists r. destruct Hp as [Hp|Hp]; [exact Hp|]. exfalso. destruct Hpl as [_ [Hg _]]. cbn in Hg, Hp.
    destruct globals; try discriminate. destruct (assoc "Conditions" d); discriminate.
  - intros [p Hp]. exists ((PKey "Conditions" :: p) ++ [PKey "Condition"]). split; [|reflexivity]. apply in_search_deep; try assumption.
    exists (PKey "Conditions" :: p). split; [reflexivity|]. now left.
Qed.

Lemma c22_all : exists ms, exists_match template globals str_of = Ok ms /\ NoDup (map rm_msg ms) /\
  (forall m, In m ms -> exists n, rm_msg m = ("Condition " ++ n ++ " is not defined.")%string /\
     uses_condition template globals n /\ ~ condition_defined template n) /\
  (forall n, uses_condition template globals n -> ~ condition_defined template n ->
     exists m, In m ms /\ rm_msg m = ("Condition " ++ n ++ " is not defined.")%string).
Proof using Hwf Hgw Hpl.
  unfold exists_match. destruct conditions_section as [cs [m [Ec [-> Hm]]]]. rewrite Ec. cbn [bind].
  destruct (exists_ifs_holds (search_deep_keys "Fn::If" template globals) [] (fun _ => False)) as [d1 [E1 H1]].
  { split; [constructor|]. intros v. split; [intros [] | intros [n [_ []]]]. }
  { exact no_empty_if. }
  rewrite E1. cbn [bind].
  destruct (exists_resources_holds (get_resources template)) with (d := d1) (U := fun n => False \/ exists p rest, In (p, VList (VStr n :: rest)) (search_deep_keys "Fn::If" template globals)) as [d2 [E2 H2]].
  { intros n x H. apply in_get_resources in H as [o [t [-> _]]]; eauto. }
  { exact H1. }
  rewrite E2. cbn [bind]. apply (exists_conditions_holds (search_deep_keys "Condition" template globals)) in H2.
  destruct outputs_section as [y [os [Ey [Eo [Ho Hod]]]]]. rewrite Ey. cbn [bind]. rewrite Eo. cbn [bind].
  destruct (exists_outputs_holds str_of os Ho _ _ H2) as [d [Ed Hd]]. rewrite Ed. cbn [bind]. clear E1 H1 E2 H2 Ed.
  apply (holds_ext _ _ (uses_condition template globals)) in Hd.
  2:{ intros n. split.
      - intros [[[[[]|[p [rest H]]]|[r [o [H H']]]]|H]|[r [o [H H']]]].
        + apply in_search_deep in H as [p' [_ H]]; try assumption. eapply uc_if; exact H.
        + apply in_get_resources in H as [o' [t [[= <-] [H1 [H2 H3]]]]]; [|exact Hwf]. eapply uc_resource; eauto.
        + apply condition_reference in H as [p H]. eapply uc_reference; exact H.
        + apply Hod in H. eapply uc_output; eauto.
      - intros [p rest H|r o t H1 H2 H3 H4|p H|r o H1 H2].
        + left; left; left. right. exists (p ++ [PKey "Fn::If"]), rest. apply in_search_deep; try assumption. eauto.
        + left; left; right. exists r, o. split; [|exact H4]. apply in_get_resources; [exact Hwf|]. exists o, t. auto.
        + left; right. apply condition_reference. eauto.
        + right. exists r, o. split; [|exact H2]. now apply Hod. }
  destruct Hd as [Hnd Hd]. unfold exists_report.
  set (f := fun kp : val * path => match fst kp with VStr s => if mem_assoc s m then [] else [mkRM (snd kp) ("Condition " ++ s ++ " is not defined.")%string] | _ => [] end).
  assert (Hf : forall kp, In kp d -> exists n, fst kp = VStr n /\ uses_condition template globals n).
  { intros kp H. apply Hd. now apply in_map. }
  rewrite (concat_res_Ok _ f).
  2:{ intros kp H. destruct (Hf kp H) as [n [E _]]. unfold f. rewrite E. cbn [in_conditions bind]. reflexivity. }
  exists (flat_map f d). split; [reflexivity|]. split; [|split].
  - clear Hd. induction d as [|kp d IH]; [constructor|]. cbn [flat_map map] in *. inversion Hnd as [|? ? N1 N2]; subst. specialize (IH N2 (fun k H => Hf k (or_intror H))).
    destruct (Hf kp (or_introl eq_refl)) as [n [E _]]. unfold f at 1. rewrite E. destruct (mem_assoc n m); [exact IH|]. cbn [app map rm_msg]. constructor; [|exact IH].
    intros Hi. apply in_map_iff in Hi as [mm [Em Hi]]. apply in_flat_map in Hi as [kp' [Hk Hi]]. destruct (Hf kp' (or_intror Hk)) as [n' [E' _]].
    unfold f in Hi. rewrite E' in Hi. destruct (mem_assoc n' m); [destruct Hi|]. destruct Hi as [<-|[]]. cbn [rm_msg] in Em.
    apply append_cancel_l, append_cancel_r in Em. subst n'. apply N1. rewrite E, <- E'. now apply in_map.
  - intros mm Hi. apply in_flat_map in Hi as [kp [Hk Hi]]. destruct (Hf kp Hk) as [n [E Hu]]. unfold f in Hi. rewrite E in Hi.
    destruct (mem_assoc n m) eqn:Em; [destruct Hi|]. destruct Hi as [<-|[]]. exists n. split; [reflexivity|]. split; [exact Hu|].
    rewrite <- Hm. intros H. apply (mem_assoc_iff n m) in H. congruence.
  - intros n Hu Hn. assert (Hi : In (VStr n) (map fst d)) by (apply Hd; eauto). apply in_map_iff in Hi as [kp [E Hk]].
    exists (mkRM (snd kp) ("Condition " ++ n ++ " is not defined.")%string). split; [|reflexivity]. apply in_flat_map. exists kp. split; [exact Hk|].
    unfold f. rewrite E. destruct (mem_assoc n m) eqn:Em; [|now left]. exfalso. apply Hn, Hm. now apply mem_assoc_iff in Em.
Qed.

(** * Unused conditions *)
Lemma c43_all : exists ms, used_match template globals = Ok ms /\
  forall m, In m ms <-> exists n, m = mkRM [PKey "Conditions"; PKey n] ("Condition " ++ n ++ " not used")%string /\
    condition_defined template n /\ ~ uses_condition template globals n /\ forall p, ~ occurs "Fn::If" template globals p (VStr n).
Proof using Hwf Hgw Hpl.
  unfold used_match. destruct conditions_section as [cs [m [Ec [-> Hm]]]]. rewrite Ec. cbn [bind].
  destruct (truthy (VDict m)) eqn:Et.
  2:{ exists []. split; [reflexivity|]. intros x. split; [intros []|]. intros [n [_ [H _]]]. apply Hm in H. destruct m; [destruct H | discriminate]. }
  set (fi := fun pv : path * val => match snd pv with VList [] => [] | VList (x :: _) => [x] | v => [v] end).
  unfold used_ifs. rewrite (concat_res_Ok _ fi).
  2:{ intros [p v] H. unfold fi. cbn [snd]. destruct v as [| | | | |[|]|]; try reflexivity. exfalso. exact (no_empty_if p H). }
  cbn [bind]. set (fm := fun nx : string * val => match snd nx with VDict o => match assoc "Condition" o with Some v => [v] | None => [] end | _ => [] end).
  unfold used_members. rewrite (concat_res_Ok _ fm (get_resources template)).
  2:{ intros [n x] H. apply in_get_resources in H as [o [t [-> _]]]; [|exact Hwf]. unfold fm. cbn [snd member_of bind]. reflexivity. }
  cbn [bind]. destruct outputs_section as [y [os [Ey [Eo [Ho Hod]]]]]. rewrite Ey. cbn [bind]. rewrite Eo. cbn [bind].
  rewrite (concat_res_Ok _ fm os).
  2:{ intros [n x] H. destruct (Ho n x H) as [o [-> _]]. unfold fm. cbn [snd member_of bind]. reflexivity. }
  cbn [bind items_of]. eexists. split; [reflexivity|].
  match goal with |- context [py_in _ ?l] => set (used := l) end.
  assert (Hu : forall n, py_in (VStr n) used = true <-> uses_condition template globals n \/ exists p, occurs "Fn::If" template globals p (VStr n)).
  { intros n. unfold py_in. rewrite existsb_exists. transitivity (In (VStr n) used).
    { split; [intros [x [H1 H2]]; apply py_eq_text in H2; now subst | intros H; exists (VStr n); split; [exact H | now apply py_eq_text]]. }
    unfold used. rewrite !in_app_iff, !in_flat_map. split.
    - intros [[[p v] [H1 H2]]|[H|[[[r x] [H1 H2]]|[[r x] [H1 H2]]]]].
      + apply in_search_deep in H1 as [p' [_ H1]]; try assumption. unfold fi in H2. cbn [snd] in H2.
        destruct v as [| | | | |[|x rest]|]; try (exfalso; exact H2); destruct H2 as [H2|[]]; try discriminate; [injection H2 as ->; right; eauto | subst; left; eapply uc_if; eauto].
      + unfold used_conditions in H. apply in_flat_map in H as [[p v] [H1 H2]]. cbn [fst snd] in H2. destruct v as [| | | |s| |]; try destruct H2 as [].
        destruct (from_conditions p) eqn:Ef; [|destruct H2]. destruct H2 as [[= ->]|[]]. left.
        assert (Hc : exists q, In (q, VStr n) (search_deep_keys "Condition" template globals) /\ from_conditions q = true) by eauto.
        apply condition_reference in Hc as [q Hc]. eapply uc_reference; exact Hc.
      + apply in_get_resources in H1 as [o [t [-> [H3 [H4 H5]]]]]; [|exact Hwf]. unfold fm in H2. cbn [snd] in H2.
        destruct (assoc "Condition" o) as [c|] eqn:E; [|destruct H2]. destruct H2 as [->|[]]. left. eapply uc_resource; eauto.
      + destruct (Ho r x H1) as [o [-> _]]. apply Hod in H1. unfold fm in H2. cbn [snd] in H2.
        destruct (assoc "Condition" o) as [c|] eqn:E; [|destruct H2]. destruct H2 as [->|[]]. left. eapply uc_output; eauto.
    - intros [[p rest H|r o t H1 H2 H3 H4|p H|r o H1 H2]|[p H]].
      + left. exists (p ++ [PKey "Fn::If"], VList (VStr n :: rest)). split; [apply in_search_deep; eauto | now left].
      + right; right; left. exists (r, VDict o). split; [apply in_get_resources; eauto 6|]. unfold fm. cbn [snd]. rewrite H4. now left.
      + right; left. assert (Hc : exists q, In (q, VStr n) (search_deep_keys "Condition" template globals) /\ from_conditions q = true) by (apply condition_reference; eauto).
        destruct Hc as [q [Hi Hf]]. unfold used_conditions. apply in_flat_map. exists (q, VStr n). split; [exact Hi|]. cbn [snd fst]. rewrite Hf. now left.
      + right; right; right. exists (r, VDict o). split; [now apply Hod|]. unfold fm. cbn [snd]. rewrite H2. now left.
      + left. exists (p ++ [PKey "Fn::If"], VStr n). split; [apply in_search_deep; eauto | now left]. }
  intros x. rewrite in_flat_map. split.
  - intros [[n v] [Hi Hx]]. cbn [fst] in Hx. destruct (py_in (VStr n) used) eqn:E; [destruct Hx|]. destruct Hx as [<-|[]]. exists n.
    split; [reflexivity|]. split; [apply Hm; apply in_map_iff; now exists (n, v)|]. split.
    + intros H. assert (py_in (VStr n) used = true) by (apply Hu; now left). congruence.
    + intros p H. assert (py_in (VStr n) used = true) by (apply Hu; right; eauto). congruence.
  - intros [n [-> [Hd [H1 H2]]]]. apply Hm in Hd. apply in_map_iff in Hd as [[n' v] [E Hi]]. cbn in E. subst n'. exists (n, v). split; [exact Hi|]. cbn [fst].
    destruct (py_in (VStr n) used) eqn:E; [|now left]. apply Hu in E as [E|[p E]]; [contradiction | now destruct (H2 p)].
Qed.
End Uses.

(** * Forms of the functions *)
(** A rule that looks at each use of a function in the Conditions section: what it reports is exactly the invalid uses. *)
Section Forms.
Variable template globals : val.
Hypothesis Hwf : wf template.
Hypothesis Hgw : wf globals.

Lemma list_item_ok f p i x : (exists m, In m (list_item_check f p (i, x))) <-> ~ condition_object x.
Proof.
  clear. unfold list_item_check, condition_object. cbn [snd fst].
  assert (Hk : forall k y, (exists m, In m (if smem k ["Fn::And"; "Fn::Or"; "Fn::Not"; "Condition"; "Fn::Equals"] then []
      else [mkRM (p ++ [PIdx i; PKey k]) (f ++ " list must be another valid condition")%string])) <->
      ~ exists k' y', VDict [(k, y)] = VDict [(k', y')] /\ In k' ["Fn::And"; "Fn::Or"; "Fn::Not"; "Condition"; "Fn::Equals"]).
  { intros k y. destruct (smem k _) eqn:E.
    - apply smem_iff in E. split; [intros [m []]|]. intros H. exfalso. apply H. eauto.
    - apply smem_false in E. split; [|intros _; eexists; now left]. intros _ [k' [y' [[= <- <-] H]]]. contradiction. }
  destruct x as [| | | | | |[|[k y] [|? ?]]]; try (split; [intros _ [k' [y' [H _]]]; discriminate | intros _; eexists; left; reflexivity]).
  apply Hk.
Qed.
Lemma list_items_ok f p l : (forall m, ~ In m (flat_map (list_item_check f p) (enum l))) <-> Forall condition_object l.
Proof.
  clear. unfold enum. generalize 0. induction l as [|x l IH]; intros i; cbn [enum_from flat_map].
  - split; [constructor | intros _ m []].
  - split.
    + intros H. constructor.
      * assert (Hn : ~ exists m, In m (list_item_check f p (i, x))) by (intros [m Hm]; apply (H m); apply in_app_iff; now left).
        rewrite list_item_ok in Hn. destruct x as [| | | | | |[|[k y] [|? ?]]]; try (exfalso; apply Hn; intros [k' [y' [E _]]]; discriminate).
        destruct (smem k ["Fn::And"; "Fn::Or"; "Fn::Not"; "Condition"; "Fn::Equals"]) eqn:E.
        -- apply smem_iff in E. exists k, y. auto.
        -- apply smem_false in E. exfalso. apply Hn. intros [k' [y' [[= <- <-] H']]]. contradiction.
      * apply (IH (S i)). intros m Hm. apply (H m). apply in_app_iff. now right.
    + intros H m Hm. inversion H as [|? ? H1 H2]; subst. apply in_app_iff in Hm as [Hm|Hm].
      * assert (Hn : ~ condition_object x) by (apply (list_item_ok f p i x); eauto). contradiction.
      * exact (proj2 (IH (S i)) H2 m Hm).
Qed.
(** Where the matches of one use are. *)
Lemma list_check_paths f p v m : In m (list_check f (p, v)) -> at_or_below p (rm_path m).
Proof.
  clear. unfold list_check, at_or_below. destruct (from_conditions p); [|intros []].
  assert (Hp : forall msg, In m [mkRM p msg] -> exists r, rm_path m = p ++ r /\ (r = [] \/ (exists i, r = [PIdx i]) \/ exists i k, r = [PIdx i; PKey k])).
  { intros msg [<-|[]]. exists []. rewrite app_nil_r. auto. }
  destruct v as [| | | | |l|]; try apply Hp. destruct (_ && _)%bool; [apply Hp|]. destruct (_ && _)%bool; [apply Hp|].
  intros H. apply in_flat_map in H as [[i x] [_ H]]. unfold list_item_check in H. cbn [snd fst] in H.
  assert (Hd : forall msg, In m [mkRM (p ++ [PIdx i]) msg] -> exists r, rm_path m = p ++ r /\ (r = [] \/ (exists i, r = [PIdx i]) \/ exists i k, r = [PIdx i; PKey k])).
  { intros msg [<-|[]]. exists [PIdx i]. eauto. }
  destruct x as [| | | | | |[|[k y] [|? ?]]]; try (eapply Hd; exact H). destruct (smem k _); [destruct H|]. destruct H as [<-|[]]. exists [PIdx i; PKey k]. cbn [rm_path]. eauto 6.
Qed.
Lemma list_check_ok f p v : from_conditions p = true -> (exists m, In m (list_check f (p, v))) <-> ~ valid_condition_list f v.
Proof.
  clear. intros Hp. unfold list_check. rewrite Hp. unfold valid_condition_list.
  destruct v as [| | | | |l|]; try (split; [intros _ [l' [H _]]; discriminate | intros _; eexists; left; reflexivity]).
  destruct (String.eqb_spec f "Fn::Not") as [Hf|Hf]; cbn [andb negb].
  - destruct (Nat.eqb_spec (List.length l) 1) as [Hl|Hl]; cbn [negb].
    + split.
      * intros [m Hm] [l' [[= <-] [_ H]]]. exact (proj2 (list_items_ok f p l) H m Hm).
      * intros Hn. destruct (flat_map (list_item_check f p) (enum l)) as [|m ms] eqn:E; [|exists m; now left]. exfalso. apply Hn. exists l.
        split; [reflexivity|]. split; [now left|]. apply (list_items_ok f p). rewrite E. intros m [].
    + split; [intros _ [l' [[= <-] [[[_ H]|[H _]] _]]]; contradiction | intros _; eexists; left; reflexivity].
  - destruct (Nat.leb_spec 2 (List.length l)) as [H2|H2]; cbn [andb negb].
    + destruct (Nat.leb_spec (List.length l) 10) as [H3|H3]; cbn [negb].
      * split.
        -- intros [m Hm] [l' [[= <-] [_ H]]]. exact (proj2 (list_items_ok f p l) H m Hm).
        -- intros Hn. destruct (flat_map (list_item_check f p) (enum l)) as [|m ms] eqn:E; [|exists m; now left]. exfalso. apply Hn. exists l.
           split; [reflexivity|]. split; [now right|]. apply (list_items_ok f p). rewrite E. intros m [].
      * split; [intros _ [l' [[= <-] [[[H _]|[_ H]] _]]]; [contradiction | lia] | intros _; eexists; left; reflexivity].
    + split; [intros _ [l' [[= <-] [[[H _]|[_ H]] _]]]; [contradiction | lia] | intros _; eexists; left; reflexivity].
Qed.
Lemma c31_lists f : f <> "Conditions" ->
  (forall m, In m (check_condition_list template globals f) ->
     exists r v, occurs f template globals (PKey "Conditions" :: r) v /\ ~ valid_condition_list f v /\ at_or_below (PKey "Conditions" :: r ++ [PKey f]) (rm_path m)) /\
  (forall r v, occurs f template globals (PKey "Conditions" :: r) v -> ~ valid_condition_list f v ->
     exists m, In m (check_condition_list template globals f) /\ at_or_below (PKey "Conditions" :: r ++ [PKey f]) (rm_path m)).
Proof using Hwf Hgw.
  intros Hf. unfold check_condition_list. split.
  - intros m H. apply in_flat_map in H as [[q v] [Hi Hm]]. apply in_search_deep in Hi as [p [-> Hi]]; try assumption.
    assert (Hp := list_check_paths _ _ _ _ Hm). destruct (from_conditions (p ++ [PKey f])) eqn:E.
    + assert (Hv : ~ valid_condition_list f v) by (apply (list_check_ok f _ v E); eauto). apply from_conditions_snoc in E as [r ->]; [|exact Hf].
      exists r, v. auto.
    + unfold list_check in Hm. rewrite E in Hm. destruct Hm.
  - intros r v Ho Hv. assert (E : from_conditions ((PKey "Conditions" :: r) ++ [PKey f]) = true) by reflexivity.
    apply (list_check_ok f _ v E) in Hv as [m Hm]. exists m. split; [|now apply list_check_paths in Hm]. apply in_flat_map.
    exists ((PKey "Conditions" :: r) ++ [PKey f], v). split; [|exact Hm]. apply in_search_deep; eauto.
Qed.

(** Fn::If. *)
Lemma if_check_spec p v : v <> VList [] -> exists ms, if_check (p, v) = Ok ms /\ ((exists m, In m ms) <-> ~ valid_if v) /\
  forall m, In m ms -> rm_path m = p \/ rm_path m = p ++ [PIdx 0].
Proof.
  clear. intros Hne. unfold if_check, valid_if.
  destruct v as [| | | | |[|c rest]|]; try (eexists; split; [reflexivity|]; split; [split; [intros _ [cc [aa [bb H]]]; discriminate | intros _; eexists; left; reflexivity] | intros m [<-|[]]; now left]).
  - congruence.
  - eexists. split; [reflexivity|]. split.
    + split.
      * intros [m Hm] [c' [a [b [= -> ->]]]]. destruct Hm.
      * intros Hn. destruct rest as [|a [|b [|? ?]]]; try (eexists; left; reflexivity). destruct c; try (eexists; left; reflexivity). exfalso. apply Hn. eauto.
    + intros m H. apply in_app_iff in H as [H|H].
      * destruct (Nat.eqb _ _); [destruct H|]. destruct H as [<-|[]]. now left.
      * destruct c; try (exfalso; exact H); destruct H as [<-|[]]; now right.
Qed.
Lemma c31_if : (forall p, ~ occurs "Fn::If" template globals p (VList [])) ->
  exists ms, if_match template globals = Ok ms /\
  (forall m, In m ms -> exists p v, occurs "Fn::If" template globals p v /\ ~ valid_if v /\ (rm_path m = p ++ [PKey "Fn::If"] \/ rm_path m = p ++ [PKey "Fn::If"; PIdx 0])) /\
  (forall p v, occurs "Fn::If" template globals p v -> ~ valid_if v ->
     exists m, In m ms /\ (rm_path m = p ++ [PKey "Fn::If"] \/ rm_path m = p ++ [PKey "Fn::If"; PIdx 0])).
Proof using Hwf Hgw.
  intros Hne. assert (Ht : forall pv, In pv (search_deep_keys "Fn::If" template globals) -> exists ms, if_check pv = Ok ms).
  { intros [q v] H. apply in_search_deep in H as [p [-> H]]; try assumption. destruct (if_check_spec (p ++ [PKey "Fn::If"]) v) as [ms [E _]]; eauto. intros ->. exact (Hne p H). }
  unfold if_match. destruct (concat_res_total _ _ Ht) as [ms E]. exists ms. split; [exact E|]. split.
  - intros m H. apply (concat_res_in _ _ _ m E) in H as [[q v] [ys [Hi [Ey Hm]]]]. apply in_search_deep in Hi as [p [-> Hi]]; try assumption.
    destruct (if_check_spec (p ++ [PKey "Fn::If"]) v) as [ms' [E' [H1 H2]]]; [intros ->; exact (Hne p Hi)|]. rewrite E' in Ey. injection Ey as <-.
    exists p, v. split; [exact Hi|]. split; [apply H1; eauto|]. destruct (H2 m Hm) as [->| ->]; [now left | right; now rewrite <- app_assoc].
  - intros p v Hi Hv. destruct (if_check_spec (p ++ [PKey "Fn::If"]) v) as [ms' [E' [H1 H2]]]; [intros ->; exact (Hne p Hi)|].
    destruct (proj2 H1 Hv) as [m Hm]. exists m. split; [|destruct (H2 m Hm) as [->| ->]; [now left | right; now rewrite <- app_assoc]].
    apply (concat_res_in _ _ _ m E). exists (p ++ [PKey "Fn::If"], v), ms'. split; [apply in_search_deep; eauto|]. auto.
Qed.

(** E8001: the form of the Conditions section. *)
Lemma c31_configuration d cs : template = VDict d -> (assoc "Conditions" d = Some (VDict cs) \/ assoc "Conditions" d = None /\ cs = []) ->
  exists ms, configuration_match template = Ok ms /\
  (forall m, In m ms -> exists n x, In (n, x) cs /\ ~ condition_object x /\ exists r, rm_path m = PKey "Conditions" :: PKey n :: r) /\
  (forall n x, In (n, x) cs -> ~ condition_object x -> exists m, In m ms /\ exists r, rm_path m = PKey "Conditions" :: PKey n :: r).
Proof.
  clear. intros -> Hc. unfold configuration_match. cbn [vget_def bind].
  assert (E : (do conditions <- Ok (match assoc "Conditions" d with Some x => x | None => VDict [] end);
     if truthy conditions then do cs <- items_of conditions; Ok (flat_map configuration_check cs) else Ok []) = Ok (flat_map configuration_check cs)).
  { cbn [bind]. destruct Hc as [->|[-> ->]]; [|reflexivity]. destruct cs; reflexivity. }
  cbn [bind] in E. rewrite E. eexists. split; [reflexivity|]. clear Hc E.
  assert (Hkeys : forall k, smem k condition_keys = true <-> In k ["Fn::And"; "Fn::Or"; "Fn::Not"; "Condition"; "Fn::Equals"]).
  { intros k. rewrite smem_iff. cbn. tauto. }
  assert (Hone : forall n x, (exists m, In m (configuration_check (n, x))) <-> ~ condition_object x).
  { intros n x. unfold configuration_check, condition_object.
    destruct x as [| | | | | |[|[k y] [|? ?]]]; try (split; [intros _ [k' [y' [H _]]]; discriminate | intros _; eexists; left; reflexivity]).
    destruct (smem k condition_keys) eqn:Ek.
    - split; [intros [m []]|]. intros H. exfalso. apply H. exists k, y. split; [reflexivity|]. now apply Hkeys.
    - split; [|intros _; eexists; left; reflexivity]. intros _ [k' [y' [[= <- <-] H]]]. apply Hkeys in H. congruence. }
  assert (Hpath : forall n x m, In m (configuration_check (n, x)) -> exists r, rm_path m = PKey "Conditions" :: PKey n :: r).
  { intros n x m. unfold configuration_check. destruct x as [| | | | | |[|[k y] [|? ?]]]; try (intros [<-|[]]; eexists; reflexivity).
    destruct (smem k condition_keys); [intros [] | intros [<-|[]]; eexists; reflexivity]. }
  split.
  - intros m H. apply in_flat_map in H as [[n x] [Hi Hm]]. exists n, x. split; [exact Hi|]. split; [apply Hone with (n := n); eauto | eapply Hpath; eauto].
  - intros n x Hi Hn. apply (Hone n) in Hn as [m Hm]. exists m. split; [apply in_flat_map; exists (n, x); auto | eapply Hpath; eauto].
Qed.
End Forms.
