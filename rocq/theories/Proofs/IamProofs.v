(** C71: policy documents. *)
From Coq Require Import List Lia.
From Verif.Model Require Import Base Locate Helpers Node Search Rules Refs ConditionRules PropertyRules Iam.
From Verif.Spec Require Import Paths Branches References ConditionUse Required Walk Values Iam.
From Verif.Proofs Require Import BaseFacts BranchProofs SearchProofs PropertyRuleProofs GroupProofs SizeProofs ValueProofs ValueWitness ParameterValueProofs Says Places.
Import Verif.Model.Rules.
Import ListNotations.
Local Open Scope string_scope.

Lemma not_in_iff s l : smem s l = false <-> ~ In s l.
Proof. split; [intros E H; apply smem_iff in H; congruence|]. intros H. destruct (smem s l) eqn:E; [elim H; now apply smem_iff | reflexivity]. Qed.
Lemma has_iff k s : has k s = true <-> gives s k.
Proof. apply smem_iff. Qed.
Lemma hasn_iff k s : has k s = false <-> ~ gives s k.
Proof. apply not_in_iff. Qed.
Lemma statement_keys_same k : In k statement_valid_keys <-> In k statement_keys.
Proof. cbn. tauto. Qed.

(** * Statements *)
Lemma effect_says s b : (~ gives s "Effect" \/ exists e, assoc "Effect" s = Some e) ->
  says (effect_matches s b) (fun m => (~ gives s "Effect" /\ m = mkRM b "IAM Policy statement missing Effect") \/
    exists e t q, assoc "Effect" s = Some e /\ branch e (b ++ [PKey "Effect"])%list (VStr t) q /\ t <> "Allow" /\ t <> "Deny" /\ m = mkRM q "IAM Policy Effect should be Allow or Deny").
Proof.
  intros Hg. unfold effect_matches. destruct (has "Effect" s) eqn:Eh.
  - apply has_iff in Eh. destruct Hg as [Hg|[e He]]; [contradiction|].
    assert (Hc : e = VNull \/ e <> VNull) by (destruct e; auto; right; discriminate). destruct Hc as [->|Hn].
    + unfold get_safe. rewrite He. cbn [is_null andb bind flat_map]. eapply says_ext; [apply says_none|]. intros m. split; [intros []|].
      intros [[H _]|[e' [t [q [H [Hb _]]]]]]; [contradiction|]. injection H as <-. inversion Hb as [| |v w p' Hi Hn Hs]; subst. inversion Hs.
    + destruct (get_safe_spec s "Effect" e [] (fun _ => true) He Hn) as [l [El [Hl _]]]. rewrite El. cbn [bind]. eapply says_ext; [apply says_ok|].
      intros m. cbn beta. rewrite in_flat_map. split.
      * intros [[w q] [Hi Hm]]. apply Hl in Hi. unfold effect_match in Hm. cbn [fst snd] in Hm. destruct w as [| | | |t| |]; try destruct Hm. destruct (smem t ["Allow"; "Deny"]) eqn:Et; [destruct Hm|]. destruct Hm as [<-|[]].
        apply not_in_iff in Et. right. exists e, t, (b ++ q)%list. split; [exact He|]. split; [|repeat split; try (intros ->; apply Et; cbn; auto)].
        clear - Hi. cbn in Hi. revert Hi. generalize (VStr t). intros w Hi.
        assert (G : forall v p w q, branch v p w q -> branch v (b ++ p)%list w (b ++ q)%list).
        { induction 1 as [c a b' p w' q' _ IH|c a b' p w' q' _ IH|v w' p Hi' Hn Hs]; [apply br_then; now rewrite <- app_assoc | apply br_else; now rewrite <- app_assoc | now apply br_leaf]. }
        exact (G _ _ _ _ Hi).
      * intros [[H _]|[e' [t [q [H [Hb [Ha [Hd ->]]]]]]]]; [contradiction|]. rewrite He in H. injection H as <-.
        destruct (branch_key_first _ _ _ _ Hb) as [l0 [E0 _]].
        assert (G : forall v p w q, branch v p w q -> forall p1, p = (b ++ p1)%list -> exists q1, q = (b ++ q1)%list /\ branch v p1 w q1).
        { clear. induction 1 as [c a b' p w' q' _ IH|c a b' p w' q' _ IH|v w' p Hi' Hn Hs]; intros p1 ->.
          - destruct (IH (p1 ++ [PKey "Fn::If"; PIdx 1])%list) as [q1 [-> H1]]; [now rewrite <- app_assoc|]. exists q1. split; [reflexivity | now apply br_then].
          - destruct (IH (p1 ++ [PKey "Fn::If"; PIdx 2])%list) as [q1 [-> H1]]; [now rewrite <- app_assoc|]. exists q1. split; [reflexivity | now apply br_else].
          - exists p1. split; [reflexivity | now apply br_leaf]. }
        destruct (G _ _ _ _ Hb [PKey "Effect"] eq_refl) as [q1 [-> H1]]. exists (VStr t, q1). split; [now apply Hl|]. unfold effect_match. cbn [fst snd].
        destruct (smem t ["Allow"; "Deny"]) eqn:Et; [apply smem_iff in Et; cbn in Et; intuition congruence | now left].
  - apply hasn_iff in Eh. eapply says_ext; [apply says_one|]. intros m. cbn beta. split; [intros ->; now left|]. intros [[_ ->]|[e [t [q [H _]]]]]; [reflexivity|]. elim Eh. apply assoc_In in H. apply (in_map fst) in H. exact H.
Qed.
Lemma statement_says identity exempt s b : says (check_policy_statement identity exempt (VDict s, b)) (fun m => exists pl words, statement_fault identity exempt s b pl words /\ m = mkRM pl words).
Proof.
  unfold check_policy_statement. cbn [fst snd items_of bind].
  assert (Hg : ~ gives s "Effect" \/ exists e, assoc "Effect" s = Some e) by (unfold gives; destruct (assoc "Effect" s) as [e|] eqn:E; [eauto|]; left; now apply assoc_None in E).
  destruct (effect_says s b Hg) as [es [-> He]]. cbn [bind]. eapply says_ext; [apply says_ok|]. intros m. cbn beta. rewrite !in_app_iff, He. clear He. split.
  - intros [Hm|[[[H ->]|[e [t [q [H1 [H2 [H3 [H4 ->]]]]]]]]|[Hm|[Hm|Hm]]]].
    + apply in_flat_map in Hm as [[k x] [Hi Hm]]. cbn [fst] in Hm. destruct (smem k statement_valid_keys) eqn:E; [destruct Hm|]. destruct Hm as [<-|[]]. do 2 eexists. split; [|reflexivity].
      apply (sf_key _ _ _ _ k x Hi). intros K. apply statement_keys_same in K. apply not_in_iff in E. contradiction.
    + do 2 eexists. split; [now apply sf_no_effect | reflexivity].
    + do 2 eexists. split; [exact (sf_effect _ _ _ _ e t q H1 H2 H3 H4) | reflexivity].
    + unfold action_matches in Hm. destruct (negb (has "Action" s) && negb (has "NotAction" s)) eqn:E; [|destruct Hm]. destruct Hm as [<-|[]]. apply andb_true_iff in E as [E1 E2]. rewrite negb_true_iff, hasn_iff in E1, E2.
      do 2 eexists. split; [now apply sf_action | reflexivity].
    + unfold principal_matches in Hm. destruct identity.
      * destruct (has "Principal" s || has "NotPrincipal" s) eqn:E; [|destruct Hm]. destruct Hm as [<-|[]]. apply orb_true_iff in E. rewrite !has_iff in E. do 2 eexists. split; [now apply sf_principal | reflexivity].
      * destruct (negb (has "Principal" s) && negb (has "NotPrincipal" s)) eqn:E; [|destruct Hm]. destruct Hm as [<-|[]]. apply andb_true_iff in E as [E1 E2]. rewrite negb_true_iff, hasn_iff in E1, E2.
        do 2 eexists. split; [now apply sf_no_principal | reflexivity].
    + unfold resource_matches in Hm. destruct exempt; [destruct Hm|]. destruct (negb (has "Resource" s) && negb (has "NotResource" s)) eqn:E; [|destruct Hm]. destruct Hm as [<-|[]]. apply andb_true_iff in E as [E1 E2]. rewrite negb_true_iff, hasn_iff in E1, E2.
      do 2 eexists. split; [now apply sf_resource | reflexivity].
  - intros [pl [words [H ->]]]. destruct H.
    + left. apply in_flat_map. exists (k, x). split; [assumption|]. cbn [fst]. destruct (smem k statement_valid_keys) eqn:E; [|now left]. apply smem_iff, statement_keys_same in E. contradiction.
    + right; left; left. auto.
    + right; left; right. exists e, t, q. auto 6.
    + right; right; left. unfold action_matches. apply hasn_iff in H, H0. rewrite H, H0. now left.
    + right; right; right; left. subst identity. unfold principal_matches. assert (E : has "Principal" s || has "NotPrincipal" s = true) by (rewrite orb_true_iff, !has_iff; assumption). rewrite E. now left.
    + right; right; right; left. subst identity. unfold principal_matches. apply hasn_iff in H0, H1. rewrite H0, H1. now left.
    + right; right; right; right. subst exempt. unfold resource_matches. apply hasn_iff in H0, H1. rewrite H0, H1. now left.
Qed.

(** * Documents *)
Lemma wrong_version_iff x : wrong_version x = true <-> x <> VStr "2012-10-17" /\ x <> VStr "2008-10-17".
Proof.
  destruct x as [|b0|z0|f0|t|l|d]; cbn; try (split; [intros _; split; discriminate | reflexivity]).
  destruct (String.eqb t "2012-10-17") eqn:E1; cbn; [apply String.eqb_eq in E1; subst; split; [discriminate | now intros [[] _]]|].
  destruct (String.eqb t "2008-10-17") eqn:E2; cbn; [apply String.eqb_eq in E2; subst; split; [discriminate | now intros [_ []]]|].
  apply String.eqb_neq in E1, E2. split; [intros _; split; congruence | reflexivity].
Qed.
Section Doc.
Variables (identity exempt : bool).
Lemma statements_says x q : (is_dict x = true -> all_objects x q) -> is_dict x = true \/ is_list x = true ->
  says (match x with
        | VList l => concat_res (check_policy_statement identity exempt) (list_items_safe is_dict l q)
        | VDict _ => concat_res (check_policy_statement identity exempt) (items_safe x q)
        | _ => Ok [mkRM q "IAM Policy statement should be of list."]
        end) (fun m => exists s b pl words, statement_in x q s b /\ statement_fault identity exempt s b pl words /\ m = mkRM pl words).
Proof.
  intros Ho Hk. destruct x as [|b0|z0|f0|t|l|d]; try (destruct Hk; discriminate).
  - eapply says_ext.
    + apply (says_concat _ _ (fun sb m => exists s pl words, fst sb = VDict s /\ statement_fault identity exempt s (snd sb) pl words /\ m = mkRM pl words)).
      intros [w b] Hi. apply list_items_safe_spec in Hi as [Hw _]. destruct w as [| | | | | |s]; try discriminate. eapply says_ext; [apply statement_says|].
      intros m. cbn [fst snd]. split; [intros [pl [words [H ->]]]; exists s, pl, words; auto | intros [s' [pl [words [E [H ->]]]]]; injection E as <-; eauto].
    + intros m. cbn beta. split.
      * intros [[w b] [Hi [s [pl [words [E [H ->]]]]]]]. cbn [fst snd] in *. subst w. apply list_items_safe_spec in Hi as [_ [i [y [Hy Hb]]]]. exists s, b, pl, words. split; [exact (si_item _ _ _ _ l i y eq_refl Hy Hb) | auto].
      * intros [s [b [pl [words [Hs [H ->]]]]]]. exists (VDict s, b). split; [|exists s, pl, words; auto]. apply list_items_safe_spec. split; [reflexivity|].
        destruct Hs as [l' i y E Hy Hb|K]; [injection E as <-; eauto | discriminate K].
  - specialize (Ho eq_refl). eapply says_ext.
    + apply (says_concat _ _ (fun sb m => exists s pl words, fst sb = VDict s /\ statement_fault identity exempt s (snd sb) pl words /\ m = mkRM pl words)).
      intros [w b] Hi. apply items_safe_spec in Hi. destruct (Ho _ _ Hi) as [s ->]. eapply says_ext; [apply statement_says|].
      intros m. cbn [fst snd]. split; [intros [pl [words [H ->]]]; exists s, pl, words; auto | intros [s' [pl [words [E [H ->]]]]]; injection E as <-; eauto].
    + intros m. cbn beta. split.
      * intros [[w b] [Hi [s [pl [words [E [H ->]]]]]]]. cbn [fst snd] in *. subst w. apply items_safe_spec in Hi. exists s, b, pl, words. split; [now apply si_only | auto].
      * intros [s [b [pl [words [Hs [H ->]]]]]]. exists (VDict s, b). split; [|exists s, pl, words; auto]. apply items_safe_spec. destruct Hs as [l' i y E _ _|_ Hb]; [discriminate E | exact Hb].
Qed.
Inductive key_fault (p q : path) (k : string) (x : val) : path -> path -> string -> Prop :=
| kf_key : ~ In k document_keys -> key_fault p q k x (q ++ [PKey k])%list (p ++ q ++ [PKey k])%list ("IAM Policy key " ++ k ++ " doesn't exist.")
| kf_version : k = "Version" -> x <> VStr "2012-10-17" -> x <> VStr "2008-10-17" ->
    key_fault p q k x (q ++ [PKey "Version"])%list (q ++ [PKey "Version"])%list "IAM Policy Version needs to be one of (2012-10-17, 2008-10-17)."
| kf_list : k = "Statement" -> is_dict x = false -> is_list x = false -> key_fault p q k x (q ++ [PKey "Statement"])%list (q ++ [PKey "Statement"])%list "IAM Policy statement should be of list."
| kf_statement : forall s b pl words, k = "Statement" -> statement_in x (q ++ [PKey "Statement"])%list s b -> statement_fault identity exempt s b pl words -> key_fault p q k x pl pl words.
Lemma key_says p q k x : (k = "Statement" -> is_dict x = true -> all_objects x (q ++ [PKey "Statement"])%list) ->
  says (check_document_key identity exempt p q (k, x)) (fun m => exists place shown words, key_fault p q k x place shown words /\ m = mkRM shown words).
Proof.
  intros Ho. unfold check_document_key. rewrite (app_assoc p q [PKey k]).
  assert (Hother : forall m, (exists place shown words, key_fault p q k x place shown words /\ m = mkRM shown words) <->
     In m (if smem k ["Version"; "Id"; "Statement"] then [] else [mkRM ((p ++ q) ++ [PKey k])%list ("IAM Policy key " ++ k ++ " doesn't exist.")]) \/
     In m (if String.eqb k "Version" && wrong_version x then [mkRM (q ++ [PKey k])%list "IAM Policy Version needs to be one of (2012-10-17, 2008-10-17)."] else []) \/
     (k = "Statement" /\ ((is_dict x = false /\ is_list x = false /\ m = mkRM (q ++ [PKey "Statement"])%list "IAM Policy statement should be of list.") \/
        exists s b pl words, statement_in x (q ++ [PKey "Statement"])%list s b /\ statement_fault identity exempt s b pl words /\ m = mkRM pl words))).
  { intros m. split.
    - intros [place [shown [words [H ->]]]]. destruct H.
      + left. destruct (smem k ["Version"; "Id"; "Statement"]) eqn:E; [apply smem_iff in E; contradiction|]. left. now rewrite <- app_assoc.
      + right; left. subst k. rewrite String.eqb_refl, (proj2 (wrong_version_iff x) (conj H0 H1)). now left.
      + right; right. split; [assumption|]. left. auto.
      + right; right. split; [assumption|]. right. exists s, b, pl, words. auto.
    - intros [Hm|[Hm|[-> [[H1 [H2 ->]]|[s [b [pl [words [H1 [H2 ->]]]]]]]]]].
      + destruct (smem k ["Version"; "Id"; "Statement"]) eqn:E; [destruct Hm|]. destruct Hm as [<-|[]]. apply not_in_iff in E. do 3 eexists. split; [exact (kf_key p q k x E)|]. now rewrite <- app_assoc.
      + destruct (String.eqb k "Version") eqn:E; [|destruct Hm]. apply String.eqb_eq in E. subst k. cbn [andb] in Hm. destruct (wrong_version x) eqn:Ew; [|destruct Hm]. destruct Hm as [<-|[]].
        apply wrong_version_iff in Ew as [H1 H2]. do 3 eexists. split; [exact (kf_version p q _ x eq_refl H1 H2) | reflexivity].
      + do 3 eexists. split; [exact (kf_list p q _ x eq_refl H1 H2) | reflexivity].
      + do 3 eexists. split; [exact (kf_statement p q _ x s b pl words eq_refl H1 H2) | reflexivity]. }
  destruct (String.eqb k "Statement") eqn:Es.
  - apply String.eqb_eq in Es. subst k.
    assert (G : says (match x with
        | VList l => concat_res (check_policy_statement identity exempt) (list_items_safe is_dict l (q ++ [PKey "Statement"])%list)
        | VDict _ => concat_res (check_policy_statement identity exempt) (items_safe x (q ++ [PKey "Statement"])%list)
        | _ => Ok [mkRM (q ++ [PKey "Statement"])%list "IAM Policy statement should be of list."]
        end) (fun m => (is_dict x = false /\ is_list x = false /\ m = mkRM (q ++ [PKey "Statement"])%list "IAM Policy statement should be of list.") \/
        exists s b pl words, statement_in x (q ++ [PKey "Statement"])%list s b /\ statement_fault identity exempt s b pl words /\ m = mkRM pl words)).
    { destruct (is_dict x || is_list x) eqn:Ek.
      - apply orb_true_iff in Ek. eapply says_ext; [apply statements_says; [exact (Ho eq_refl) | exact Ek]|]. intros m. split; [now right|]. intros [[H1 [H2 _]]|H]; [destruct Ek; congruence | exact H].
      - apply orb_false_iff in Ek as [E1 E2].
        assert (N : forall s b, ~ statement_in x (q ++ [PKey "Statement"])%list s b) by (intros s b [l i y -> _ _|K _]; [discriminate E2 | congruence]).
        destruct x as [|b0|z0|f0|t|l|d]; try discriminate; (eapply says_ext; [apply says_one|]); intros m; (split; [intros ->; left; auto | intros [[_ [_ H]]|[s [b [pl [words [H _]]]]]]; [exact H | elim (N _ _ H)]]). }
    destruct G as [o [-> Ho']]. cbn [bind]. eapply says_ext; [apply says_ok|]. intros m. cbn beta. rewrite Hother, !in_app_iff, Ho'. tauto.
  - cbn [bind]. eapply says_ext; [apply says_ok|]. intros m. cbn beta. rewrite Hother, !in_app_iff. apply String.eqb_neq in Es. cbn [In]. tauto.
Qed.
Lemma document_object json w v r : document json w v -> says (check_document identity exempt v r) (fun m => exists place shown words,
    ((is_dict v = false /\ place = r /\ shown = r /\ words = "IAM Policy Documents needs to be JSON") \/
     (is_dict v = true /\ exists d q k x, branch v r (VDict d) q /\ In (k, x) d /\ key_fault r q k x place shown words)) /\ m = mkRM shown words) ->
  says (check_document identity exempt v r) (fun m => exists place shown words, document_fault json identity exempt w r place shown words /\ m = mkRM shown words).
Proof.
  intros Hd Hs. eapply says_ext; [exact Hs|]. intros m. cbn beta.
  assert (Hu : forall v', document json w v' -> v' = v) by (intros v' H'; destruct Hd as [s v Es|v Hv]; inversion H'; subst; congruence).
  split.
  - intros [place [shown [words [[[Hk [-> [-> ->]]]|[Hk [d [q [k [x [Hb [Hi H]]]]]]]] ->]]]].
    + do 3 eexists. split; [exact (df_object _ _ _ _ _ v Hd Hk) | reflexivity].
    + exists place, shown, words. split; [|reflexivity]. destruct H as [Hn|Ek H1 H2|Ek H1 H2|s b pl words Ek H1 H2].
      * exact (df_key _ _ _ _ _ v d q k x Hd Hk Hb Hi Hn).
      * rewrite Ek in Hi. exact (df_version _ _ _ _ _ v d q x Hd Hk Hb Hi H1 H2).
      * rewrite Ek in Hi. exact (df_list _ _ _ _ _ v d q x Hd Hk Hb Hi H1 H2).
      * rewrite Ek in Hi. exact (df_statement _ _ _ _ _ v d q x s b pl words Hd Hk Hb Hi H1 H2).
  - intros [place [shown [words [H ->]]]]. exists place, shown, words. split; [|reflexivity]. destruct H; try (apply Hu in H; subst v0).
    + subst w. inversion Hd; subst; [congruence|]. elim (H s). reflexivity.
    + left. auto.
    + right. split; [assumption|]. exists d, q, k, x. split; [assumption|]. split; [assumption|]. now apply kf_key.
    + right. split; [assumption|]. exists d, q, "Version", x. split; [assumption|]. split; [assumption|]. now apply kf_version.
    + right. split; [assumption|]. exists d, q, "Statement", x. split; [assumption|]. split; [assumption|]. now apply kf_list.
    + right. split; [assumption|]. exists d, q, "Statement", x. split; [assumption|]. split; [assumption|]. now apply (kf_statement _ _ _ _ s b).
Qed.
Lemma document_keys_says v r :
  (forall d q x, is_dict v = true -> branch v r (VDict d) q -> In ("Statement", x) d -> is_dict x = true -> all_objects x (q ++ [PKey "Statement"])%list) ->
  says (check_document identity exempt v r) (fun m => exists place shown words,
    ((is_dict v = false /\ place = r /\ shown = r /\ words = "IAM Policy Documents needs to be JSON") \/
     (is_dict v = true /\ exists d q k x, branch v r (VDict d) q /\ In (k, x) d /\ key_fault r q k x place shown words)) /\ m = mkRM shown words).
Proof.
  intros Ho. unfold check_document. destruct v as [|b0|z0|f0|t|l|dd];
    try (eapply says_ext; [apply says_one|]; intros m; split; [intros ->; do 3 eexists; split; [left; auto | reflexivity] | intros [place [shown [words [[[_ [_ [-> ->]]]|[K _]] ->]]]]; [reflexivity | discriminate K]]).
  eapply says_ext.
  - apply (says_concat _ _ (fun wq m => exists d k x place shown words, fst wq = VDict d /\ In (k, x) d /\ key_fault r (snd wq) k x place shown words /\ m = mkRM shown words)).
    intros [w q] Hi. apply filter_In in Hi as [Hi Hd]. cbn [fst] in Hd. apply items_safe_spec in Hi. destruct w as [| | | | | |d]; try discriminate. cbn [fst snd items_of bind].
    eapply says_ext.
    + apply (says_concat _ _ (fun kv m => exists place shown words, key_fault r q (fst kv) (snd kv) place shown words /\ m = mkRM shown words)).
      intros [k x] Hk. cbn [fst snd]. apply key_says. intros ->. exact (Ho d q x eq_refl Hi Hk).
    + intros m. cbn beta. split.
      * intros [[k x] [Hk [place [shown [words [H ->]]]]]]. exists d, k, x, place, shown, words. auto.
      * intros [d' [k [x [place [shown [words [E [Hk [H ->]]]]]]]]]. injection E as <-. exists (k, x). split; [exact Hk|]. eauto.
  - intros m. cbn beta. split.
    + intros [[w q] [Hi [d [k [x [place [shown [words [E [Hk [H ->]]]]]]]]]]]. cbn [fst snd] in *. subst w. apply filter_In in Hi as [Hi _]. apply items_safe_spec in Hi.
      exists place, shown, words. split; [right; split; [reflexivity|]; exists d, q, k, x; auto | reflexivity].
    + intros [place [shown [words [[[K _]|[_ [d [q [k [x [Hb [Hk H]]]]]]]] ->]]]]; [discriminate K|]. exists (VDict d, q). split; [apply filter_In; split; [now apply items_safe_spec | reflexivity]|].
      exists d, k, x, place, shown, words. auto.
Qed.
Lemma document_says json w r : statements_shaped json w r ->
  says (check_policy_document json identity exempt w r) (fun m => exists place shown words, document_fault json identity exempt w r place shown words /\ m = mkRM shown words).
Proof.
  intros Hs.
  assert (G : forall v, document json w v -> says (check_document identity exempt v r) (fun m => exists place shown words, document_fault json identity exempt w r place shown words /\ m = mkRM shown words)).
  { intros v Hd. apply (document_object json w v r Hd). apply document_keys_says. intros d q x Hk Hb Hx Hx'. exact (Hs v d q x Hd Hk Hb Hx Hx'). }
  unfold check_policy_document. destruct w as [|b0|z0|f0|s|l|dd]; try (apply G; apply doc_value; discriminate).
  destruct (json s) as [v|] eqn:E; [apply G; now apply doc_text|]. eapply says_ext; [apply says_one|]. intros m. cbn beta. split.
  - intros ->. do 3 eexists. split; [exact (df_text json _ _ _ r s eq_refl E) | reflexivity].
  - intros [place [shown [words [H ->]]]]. destruct H; [reflexivity| | | | |]; match goal with K : document _ _ _ |- _ => inversion K; subst; [congruence | match goal with N : forall t, _ <> _ |- _ => elim (N s); reflexivity end] end.
Qed.
End Doc.

(** * Where documents are *)
Lemma check_value_absent obj key p f h : (forall d, obj = VDict d -> assoc key d = None) -> check_value obj key p f h = Ok [].
Proof.
  intros H. unfold check_value, get_values. destruct obj as [| | | | | |d]; try reflexivity. rewrite (H d eq_refl). reflexivity.
Qed.
Lemma document_property_says names f (P : val -> path -> rulematch -> Prop) props p : NoDup (keys props) -> ~ In "Policies" names ->
  (forall x q, document_at names props p x q -> forall r, ~ alternative x q VNull r) ->
  (forall x q w r, document_at names props p x q -> single x q w r -> ~ is_call w -> says (f w r) (P w r)) ->
  says (concat_res (document_property names f props p) props) (fun m => exists x q w r, document_at names props p x q /\ single x q w r /\ ~ is_call w /\ P w r m).
Proof.
  intros Hd Hn0 Hn Hf.
  assert (Hv : forall k x, In (k, x) props -> assoc k props = Some x) by (intros k x; apply assoc_NoDup; exact Hd).
  assert (Hp : forall k x, In k names -> assoc k props = Some x -> says (check_value (VDict props) k p f []) (fun m => exists w r, single x (p ++ [PKey k])%list w r /\ ~ is_call w /\ P w r m)).
  { intros k x Hk Hx. apply says_values; [exact Hx | apply Hn; now apply da_property|]. intros w r Hs Hc. exact (Hf x _ w r (da_property names props p k x Hk Hx) Hs Hc). }
  eapply says_ext.
  - apply (says_concat _ _ (fun kv m => exists x q w r, ((In (fst kv) names /\ x = snd kv /\ q = (p ++ [PKey (fst kv)])%list) \/
      (fst kv = "Policies" /\ exists l i o, snd kv = VList l /\ nth_error l i = Some (VDict o) /\ assoc "PolicyDocument" o = Some x /\ q = (p ++ [PKey "Policies"; PIdx i; PKey "PolicyDocument"])%list)) /\
      single x q w r /\ ~ is_call w /\ P w r m)).
    intros [k v] Hi. pose proof (Hv k v Hi) as Ha. unfold document_property. cbn [fst snd].
    assert (Hother : (forall l, k = "Policies" -> v <> VList l) -> says (if smem k names then check_value (VDict props) k p f [] else Ok []) (fun m => exists x q w r, ((In k names /\ x = v /\ q = (p ++ [PKey k])%list) \/
      (k = "Policies" /\ exists l i o, v = VList l /\ nth_error l i = Some (VDict o) /\ assoc "PolicyDocument" o = Some x /\ q = (p ++ [PKey "Policies"; PIdx i; PKey "PolicyDocument"])%list)) /\
      single x q w r /\ ~ is_call w /\ P w r m)).
    { intros Hl. destruct (smem k names) eqn:Ek.
      - apply smem_iff in Ek. eapply says_ext; [exact (Hp k v Ek Ha)|]. intros m. cbn beta. split.
        + intros [w [r [Hs [Hc Hm]]]]. exists v, (p ++ [PKey k])%list, w, r. auto.
        + intros [x [q [w [r [[[_ [-> ->]]|[-> [l [i [o [E _]]]]]] H]]]]]; [eauto|]. elim (Hl l eq_refl E).
      - apply not_in_iff in Ek. eapply says_ext; [apply says_none|]. intros m. split; [intros []|]. intros [x [q [w [r [[[K _]|[-> [l [i [o [E _]]]]]] _]]]]]; [contradiction|]. elim (Hl l eq_refl E). }
    destruct (String.eqb k "Policies") eqn:Ep.
    + apply String.eqb_eq in Ep. destruct v as [|b0|z0|f0|t|l|d]; try (apply Hother; intros; discriminate). clear Hother. subst k.
      eapply says_ext.
      * apply (says_concat _ _ (fun jx m => exists o x w r, snd jx = VDict o /\ assoc "PolicyDocument" o = Some x /\ single x (p ++ [PKey "Policies"; PIdx (fst jx); PKey "PolicyDocument"])%list w r /\ ~ is_call w /\ P w r m)).
        intros [j y] Hj. apply in_enum in Hj. cbn [fst snd].
        destruct (match y with VDict o => match assoc "PolicyDocument" o with Some x => Some (o, x) | None => None end | _ => None end) as [[o x]|] eqn:Ey.
        -- destruct y as [| | | | | |o']; try discriminate Ey. destruct (assoc "PolicyDocument" o') as [x'|] eqn:Ex; [|discriminate Ey]. injection Ey as -> ->.
           assert (Hda : document_at names props p x ((p ++ [PKey "Policies"; PIdx j]) ++ [PKey "PolicyDocument"])%list).
           { rewrite <- app_assoc. exact (da_policy names props p l j o x Ha Hj Ex). }
           eapply says_ext; [apply (says_values f o "PolicyDocument" x (p ++ [PKey "Policies"; PIdx j])%list P Ex)|].
           ++ exact (Hn _ _ Hda).
           ++ intros w r Hs Hc. exact (Hf _ _ w r Hda Hs Hc).
           ++ intros m. cbn beta. rewrite <- app_assoc. split.
              ** intros [w [r [Hs [Hc Hm]]]]. exists o, x, w, r. auto.
              ** intros [o'' [x'' [w [r [E [Ex'' [Hs [Hc Hm]]]]]]]]. injection E as <-. rewrite Ex in Ex''. injection Ex'' as <-. eauto.
        -- rewrite check_value_absent by (intros d ->; destruct (assoc "PolicyDocument" d); [discriminate Ey | reflexivity]).
           eapply says_ext; [apply says_none|]. intros m. split; [intros []|]. intros [o [x [w [r [-> [Ex _]]]]]]. rewrite Ex in Ey. discriminate Ey.
      * intros m. cbn beta. split.
        -- intros [[j y] [Hj [o [x [w [r [E [Ex H]]]]]]]]. cbn [fst snd] in *. apply in_enum in Hj. subst y. exists x, (p ++ [PKey "Policies"; PIdx j; PKey "PolicyDocument"])%list, w, r. split; [|exact H].
           right. split; [reflexivity|]. exists l, j, o. auto.
        -- intros [x [q [w [r [[[K _]|[_ [l' [i [o [E [Hy [Ex ->]]]]]]]] H]]]]]; [contradiction|]. injection E as <-. exists (i, VDict o). split; [now apply in_enum|]. exists o, x, w, r. auto.
    + apply Hother. intros l E. subst k. discriminate Ep.
  - intros m. cbn beta. split.
    + intros [[k v] [Hi [x [q [w [r [Hq H]]]]]]]. cbn [fst snd] in *. apply Hv in Hi. exists x, q, w, r. split; [|exact H].
      destruct Hq as [[Hk [-> ->]]|[-> [l [i [o [-> [Hy [Ex ->]]]]]]]]; [now apply da_property | exact (da_policy names props p l i o x Hi Hy Ex)].
    + intros [x [q [w [r [Hda H]]]]]. destruct Hda as [k x Hk Hx|l i o x Hl Hy Hx].
      * exists (k, x). split; [now apply assoc_In|]. exists x, (p ++ [PKey k])%list, w, r. split; [left; auto | exact H].
      * exists ("Policies", VList l). split; [now apply assoc_In|]. exists x, (p ++ [PKey "Policies"; PIdx i; PKey "PolicyDocument"])%list, w, r. split; [|exact H].
        right. split; [reflexivity|]. exists l, i, o. auto.
Qed.

(** * The check of a resource *)
Lemma is_identity_iff rt : is_identity rt = of_identity rt.
Proof.
  unfold is_identity, of_identity. destruct (in_dec string_dec rt resource_policy_types) as [H|H].
  - change (keys resources_and_keys) with resource_policy_types. rewrite (proj2 (smem_iff _ _) H). reflexivity.
  - change (keys resources_and_keys) with resource_policy_types. rewrite (proj2 (not_in_iff _ _) H). reflexivity.
Qed.
Lemma names_same k : In k document_names <-> In k all_document_names.
Proof. cbn. tauto. Qed.
Lemma document_at_names names names' props p x q : (forall k, In k names -> In k names') -> document_at names props p x q -> document_at names' props p x q.
Proof. intros Hn [k y Hk Hx|l i o y Hl Hi Hx]; [apply da_property; auto | exact (da_policy _ _ _ l i o y Hl Hi Hx)]. Qed.
Lemma c71_documents json rt props p : NoDup (keys props) -> documents_shaped json all_document_names props p ->
  exists ms, policy_check json rt (VDict props) p = Ok ms /\ forall m, In m ms <->
    exists x q w r place shown words, document_at all_document_names props p x q /\ single x q w r /\ ~ is_call w /\
      document_fault json (of_identity rt) (of_repository rt) w r place shown words /\ m = mkRM shown words.
Proof.
  intros Hd Hs. unfold policy_check. cbn [items_of bind]. change (is_exempt rt) with (of_repository rt). rewrite is_identity_iff.
  assert (N1 : forall x q, document_at document_names props p x q -> document_at all_document_names props p x q) by (intros x q; apply document_at_names; intros k; apply names_same).
  assert (N2 : forall x q, document_at all_document_names props p x q -> document_at document_names props p x q) by (intros x q; apply document_at_names; intros k; apply names_same).
  destruct (document_property_says document_names (check_policy_document json (of_identity rt) (of_repository rt))
    (fun w r m => exists place shown words, document_fault json (of_identity rt) (of_repository rt) w r place shown words /\ m = mkRM shown words) props p Hd) as [ms [E H]].
  - cbn. intuition discriminate.
  - intros x q Hx. exact (proj1 (Hs x q (N1 _ _ Hx))).
  - intros x q w r Hx Hw Hc. apply document_says. exact (proj2 (Hs x q (N1 _ _ Hx)) w r Hw Hc).
  - exists ms. split; [exact E|]. intros m. rewrite H. split.
    + intros [x [q [w [r [Hx [Hw [Hc [place [shown [words [Hf ->]]]]]]]]]]]. exists x, q, w, r, place, shown, words. auto 6.
    + intros [x [q [w [r [place [shown [words [Hx [Hw [Hc [Hf ->]]]]]]]]]]]. exists x, q, w, r. split; [auto|]. split; [exact Hw|]. split; [exact Hc|]. eauto.
Qed.
(** Only keys that do not exist are reported elsewhere. *)
Lemma c71_places json identity exempt w r place shown words : document_fault json identity exempt w r place shown words ->
  shown = place \/ exists k, ~ In k document_keys /\ shown = (r ++ place)%list /\ words = "IAM Policy key " ++ k ++ " doesn't exist.".
Proof. intros H. destruct H; try (left; reflexivity). right. exists k. auto. Qed.

(** * In a run *)
Lemma document_place t props p x q : wf t -> at_path p t = Some (VDict props) -> document_at all_document_names props p x q -> at_path q t = Some x.
Proof.
  intros Hw Hp [k y Hk Hx|l i o y Hl Hi Hx]; rewrite at_path_app, Hp; cbn [at_path]; [now rewrite Hx|]. rewrite Hl. cbn [at_path]. rewrite Hi. now rewrite Hx.
Qed.
Lemma statement_at_place t x p s b : wf t -> at_path p t = Some x -> statement_in x p s b -> exists y, at_path b t = Some y /\ settled y (VDict s).
Proof.
  intros Hw Hp [l i y -> Hy Hb|_ Hb]; [|exact (branch_settled _ _ _ _ Hb t Hp)].
  apply (branch_settled _ _ _ _ Hb t). rewrite at_path_app, Hp. cbn [at_path]. now rewrite Hy.
Qed.
Lemma settled_member t b y s k x : wf t -> at_path b t = Some y -> settled y (VDict s) -> In (k, x) s -> at_path (b ++ [PKey k])%list t = Some x.
Proof.
  intros Hw Hb Hs Hi. inversion Hs as [d0 d' Hd|? E]; subst; [|discriminate E]. rewrite at_path_app, Hb. cbn [at_path]. apply (pruned_sub _ _ Hd) in Hi.
  pose proof (at_path_wf _ _ _ Hw Hb) as Hw'. apply wf_dict in Hw' as [Hn _]. now rewrite (assoc_NoDup _ _ _ Hn Hi).
Qed.
Lemma fault_in_template json c identity exempt d0 r place shown words : wf (template c) -> r <> [] -> at_path r (template c) = Some (VDict d0) -> ~ is_if (VDict d0) ->
  document_fault json identity exempt (VDict d0) r place shown words -> (forall rest, r = PKey "Resources" :: rest -> assoc "Resources" d0 = None) -> (exists rest, r = PKey "Resources" :: rest) ->
  shown <> [] /\ indices_ok (c_tmpl c) shown.
Proof.
  intros Hw Hne Hr Hi Hf Hres [rest Er].
  assert (A : forall q, (exists x, at_path q (template c) = Some x) -> q <> [] -> q <> [] /\ indices_ok (c_tmpl c) q).
  { intros q [x Hx] Hq. split; [exact Hq|]. now apply (at_path_indices _ _ x). }
  assert (E : forall q (k : string), (q ++ [PKey k])%list <> []) by (intros q k K; now apply app_eq_nil in K as [_ [=]]).
  assert (Hdoc : forall v, document json (VDict d0) v -> v = VDict d0) by (intros v Hv; inversion Hv; congruence).
  destruct Hf; try (apply Hdoc in H; subst v).
  - discriminate.
  - apply A; eauto.
  - split; [intros K; apply app_eq_nil in K as [K _]; now apply Hne|]. destruct (branch_plain _ _ _ _ Hi H1) as [-> _].
    apply (indices_after _ _ _ _ Hr). intros t' Ht'. rewrite Er. cbn [app]. apply indices_gone. rewrite Ht'. cbn [at_path]. now rewrite (Hres rest Er).
  - apply A; [|apply E]. exists x. exact (branch_member_at _ _ _ _ _ _ _ Hw H1 Hr H2).
  - apply A; [|apply E]. exists x. exact (branch_member_at _ _ _ _ _ _ _ Hw H1 Hr H2).
  - pose proof (branch_member_at _ _ _ _ _ _ _ Hw H1 Hr H2) as Hx. destruct (statement_at_place _ _ _ _ _ Hw Hx H3) as [y [Hy Hset]].
    assert (Hb : b <> []).
    { assert (K : exists l, b = ((q ++ [PKey "Statement"]) ++ l)%list).
      { destruct H3 as [l i y' -> _ Hb|_ Hb]; apply branch_below in Hb as [l' ->]; [eexists; now rewrite <- app_assoc | eauto]. }
      destruct K as [l ->]. destruct q; discriminate. }
    destruct H4 as [k x0 Hk Hn|Hg|e t0 q' He Hbr Ha Hd|Ha Hn|Ei Hg|Ei Hg Hn|Ee Hg Hn].
    + apply A; [|apply E]. exists x0. exact (settled_member _ _ _ _ _ _ Hw Hy Hset Hk).
    + apply A; eauto.
    + assert (He' : at_path (b ++ [PKey "Effect"])%list (template c) = Some e) by (apply (settled_member _ _ _ _ _ _ Hw Hy Hset); now apply assoc_In).
      apply A; [exact (branch_at _ _ _ _ Hbr _ He')|]. destruct (branch_below _ _ _ _ Hbr) as [l' ->]. intros K. apply app_eq_nil in K as [K _]. now apply E in K.
    + apply A; eauto.
    + apply A; eauto.
    + split; [apply E|]. apply (indices_after _ _ _ _ Hy). intros t' _. apply indices_key.
    + apply A; eauto.
Qed.
(** Faults of a document in a text are reported below the text, which has no members. *)
Lemma key_first_after q r l k rest : q = (r ++ l)%list -> key_first l -> exists l', (q ++ PKey k :: rest)%list = (r ++ l')%list /\ key_first l'.
Proof.
  intros -> Hl. exists (l ++ PKey k :: rest)%list. split; [now rewrite app_assoc|]. destruct l as [|[k'|i] l]; [exact I | exact I | destruct Hl].
Qed.
Lemma fault_in_text json c identity exempt s0 r place shown words : r <> [] -> (exists rest, r = PKey "Resources" :: rest) -> at_path r (template c) = Some (VStr s0) ->
  document_fault json identity exempt (VStr s0) r place shown words -> shown <> [] /\ indices_ok (c_tmpl c) shown.
Proof.
  intros Hne [rest0 Er] Hr Hf.
  assert (A : forall l, key_first l -> (r ++ l)%list <> [] /\ indices_ok (c_tmpl c) (r ++ l)%list).
  { intros l Hl. split; [intros K; apply app_eq_nil in K as [K _]; now apply Hne | exact (indices_text c r s0 l Hr Hl)]. }
  assert (A0 : r <> [] /\ indices_ok (c_tmpl c) r) by (specialize (A [] I); now rewrite app_nil_r in A).
  destruct Hf as [s Ew Ej|v Hd Hk|v d q k x Hd Hk Hb Hi Hn|v d q x Hd Hk Hb Hi Hn1 Hn2|v d q x Hd Hk Hb Hi Hn1 Hn2|v d q x s b pl words Hd Hk Hb Hi Hs Hf].
  - exact A0.
  - exact A0.
  - destruct (branch_key_first _ _ _ _ Hb) as [l [El Hl]]. subst q. apply A. rewrite Er. exact I.
  - destruct (branch_key_first _ _ _ _ Hb) as [l [El Hl]]. destruct (key_first_after q r l "Version" [] El Hl) as [l' [-> Hl']]. now apply A.
  - destruct (branch_key_first _ _ _ _ Hb) as [l [El Hl]]. destruct (key_first_after q r l "Statement" [] El Hl) as [l' [-> Hl']]. now apply A.
  - destruct (branch_key_first _ _ _ _ Hb) as [l [El Hl]].
    assert (Kb : exists l1, b = (q ++ PKey "Statement" :: l1)%list) by (destruct Hs as [l1 i y -> _ Hy|_ Hy]; apply branch_below in Hy as [l2 ->]; rewrite <- !app_assoc; eexists; reflexivity).
    destruct Kb as [l1 Eb].
    assert (Kp : exists l2, pl = (b ++ l2)%list).
    { destruct Hf as [k x0 Hk' Hn|Hg|e t0 q' He Hbr Ha Hd'|Ha Hn|Ei Hg|Ei Hg Hn|Ee Hg Hn]; try (eexists; reflexivity); try (exists []; now rewrite app_nil_r).
      apply branch_below in Hbr as [l2 ->]. rewrite <- app_assoc. eexists. reflexivity. }
    destruct Kp as [l2 ->]. rewrite Eb, <- app_assoc. cbn [app]. destruct (key_first_after q r l "Statement" (l1 ++ l2)%list El Hl) as [l' [-> Hl']]. now apply A.
Qed.
(** Policies that are neither texts nor objects are reported at their own place. *)
Lemma fault_in_other json c identity exempt w r place shown words : r <> [] -> at_path r (template c) = Some w -> is_dict w = false -> (forall s, w <> VStr s) ->
  document_fault json identity exempt w r place shown words -> shown <> [] /\ indices_ok (c_tmpl c) shown.
Proof.
  intros Hne Hr Hk Hs Hf. assert (A0 : r <> [] /\ indices_ok (c_tmpl c) r) by (split; [exact Hne | now apply (at_path_indices _ _ w)]).
  destruct Hf; try exact A0; match goal with K : document _ _ _ |- _ => inversion K; subst end; try congruence; exfalso; eapply Hs; reflexivity.
Qed.
Lemma c71_run json sp k c raw name rt attrs pd m0 d0 x q w r place shown words :
  snd (coll_run sp k c) = Ok raw -> In (policy_rule json) (k_all k) -> enabled (k_set k) (policy_rule json) = true ->
  wf (template c) -> c_tmpl c = MDict m0 d0 -> resource_of (template c) name rt attrs -> assoc "Properties" attrs = Some (VDict pd) -> In rt (resource_policy_types ++ identity_types)%list ->
  documents_shaped json all_document_names pd (props_path name) ->
  (forall x q d r, document_at all_document_names pd (props_path name) x q -> single x q (VDict d) r -> assoc "Resources" d = None) ->
  document_at all_document_names pd (props_path name) x q -> single x q w r -> ~ is_call w -> document_fault json (of_identity rt) (of_repository rt) w r place shown words ->
  exists f, locate_match c "E2507" (mkRM shown words) = Ok f /\ In f raw.
Proof.
  intros Hrun Hr He Hw Hc Hres Hp Hrt Hs Hno Hx Hw' Hcall Hf. pose proof (resource_at c name rt attrs pd Hw Hres Hp) as Hat.
  assert (Hnd : NoDup (keys pd)) by (pose proof (at_path_wf _ _ _ Hw Hat) as H'; apply wf_dict in H' as [H' _]; exact H').
  destruct (c71_documents json rt pd (props_path name) Hnd Hs) as [ms [Hms Hin]].
  apply (reported_props_ok sp k c raw (policy_rule json) (fun _ _ props rt p => policy_check json rt props p) name rt attrs pd ms (mkRM shown words) m0 d0 Hrun Hr He eq_refl); auto.
  - intros m Hm. destruct (proj1 (Hin m) Hm) as [x' [q' [w' [r' [pl [sh [wo [Hx' [Hw'' [Hc' [Hf' ->]]]]]]]]]]]. cbn [rm_path].
    pose proof (document_place _ _ _ _ _ Hw Hat Hx') as Hq. pose proof (single_at _ _ _ _ _ Hw'' Hq) as Hr'.
    assert (Er : exists rest, r' = PKey "Resources" :: rest).
    { apply single_below in Hw'' as [l ->]. destruct Hx'; eexists; cbn [props_path app]; reflexivity. }
    assert (Hne : r' <> []) by (destruct Er as [rest ->]; discriminate).
    destruct w' as [|b0|z0|f0|s|l|d].
    1,2,3,4,6: apply (fault_in_other json c _ _ _ _ _ _ _ Hne Hr' eq_refl ltac:(discriminate) Hf').
    + exact (fault_in_text json c _ _ _ _ _ _ _ Hne Er Hr' Hf').
    + refine (fault_in_template json c _ _ d r' pl sh wo Hw Hne Hr' _ Hf' _ Er).
      * intros [y Hy]. apply Hc'. exists "Fn::If", y. split; [exact Hy|]. apply smem_iff. reflexivity.
      * intros rest _. exact (Hno _ _ _ _ Hx' Hw'').
  - apply Hin. exists x, q, w, r, place, shown, words. auto 6.
Qed.

(** * Versions *)
Lemma policies_says f (P : val -> path -> rulematch -> Prop) l p :
  (forall i o x, nth_error l i = Some (VDict o) -> assoc "PolicyDocument" o = Some x -> forall r, ~ alternative x (p ++ [PKey "Policies"; PIdx i; PKey "PolicyDocument"])%list VNull r) ->
  (forall i o x w r, nth_error l i = Some (VDict o) -> assoc "PolicyDocument" o = Some x -> single x (p ++ [PKey "Policies"; PIdx i; PKey "PolicyDocument"])%list w r -> ~ is_call w -> says (f w r) (P w r)) ->
  says (concat_res (fun jx => check_value (snd jx) "PolicyDocument" (p ++ [PKey "Policies"; PIdx (fst jx)])%list f []) (enum l))
    (fun m => exists i o x w r, nth_error l i = Some (VDict o) /\ assoc "PolicyDocument" o = Some x /\ single x (p ++ [PKey "Policies"; PIdx i; PKey "PolicyDocument"])%list w r /\ ~ is_call w /\ P w r m).
Proof.
  intros Hn Hf. eapply says_ext.
  - apply (says_concat _ _ (fun jx m => exists o x w r, snd jx = VDict o /\ assoc "PolicyDocument" o = Some x /\ single x (p ++ [PKey "Policies"; PIdx (fst jx); PKey "PolicyDocument"])%list w r /\ ~ is_call w /\ P w r m)).
    intros [j y] Hj. apply in_enum in Hj. cbn [fst snd].
    destruct (match y with VDict o => match assoc "PolicyDocument" o with Some x => Some (o, x) | None => None end | _ => None end) as [[o x]|] eqn:Ey.
    + destruct y as [| | | | | |o']; try discriminate Ey. destruct (assoc "PolicyDocument" o') as [x'|] eqn:Ex; [|discriminate Ey]. injection Ey as -> ->.
      eapply says_ext; [apply (says_values f o "PolicyDocument" x (p ++ [PKey "Policies"; PIdx j])%list P Ex)|].
      * rewrite <- app_assoc. exact (Hn _ _ _ Hj Ex).
      * rewrite <- app_assoc. intros w r Hs Hc. exact (Hf _ _ _ w r Hj Ex Hs Hc).
      * intros m. cbn beta. rewrite <- app_assoc. split.
        -- intros [w [r [Hs [Hc Hm]]]]. exists o, x, w, r. auto.
        -- intros [o'' [x'' [w [r [E [Ex'' [Hs [Hc Hm]]]]]]]]. injection E as <-. rewrite Ex in Ex''. injection Ex'' as <-. eauto.
    + rewrite check_value_absent by (intros d ->; destruct (assoc "PolicyDocument" d); [discriminate Ey | reflexivity]).
      eapply says_ext; [apply says_none|]. intros m. split; [intros []|]. intros [o [x [w [r [-> [Ex _]]]]]]. rewrite Ex in Ey. discriminate Ey.
  - intros m. cbn beta. split.
    + intros [[j y] [Hj [o [x [w [r [E H]]]]]]]. cbn [fst snd] in *. apply in_enum in Hj. subst y. exists j, o, x, w, r. auto.
    + intros [i [o [x [w [r [Hy H]]]]]]. exists (i, VDict o). split; [now apply in_enum|]. exists o, x, w, r. auto.
Qed.
Definition version_words : string := "IAM Policy Version should be updated to '2012-10-17'.".
Lemma old_version_iff x : truthy x && old_version x = true <-> x = VStr "2008-10-17".
Proof.
  split; [|intros ->; reflexivity]. intros H. apply andb_prop in H as [_ H]. destruct x as [| | | |s| |]; try discriminate H. cbn in H. apply String.eqb_eq in H. now subst.
Qed.
Lemma clean_twice d : clean (clean d) = clean d.
Proof.
  unfold clean. induction d as [|kv d IH]; [reflexivity|]. cbn [filter]. match goal with |- context[if ?b then _ else _] => destruct b eqn:E end; [|exact IH]. cbn [filter]. rewrite E. now rewrite IH.
Qed.
Lemma check_version_says w r : ~ is_call w -> (forall d d' r', w = VDict d -> branch w r (VDict d') r' -> ~ is_if (VDict d')) ->
  says (check_version w r) (fun m => exists d q, is_dict w = true /\ branch w r (VDict d) q /\ assoc "Version" d = Some (VStr "2008-10-17") /\ m = mkRM (q ++ [PKey "Version"])%list version_words).
Proof.
  intros Hc Hi. destruct w as [|b0|z0|f0|s|l|d]; try (eapply says_ext; [apply says_none|]; intros m; split; [intros [] | intros [? [? [K _]]]; discriminate K]).
  assert (H0 : ~ is_if (VDict d)) by (intros [y Hy]; apply Hc; exists "Fn::If", y; split; [exact Hy|]; apply smem_iff; reflexivity).
  unfold check_version. eapply says_ext.
  - apply (says_concat _ _ (fun wq m => assoc "Version" (clean d) = Some (VStr "2008-10-17") /\ m = mkRM (r ++ [PKey "Version"])%list version_words)).
    intros [w q] Hw. apply items_safe_spec in Hw. destruct (branch_plain _ _ _ _ H0 Hw) as [-> ->]. pose proof (Hi d _ _ eq_refl Hw) as H1. cbn [fst snd obj_items_safe bind].
    eapply says_ext.
    + apply (says_concat _ _ (fun wq m => assoc "Version" (clean d) = Some (VStr "2008-10-17") /\ m = mkRM (r ++ [PKey "Version"])%list version_words)).
      intros [w q] Hw'. apply items_safe_spec in Hw'. destruct (branch_plain _ _ _ _ H1 Hw') as [-> ->]. rewrite clean_twice. unfold version_match. cbn [fst snd vget bind].
      eapply says_ext; [apply says_if|]. intros m. cbn beta. rewrite old_version_iff. unfold version_words. destruct (assoc "Version" (clean d)) as [x|]; [split; intros [E ->]; (split; [congruence | reflexivity])|]. split; intros [E _]; discriminate E.
    + intros m. cbn beta. split; [intros [_ [_ H]]; exact H|]. intros H. exists (VDict (clean (clean d)), r). split; [|exact H]. apply items_safe_spec. apply plain_branch; [exact H1|].
      intros K. destruct H as [H _]. injection K as K. rewrite K in H. discriminate H.
  - intros m. cbn beta. split.
    + intros [[w q] [Hw H]]. apply items_safe_spec in Hw. exists (clean d), r. destruct (branch_plain _ _ _ _ H0 Hw) as [-> ->]. tauto.
    + intros [d' [q [_ [Hb H]]]]. exists (VDict d', q). split; [now apply items_safe_spec|]. destruct (branch_plain _ _ _ _ H0 Hb) as [-> E]. injection E as ->. exact H.
Qed.
(** The types, and the property each of them gives its documents in. *)
Lemma version_key rt key : assoc rt version_keys = Some key <-> (In (rt, key) versioned_properties \/ In rt with_policies /\ key = "Policies").
Proof.
  split.
  - intros H. apply assoc_In in H. cbn in H. cbn. decompose [or] H; try contradiction; match goal with K : (_, _) = (_, _) |- _ => injection K as <- <- end; auto 15.
  - intros [H|[H ->]]; cbn in H; decompose [or] H; try contradiction; try (match goal with K : (_, _) = (_, _) |- _ => injection K as <- <- end); subst; reflexivity.
Qed.
Lemma versioned_not_policies rt : ~ In (rt, "Policies") versioned_properties.
Proof. cbn. intuition discriminate. Qed.
Lemma policies_types rt k : In rt with_policies -> ~ In (rt, k) versioned_properties.
Proof. cbn. intuition congruence. Qed.
Lemma version_type_keys rt : version_type rt -> In rt (keys version_keys).
Proof.
  intros H. assert (exists key, assoc rt version_keys = Some key) as [key E].
  { destruct H as [H|[k H]]; eexists; apply version_key; eauto. }
  apply assoc_In in E. apply in_map_iff. eexists. split; [|exact E]. reflexivity.
Qed.
Lemma c71_versions rt props p : version_type rt -> versions_shaped rt props p ->
  exists ms, version_check rt (VDict props) p = Ok ms /\ forall m, In m ms <->
    exists x q w r d s, versioned rt props p x q /\ single x q w r /\ ~ is_call w /\ is_dict w = true /\ branch w r (VDict d) s /\ assoc "Version" d = Some (VStr "2008-10-17") /\
      m = mkRM (s ++ [PKey "Version"])%list version_words.
Proof.
  intros Hrt [Hs Hp]. apply version_type_keys in Hrt. enough (K : says (version_check rt (VDict props) p) (fun m => exists x q w r d s, versioned rt props p x q /\ single x q w r /\ ~ is_call w /\ is_dict w = true /\ branch w r (VDict d) s /\ assoc "Version" d = Some (VStr "2008-10-17") /\
      m = mkRM (s ++ [PKey "Version"])%list version_words)) by exact K.
  unfold version_check. destruct (assoc rt version_keys) as [key|] eqn:Ek; [|exfalso; apply assoc_None in Ek; contradiction].
  assert (Hf : forall x q w r, versioned rt props p x q -> single x q w r -> ~ is_call w -> says (check_version w r) (fun m => exists d s, is_dict w = true /\ branch w r (VDict d) s /\ assoc "Version" d = Some (VStr "2008-10-17") /\ m = mkRM (s ++ [PKey "Version"])%list version_words)).
  { intros x q w r Hx Hw Hc. apply check_version_says; [exact Hc|]. intros d d' r' -> Hb. exact (proj2 (Hs x q Hx) d r d' r' Hw Hb). }
  pose proof (proj1 (version_key rt key) Ek) as Hk. destruct (String.eqb key "Policies") eqn:Ep.
  - apply String.eqb_eq in Ep. subst key. destruct Hk as [Hk|[Hk _]]; [now apply versioned_not_policies in Hk|]. cbn [vget_def bind].
    assert (Hnone : (forall l, assoc "Policies" props <> Some (VList l)) -> forall m, ~ exists x q w r d s, versioned rt props p x q /\ single x q w r /\ ~ is_call w /\ is_dict w = true /\ branch w r (VDict d) s /\ assoc "Version" d = Some (VStr "2008-10-17") /\
      m = mkRM (s ++ [PKey "Version"])%list version_words).
    { intros Hl m [x [q [w [r [d [s [Hx _]]]]]]]. destruct Hx as [k x Hk' _|l i o x _ Ha _ _]; [now apply (policies_types rt k) in Hk'|]. now apply (Hl l). }
    destruct (assoc "Policies" props) as [v|] eqn:Ev.
    + destruct (Hp Hk v eq_refl) as [Hl|Hd].
      * destruct v as [| | | | |l|]; try discriminate Hl. cbn [iter_val bind]. eapply says_ext.
        -- apply (policies_says check_version (fun w r m => exists d s, is_dict w = true /\ branch w r (VDict d) s /\ assoc "Version" d = Some (VStr "2008-10-17") /\ m = mkRM (s ++ [PKey "Version"])%list version_words)).
           ++ intros i o x Hi Hx. apply Hs. exact (ve_policy rt props p l i o x Hk Ev Hi Hx).
           ++ intros i o x w r Hi Hx. apply (Hf x). exact (ve_policy rt props p l i o x Hk Ev Hi Hx).
        -- intros m. cbn beta. split.
           ++ intros [i [o [x [w [r [Hi [Hx [Hw [Hc [d [s H]]]]]]]]]]]. do 6 eexists. split; [exact (ve_policy rt props p l i o x Hk Ev Hi Hx)|]. eauto.
           ++ intros [x [q [w [r [d [s [Hx [Hw [Hc H]]]]]]]]]. destruct Hx as [k x Hk' _|l' i o x _ Ha Hi Hx]; [now apply (policies_types rt k) in Hk'|].
              rewrite Ev in Ha. injection Ha as <-. exists i, o, x, w, r. eauto 8.
      * destruct v as [| | | | | |d]; try discriminate Hd. cbn [iter_val bind]. eapply says_ext.
        -- apply (says_concat _ _ (fun _ _ => False)). intros [j y] Hj. apply in_enum in Hj. cbn [fst snd]. rewrite check_value_absent; [apply says_none|].
           intros d0 ->. apply nth_error_In, in_map_iff in Hj as [k' [K _]]. discriminate K.
        -- intros m. cbn beta. split; [intros [? [_ []]] | intros H; exfalso; exact (Hnone ltac:(discriminate) m H)].
    + cbn. eapply says_ext; [apply says_none|]. intros m. split; [intros [] | intros H; exact (Hnone ltac:(discriminate) m H)].
  - destruct Hk as [Hk|[_ ->]]; [|discriminate Ep].
    destruct (assoc key props) as [x|] eqn:Ex.
    + eapply says_ext; [apply (says_values check_version props key x p (fun w r m => exists d s, is_dict w = true /\ branch w r (VDict d) s /\ assoc "Version" d = Some (VStr "2008-10-17") /\ m = mkRM (s ++ [PKey "Version"])%list version_words) Ex)|].
      * apply Hs. now apply ve_property.
      * intros w r. apply (Hf x). now apply ve_property.
      * intros m. cbn beta. split.
        -- intros [w [r [Hw [Hc [d [s H]]]]]]. do 6 eexists. split; [exact (ve_property rt props p key x Hk Ex)|]. eauto.
        -- intros [x' [q [w [r [d [s [Hx [Hw [Hc H]]]]]]]]]. destruct Hx as [k x' Hk' Hx'|l i o x' Hk' _ _ _]; [|now apply (policies_types rt key) in Hk'].
           assert (k = key) as -> by (assert (A : assoc rt version_keys = Some k) by (apply version_key; now left); congruence). rewrite Ex in Hx'. injection Hx' as <-. eauto 10.
    + rewrite check_value_absent by (intros d K; injection K as <-; exact Ex). eapply says_ext; [apply says_none|]. intros m. split; [intros []|].
      intros [x' [q [w [r [d [s [Hx _]]]]]]]. destruct Hx as [k x' Hk' Hx'|l i o x' Hk' _ _ _]; [|now apply (policies_types rt key) in Hk'].
      assert (k = key) as -> by (assert (A : assoc rt version_keys = Some k) by (apply version_key; now left); congruence). congruence.
Qed.
Lemma versioned_place t rt props p x q : at_path p t = Some (VDict props) -> versioned rt props p x q -> at_path q t = Some x.
Proof.
  intros Hp [k y _ Hx|l i o y _ Hl Hi Hx]; rewrite at_path_app, Hp; cbn [at_path]; [now rewrite Hx|]. rewrite Hl, Hi. now rewrite Hx.
Qed.
Lemma c71_versions_run sp k c raw name rt attrs pd m0 d0 x q w r d s :
  snd (coll_run sp k c) = Ok raw -> In version_rule (k_all k) -> enabled (k_set k) version_rule = true ->
  wf (template c) -> c_tmpl c = MDict m0 d0 -> resource_of (template c) name rt attrs -> assoc "Properties" attrs = Some (VDict pd) -> version_type rt ->
  versions_shaped rt pd (props_path name) ->
  versioned rt pd (props_path name) x q -> single x q w r -> ~ is_call w -> is_dict w = true -> branch w r (VDict d) s -> assoc "Version" d = Some (VStr "2008-10-17") ->
  exists f, locate_match c "W2511" (mkRM (s ++ [PKey "Version"])%list version_words) = Ok f /\ In f raw.
Proof.
  intros Hrun Hr He Hw Hc Hres Hp Hrt Hs Hx Hw' Hcall Hd Hb Hv. pose proof (resource_at c name rt attrs pd Hw Hres Hp) as Hat.
  destruct (c71_versions rt pd (props_path name) Hrt Hs) as [ms [Hms Hin]].
  apply (reported_props_ok sp k c raw version_rule (fun _ _ props rt p => version_check rt props p) name rt attrs pd ms (mkRM (s ++ [PKey "Version"])%list version_words) m0 d0 Hrun Hr He eq_refl (in_or_app _ _ _ (or_introl (version_type_keys rt Hrt)))); auto.
  - intros m Hm. destruct (proj1 (Hin m) Hm) as [x' [q' [w' [r' [d' [s' [Hx' [Hw'' [Hc' [_ [Hb' [Hv' ->]]]]]]]]]]]]. cbn [rm_path].
    pose proof (versioned_place _ _ _ _ _ _ Hat Hx') as Hq. pose proof (single_at _ _ _ _ _ Hw'' Hq) as Hr'. split; [destruct s'; discriminate|].
    apply (at_path_indices _ _ (VStr "2008-10-17")). exact (branch_member_at _ _ _ _ _ _ _ Hw Hb' Hr' (assoc_In _ _ _ Hv')).
  - apply Hin. exists x, q, w, r, d, s. auto 10.
Qed.
