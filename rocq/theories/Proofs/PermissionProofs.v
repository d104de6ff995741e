(** C72: actions of policies and references to roles. *)
From Coq Require Import List Ascii Lia.
From Verif.Model Require Import Base Locate Helpers Node Search Rules Refs Limits Parameters ConditionRules PropertyRules Iam.
From Verif.Spec Require Import Paths Branches References ConditionUse Required Walk Values Iam Permissions.
From Verif.Proofs Require Import BaseFacts RefProofs BranchProofs SearchProofs PropertyRuleProofs GroupProofs SizeProofs ValueProofs ValueWitness ParameterValueProofs ConditionUseProofs Says Places IamProofs.
Import Verif.Model.Rules.
Import ListNotations.
Local Open Scope string_scope.

(** * The services *)
Lemma add_present s acts m k : assoc k (add_service s acts m) <> None <-> k = s \/ assoc k m <> None.
Proof.
  induction m as [|[k' l] m IH]; cbn [add_service assoc].
  - destruct (String.eqb k s) eqn:E; [apply String.eqb_eq in E|apply String.eqb_neq in E]; intuition congruence.
  - destruct (String.eqb s k') eqn:Es; cbn [assoc]; destruct (String.eqb k k') eqn:E.
    + apply String.eqb_eq in E, Es. subst. split; [intros _; now left | discriminate].
    + apply String.eqb_eq in Es. apply String.eqb_neq in E. subst. intuition congruence.
    + split; [right; discriminate | discriminate].
    + rewrite IH. reflexivity.
Qed.
Definition holds (m : list (string * list string)) (k a : string) : Prop := exists l, assoc k m = Some l /\ In a l.
Lemma add_holds s acts m k a : holds (add_service s acts m) k a <-> (k = s /\ In a acts) \/ holds m k a.
Proof.
  unfold holds. induction m as [|[k' l] m IH]; cbn [add_service assoc].
  - destruct (String.eqb k s) eqn:E; [apply String.eqb_eq in E|apply String.eqb_neq in E]; split.
    + intros [l [[= <-] H]]. now left.
    + intros [[_ H]|[l [K _]]]; [eauto | discriminate K].
    + intros [l [K _]]. discriminate K.
    + intros [[K _]|[l [K _]]]; [congruence | discriminate K].
  - destruct (String.eqb s k') eqn:Es; cbn [assoc]; destruct (String.eqb k k') eqn:E.
    + apply String.eqb_eq in E, Es. subst. split.
      * intros [l' [[= <-] H]]. apply in_app_or in H as [H|H]; [right; eauto | now left].
      * intros [[_ H]|[l' [[= <-] H]]]; (eexists; split; [reflexivity|]; apply in_or_app; auto).
    + apply String.eqb_eq in Es. apply String.eqb_neq in E. subst. split; [intros H; now right | intros [[K _]|H]; [congruence | exact H]].
    + apply String.eqb_eq in E. apply String.eqb_neq in Es. subst. split; [intros H; now right | intros [[K _]|H]; [congruence | exact H]].
    + exact IH.
Qed.
Lemma load_present services : forall m k, assoc k (fold_left (fun m sa => add_service (lower (fst sa)) (map lower (snd sa)) m) services m) <> None <->
  (exists s l, In (s, l) services /\ lower s = k) \/ assoc k m <> None.
Proof.
  induction services as [|[s l] r IH]; intros m k; cbn [fold_left fst snd].
  - split; [now right | intros [[s [l [[] _]]]|H]; exact H].
  - rewrite IH, add_present. split.
    + intros [[s' [l' [Hi E]]]|[->|H]]; [left; exists s', l'; split; [now right | exact E] | left; exists s, l; split; [now left | reflexivity] | now right].
    + intros [[s' [l' [[[= <- <-]|Hi] E]]]|H]; [right; left; now symmetry | left; eauto | auto].
Qed.
Lemma load_holds services : forall m k a, holds (fold_left (fun m sa => add_service (lower (fst sa)) (map lower (snd sa)) m) services m) k a <->
  (exists s l b, In (s, l) services /\ lower s = k /\ In b l /\ lower b = a) \/ holds m k a.
Proof.
  induction services as [|[s l] r IH]; intros m k a; cbn [fold_left fst snd].
  - split; [now right | intros [[s [l [b [[] _]]]]|H]; exact H].
  - rewrite IH, add_holds. split.
    + intros [[s' [l' [b [Hi H]]]]|[[-> H]|H]]; [left; exists s', l', b; split; [now right | exact H] | | now right].
      left. apply in_map_iff in H as [b [E H]]. exists s, l, b. split; [now left | auto].
    + intros [[s' [l' [b [[E0|Hi] [E [Hb Hl]]]]]]|H]; [injection E0 as <- <-; right; left; split; [now symmetry|]; apply in_map_iff; eauto | left; exists s', l', b; auto | auto].
Qed.
Lemma service_absent services service : assoc (lower service) (load_service_map services) = None <-> ~ has_service services service.
Proof.
  pose proof (load_present services [] (lower service)) as H. unfold load_service_map, has_service. destruct (assoc (lower service) _) eqn:E.
  - split; [discriminate|]. intros K. exfalso. assert (A : Some l <> None) by discriminate. apply H in A as [A|A]; [auto | now apply A].
  - split; [|reflexivity]. intros _ K. assert (A : @None (list string) <> None) by (apply H; now left). now apply A.
Qed.
Lemma service_present services service acts : assoc (lower service) (load_service_map services) = Some acts -> has_service services service /\ forall a, In a acts <-> has_action services service a.
Proof.
  intros E. split.
  - pose proof (load_present services [] (lower service)) as H. unfold load_service_map in E. rewrite E in H. assert (A : Some acts <> None) by discriminate. apply H in A as [A|A]; [exact A | elim A; reflexivity].
  - intros a. pose proof (load_holds services [] (lower service) a) as H. unfold holds in H at 1. unfold load_service_map in E. rewrite E in H. unfold has_action. split.
    + intros Ha. destruct (proj1 H (ex_intro _ acts (conj eq_refl Ha))) as [A|[l [K _]]]; [exact A | discriminate K].
    + intros Ha. destruct (proj2 H (or_introl Ha)) as [l [[= <-] Hl]]. exact Hl.
Qed.

(** * Texts *)
Lemma without_iff c s : has_char c s = false <-> without c s.
Proof.
  unfold without. induction s as [|a s IH]; [split; [intros _ [] | reflexivity]|]. cbn [has_char list_ascii_of_string]. rewrite orb_false_iff, IH. unfold char_eqb. rewrite Ascii.eqb_neq. cbn [In]. tauto.
Qed.
Lemma first_char c s : has_char c s = true -> exists t rest, s = t ++ String c rest /\ without c t.
Proof.
  induction s as [|a s IH]; [discriminate|]. cbn [has_char]. destruct (char_eqb a c) eqn:E.
  - intros _. apply Ascii.eqb_eq in E. subst. exists "", s. split; [reflexivity | intros []].
  - cbn [orb]. intros H. destruct (IH H) as [t [rest [-> Ht]]]. exists (String a t), rest. split; [reflexivity|]. apply without_iff. cbn [has_char]. rewrite E. now apply without_iff.
Qed.
Lemma split_colon_some s a b : split_colon s = Some (a, b) <-> two_parts s a b.
Proof.
  unfold two_parts. revert a b. induction s as [|c s IH]; intros a b; cbn [split_colon].
  - split; [discriminate|]. intros [E _]. destruct a; discriminate E.
  - destruct (char_eqb c ":") eqn:Ec.
    + apply Ascii.eqb_eq in Ec. subst c. split.
      * intros [= <- <-]. split; [reflexivity | intros []].
      * intros [E Hn]. destruct a as [|c a]; [now injection E as <-|]. injection E as <- _. elim Hn. now left.
    + apply Ascii.eqb_neq in Ec. destruct (split_colon s) as [[x y]|] eqn:E.
      * split.
        -- intros [= <- <-]. destruct (proj1 (IH x y) eq_refl) as [-> Hn]. split; [reflexivity|]. intros [K|K]; [congruence | now apply Hn].
        -- intros [E' Hn]. destruct a as [|c' a]; [injection E' as K _; congruence|]. injection E' as <- E'. assert (K : Some (x, y) = Some (a, b)) by (apply IH; split; [exact E' | intros K; apply Hn; now right]). now injection K as -> ->.
      * split; [discriminate|]. intros [E' Hn]. destruct a as [|c' a]; [injection E' as K _; congruence|]. injection E' as <- E'. assert (K : None = Some (a, b)) by (apply IH; split; [exact E' | intros K; apply Hn; now right]). discriminate K.
Qed.
Lemma two_parts_same a s p s' p' : two_parts a s p -> two_parts a s' p' -> s = s' /\ p = p'.
Proof. intros H H'. apply split_colon_some in H, H'. rewrite H in H'. injection H' as -> ->. auto. Qed.
Lemma ends_star s : ends_with "*" s = true <-> exists before, s = before ++ "*".
Proof. apply ends_with_iff. Qed.
Lemma starts_star s : starts_with "*" s = true <-> exists after, s = "*" ++ after.
Proof. unfold starts_with. apply prefix_iff. Qed.
Lemma nth_first t rest : without "*" t -> nth_part 0 (t ++ "*" ++ rest) = t.
Proof. intros H. unfold nth_part. apply without_iff in H. change ("*" ++ rest) with (String "*" rest). now rewrite split_on_app. Qed.
Lemma nth_second t rest : without "*" t -> rest = "" \/ (exists more, rest = "*" ++ more) -> nth_part 1 ("*" ++ t ++ rest) = t.
Proof.
  intros H Hr. unfold nth_part. apply without_iff in H. change ("*" ++ t ++ rest) with ("" ++ String "*" (t ++ rest)). rewrite split_on_app by reflexivity. cbn [nth].
  destruct Hr as [->|[more ->]]; [rewrite append_nil_r, split_on_nochar by exact H; reflexivity|]. change ("*" ++ more) with (String "*" more). now rewrite split_on_app.
Qed.
Lemma second_part s : exists t rest, s = t ++ rest /\ without "*" t /\ (rest = "" \/ exists more, rest = "*" ++ more).
Proof.
  destruct (has_char "*" s) eqn:E.
  - destruct (first_char _ _ E) as [t [rest [-> H]]]. exists t, (String "*" rest). split; [reflexivity|]. split; [exact H|]. right. now exists rest.
  - exists s, "". split; [now rewrite append_nil_r|]. split; [now apply without_iff | now left].
Qed.
Section Known.
Variable services : list (string * list string).
Variables (service : string) (acts : list string).
Hypothesis Hacts : forall a, In a acts <-> has_action services service a.
Lemma occurs_in t : existsb (contains_text t) acts = true <-> exists a, has_action services service a /\ occurs t a.
Proof.
  rewrite existsb_exists. split; intros [a [Ha Ho]]; exists a; (split; [now apply Hacts|]); [now apply contains_text_iff in Ho | now apply contains_text_iff].
Qed.
Lemma known_iff perm : known_permission acts perm = true <-> accepted services service perm.
Proof.
  unfold known_permission, is_star. destruct (String.eqb perm "*") eqn:Es; [apply String.eqb_eq in Es; subst; split; [intros _; constructor | reflexivity]|]. apply String.eqb_neq in Es.
  destruct (ends_with "*" perm) eqn:Ee.
  - apply ends_star in Ee. rewrite occurs_in. split.
    + intros [a [Ha Ho]]. assert (Hc : has_char "*" perm = true) by (destruct Ee as [b ->]; rewrite has_char_app; apply orb_true_iff; now right).
      destruct (first_char _ _ Hc) as [t [rest [E Ht]]]. subst perm. change (String "*" rest) with ("*" ++ rest) in *. rewrite nth_first in Ho by exact Ht. exact (ac_prefix _ _ t rest a Ee Ht Ha Ho).
    + intros H. inversion H as [E|t rest a He Ht Ha Ho E|t rest a He Ht Hr Ha Ho E|s He Hs Ha E]; subst; try contradiction. exists a. split; [exact Ha|]. now rewrite nth_first.
  - assert (He0 : ~ exists before, perm = before ++ "*") by (intros K; apply ends_star in K; congruence). destruct (starts_with "*" perm) eqn:Est.
    + apply starts_star in Est. rewrite occurs_in. split.
      * intros [a [Ha Ho]]. destruct Est as [u ->]. destruct (second_part u) as [t [rest [-> [Ht Hr]]]]. rewrite nth_second in Ho by assumption. exact (ac_suffix _ _ t rest a He0 Ht Hr Ha Ho).
      * intros H. inversion H as [E|t rest a He Ht Ha Ho E|t rest a He Ht Hr Ha Ho E|s He Hs Ha E]; subst; try contradiction. exists a. split; [exact Ha|]. now rewrite nth_second.
    + assert (Hs0 : ~ exists after, perm = "*" ++ after) by (intros K; apply starts_star in K; congruence). rewrite smem_iff, Hacts. split; [now apply ac_action|].
      intros H. inversion H as [E|t rest a He Ht Ha Ho E|t rest a He Ht Hr Ha Ho E|s He Hs Ha E]; subst; try contradiction; [exfalso; apply Hs0; eauto | exact Ha].
Qed.
End Known.

(** * Actions and statements *)
Section Actions.
Variable services : list (string * list string).
Lemma permission_says p x : x = VStr "*" \/ (exists a service permission, x = VStr a /\ two_parts a service permission) ->
  says (check_permission (load_service_map services) p x) (fun m => exists a words, x = VStr a /\ action_fault services a words /\ m = mkRM p words).
Proof.
  intros Hx. assert (exists a, x = VStr a) as [a ->] by (destruct Hx as [->|[a [_ [_ [-> _]]]]]; eauto). cbn [check_permission]. unfold is_star.
  destruct (String.eqb a "*") eqn:Ea.
  - apply String.eqb_eq in Ea. subst a. eapply says_ext; [apply says_none|]. intros m. split; [intros []|]. intros [a [words [[= <-] [H _]]]]. destruct H; congruence.
  - apply String.eqb_neq in Ea. destruct Hx as [[= ->]|[a' [service [permission [[= <-] Ht]]]]]; [congruence|]. rewrite (proj2 (split_colon_some _ _ _) Ht).
    destruct (assoc (lower service) (load_service_map services)) as [acts|] eqn:E.
    + destruct (service_present _ _ _ E) as [Hs Hacts]. pose proof (known_iff _ _ _ Hacts (lower permission)) as Hk. destruct (known_permission acts (lower permission)).
      * eapply says_ext; [apply says_none|]. intros m. split; [intros []|]. intros [a' [words [[= <-] [H _]]]].
        destruct H as [s' p' _ H' Hn|s' p' _ H' _ Hn]; destruct (two_parts_same _ _ _ _ _ Ht H') as [<- <-]; [contradiction|]. apply Hn, Hk. reflexivity.
      * eapply says_ext; [apply says_one|]. intros m. cbn beta. split.
        -- intros ->. eexists. eexists. split; [reflexivity|]. split; [|reflexivity]. apply (af_permission services a service permission Ea Ht Hs). intros K. apply Hk in K. discriminate K.
        -- intros [a' [words [[= <-] [H ->]]]]. destruct H as [s' p' _ H' Hn|s' p' _ H' _ Hn]; destruct (two_parts_same _ _ _ _ _ Ht H') as [<- <-]; [contradiction | reflexivity].
    + apply service_absent in E. eapply says_ext; [apply says_one|]. intros m. cbn beta. split.
      * intros ->. eexists. eexists. split; [reflexivity|]. split; [|reflexivity]. exact (af_service services a service permission Ea Ht E).
      * intros [a' [words [[= <-] [H ->]]]]. destruct H as [s' p' _ H' Hn|s' p' _ H' Hs Hn]; destruct (two_parts_same _ _ _ _ _ Ht H') as [<- <-]; [reflexivity | contradiction].
Qed.
Lemma get_actions_says s : actions_shaped s -> says (get_actions (VDict s)) (names_action s).
Proof.
  intros [_ Hn]. unfold get_actions.
  apply (says_ext _ (fun x => ((exists t, assoc "Action" s = Some (VStr t) /\ x = VStr t) \/ (exists l, assoc "Action" s = Some (VList l) /\ In x l)) \/
    ((exists t, assoc "NotAction" s = Some (VStr t) /\ x = VStr t) \/ (exists l, assoc "NotAction" s = Some (VList l) /\ (exists l', assoc "Action" s = Some (VList l')) /\ In x l)))).
  - apply says_app.
    + unfold actions_of. cbn [py_member bind vget]. unfold mem_assoc. destruct (assoc "Action" s) as [v|] eqn:E.
      * cbn [bind]. destruct v as [|b0|z0|f0|t|l|d]; (eapply says_ext; [apply says_ok|]); intros x; cbn [In]; split; try contradiction; try (intros [[t' [K _]]|[l' [K _]]]; discriminate K).
        -- intros [<-|[]]. left. eauto.
        -- intros [[t' [[= <-] ->]]|[l' [K _]]]; [now left | discriminate K].
        -- intros H. right. eauto.
        -- intros [[t' [K _]]|[l' [[= <-] H]]]; [discriminate K | exact H].
      * eapply says_ext; [apply says_none|]. intros x. split; [intros [] | intros [[t' [K _]]|[l' [K _]]]; discriminate K].
    + unfold not_actions_of. cbn [py_member bind vget]. unfold mem_assoc. destruct (assoc "NotAction" s) as [v|] eqn:E.
      * cbn [bind]. destruct (Hn v eq_refl) as [[t ->]|Hl].
        -- eapply says_ext; [apply says_ok|]. intros x. cbn [In]. split; [intros [<-|[]]; left; eauto | intros [[t' [[= <-] ->]]|[l' [K _]]]; [now left | discriminate K]].
        -- destruct v as [| | | | |l|]; try discriminate Hl. cbn [bind iter_val].
           assert (Hcase : (exists l', assoc "Action" s = Some (VList l')) \/ match match assoc "Action" s with Some x => x | None => VNull end with VList _ => iter_val (VList l) | _ => Ok [] end = Ok []).
           { destruct (assoc "Action" s) as [[]|]; eauto. }
           destruct Hcase as [[l' El]|Hc].
           ++ rewrite El. eapply says_ext; [apply says_ok|]. intros x. cbn beta. split; [intros H; right; eauto | intros [[t' [K _]]|[l'' [[= <-] [_ H]]]]; [discriminate K | exact H]].
           ++ assert (Hno : (exists l', assoc "Action" s = Some (VList l')) -> l = []) by (intros [l' El]; rewrite El in Hc; now injection Hc).
              cbn [iter_val] in Hc. rewrite Hc. eapply says_ext; [apply says_none|]. intros x. split; [intros [] | intros [[t' [K _]]|[l'' [[= <-] [El H]]]]; [discriminate K | rewrite (Hno El) in H; destruct H]].
      * eapply says_ext; [apply says_none|]. intros x. split; [intros [] | intros [[t' [K _]]|[l' [K _]]]; discriminate K].
  - intros x. split.
    + intros [[[t [E ->]]|[l [E H]]]|[[t [E ->]]|[l [E [Hl H]]]]]; [now apply nm_text | eapply nm_item; eauto | now apply nm_not_text | eapply nm_not_item; eauto].
    + intros [t E|l y E H|t E|l y E Hl H]; eauto 10.
Qed.
Lemma statement_actions_says s p : actions_shaped s ->
  says (do acts <- statement_actions (VDict s); concat_res (check_permission (load_service_map services) p) acts)
    (fun m => exists a words, names_action s (VStr a) /\ action_fault services a words /\ m = mkRM p words).
Proof.
  intros Hs. cbn [statement_actions]. destruct (get_actions_says s Hs) as [acts [-> Hacts]]. cbn [bind]. eapply says_ext.
  - apply (says_concat _ _ (fun x m => exists a words, x = VStr a /\ action_fault services a words /\ m = mkRM p words)). intros x Hx. apply permission_says. apply Hs. now apply Hacts.
  - intros m. cbn beta. split.
    + intros [x [Hx [a [words [-> H]]]]]. exists a, words. split; [now apply Hacts | exact H].
    + intros [a [words [Ha H]]]. exists (VStr a). split; [now apply Hacts|]. eauto.
Qed.
(** A list among the statements: its members are looked at as if they were there. *)
Lemma inner_actions_says inner p : (forall y, In y inner -> is_dict y = true) -> (forall s, In (VDict s) inner -> actions_shaped s) ->
  says (do acts <- statement_actions (VList inner); concat_res (check_permission (load_service_map services) p) acts)
    (fun m => exists s a words, In (VDict s) inner /\ names_action s (VStr a) /\ action_fault services a words /\ m = mkRM p words).
Proof.
  intros Hd Hs. cbn [statement_actions].
  destruct (says_concat get_actions inner (fun y a => exists s, y = VDict s /\ names_action s a)) as [acts [-> Hacts]].
  { intros y Hy. pose proof (Hd y Hy) as K. destruct y as [| | | | | |s]; try discriminate K. eapply says_ext; [exact (get_actions_says s (Hs s Hy))|].
    intros a. cbn beta. split; [eauto | intros [s' [[= <-] H]]; exact H]. }
  cbn [bind]. eapply says_ext.
  - apply (says_concat _ _ (fun x m => exists a words, x = VStr a /\ action_fault services a words /\ m = mkRM p words)). intros x Hx. apply permission_says.
    apply Hacts in Hx as [y [Hy [s [-> H]]]]. now apply (Hs s Hy).
  - intros m. cbn beta. split.
    + intros [x [Hx [a [words [-> H]]]]]. apply Hacts in Hx as [y [Hy [s [-> Ha]]]]. exists s, a, words. auto.
    + intros [s [a [words [Hi [Ha H]]]]]. exists (VStr a). split; [apply Hacts; eauto|]. eauto.
Qed.
Lemma check_statements_says x q : (forall i s, statement_no x i s -> actions_shaped s) -> (forall l i inner y, x = VList l -> nth_error l i = Some (VList inner) -> In y inner -> is_dict y = true) ->
  says (check_statements (load_service_map services) x q) (fun m => exists i s a words, statement_no x i s /\ names_action s (VStr a) /\ action_fault services a words /\ m = mkRM (q ++ [PKey "Statement"; PIdx i])%list words).
Proof.
  intros Hs Hl. unfold check_statements. destruct x as [|b0|z0|f0|t|l|d].
  1,2,3,4,5: cbn; eapply says_ext; [apply says_none|]; intros m; split; [intros [] | intros [i [s [a [words [H _]]]]]; inversion H; subst; discriminate].
  - eapply says_ext.
    + apply (says_concat _ _ (fun jy m => exists s a words, (snd jy = VDict s \/ exists inner, snd jy = VList inner /\ In (VDict s) inner) /\ names_action s (VStr a) /\ action_fault services a words /\
        m = mkRM (q ++ [PKey "Statement"; PIdx (fst jy)])%list words)).
      intros [j y] Hj. apply in_enum in Hj. cbn [fst snd]. destruct y as [|b0|z0|f0|t|inner|s].
      1,2,3,4,5: cbn; eapply says_ext; [apply says_none|]; intros m; split; [intros [] | intros [s [a [words [[H|[inner [H _]]] _]]]]; discriminate H].
      * eapply says_ext; [apply (inner_actions_says inner); [intros y Hy; exact (Hl l j inner y eq_refl Hj Hy) | intros s Hi; apply (Hs j); eapply sn_inner; eauto]|].
        intros m. cbn beta. split; [intros [s [a [words [Hi H]]]]; exists s, a, words; eauto | intros [s [a [words [[K|[inner' [K Hi]]] Hw]]]]; [discriminate K | injection K as <-; exists s, a, words; auto]].
      * eapply says_ext; [apply (statement_actions_says s); apply (Hs j); eapply sn_item; eauto|]. intros m. cbn beta. split; [intros [a [words H]]; exists s, a, words; auto |].
        intros [s' [a [words [[K|[inner [K _]]] Hw]]]]; [injection K as <-; eauto | discriminate K].
    + intros m. cbn beta. split.
      * intros [[j y] [Hj [s [a [words [E H]]]]]]. cbn [fst snd] in *. apply in_enum in Hj. exists j, s, a, words. split; [|exact H].
        destruct E as [-> |[inner [-> Hi]]]; [eapply sn_item; eauto | eapply sn_inner; eauto].
      * intros [i [s [a [words [Hn H]]]]]. destruct Hn as [l' i s El Hi|l' i inner s El Hi Hin|s El]; [| |discriminate El]; injection El as <-.
        -- exists (i, VDict s). split; [now apply in_enum|]. exists s, a, words. auto.
        -- exists (i, VList inner). split; [now apply in_enum|]. exists s, a, words. split; [right; exists inner; auto | exact H].
  - destruct d as [|kv d].
    + cbn. eapply says_ext; [apply says_none|]. intros m. split; [intros []|]. intros [i [s [a [words [H [Ha _]]]]]]. inversion H as [l' i' s' El Hi|l' i' inner s' El Hi Hin|s' El]; subst; [discriminate El | discriminate El|]. injection El as <-. inversion Ha; discriminate.
    + set (s := kv :: d) in *. eapply says_ext; [apply says_concat|].
      * intros [j y] Hj. apply in_enum in Hj. destruct j as [|[|j]]; try discriminate Hj. injection Hj as <-. cbn [fst snd]. eapply says_ext; [apply (statement_actions_says s); apply (Hs 0); now apply sn_only|].
        intros m. instantiate (1 := fun _ m => exists a words, names_action s (VStr a) /\ action_fault services a words /\ m = mkRM (q ++ [PKey "Statement"; PIdx 0])%list words). reflexivity.
      * intros m. cbn beta. split.
        -- intros [_ [_ [a [words H]]]]. exists 0, s, a, words. split; [now apply sn_only | exact H].
        -- intros [i [s' [a [words [H H']]]]]. inversion H as [l' i' s'' El Hi|l' i' inner s'' El Hi Hin|s'' El]; subst; [discriminate El | discriminate El|]. injection El as <-. exists (0, VDict s). split; [now left|]. eauto.
Qed.
Lemma permission_document_says json w r : document_actions_shaped json w r ->
  says (check_permissions_document json (load_service_map services) w r) (fun m => exists shown words, permission_fault json services w r shown words /\ m = mkRM shown words).
Proof.
  intros Hs.
  assert (G : forall v, document json w v -> (forall s, w = VStr s -> json s <> None) -> says (permissions_document (load_service_map services) v r) (fun m => exists shown words, permission_fault json services w r shown words /\ m = mkRM shown words)).
  { intros v Hd Hj.
    assert (Hsame : forall v', document json w v' -> v' = v) by (intros v' Hd'; destruct Hd as [s v E|v E]; inversion Hd' as [s' v'' E'|v'' E']; subst; try congruence; exfalso; eapply E; reflexivity).
    destruct v as [|b0|z0|f0|t|l|d].
    1,2,3,4,5,6: cbn; eapply says_ext; [apply says_none|]; intros m; split; [intros [] | intros [shown [words [H _]]]; destruct H as [s E Ej|v' d q x i s a words Hd' Hk _ _ _ _ _]; [exact (Hj s E Ej) | rewrite (Hsame _ Hd') in Hk; discriminate Hk]].
    unfold permissions_document. eapply says_ext.
    - apply (says_concat _ _ (fun wq m => exists d' x i s a words, fst wq = VDict d' /\ assoc "Statement" d' = Some x /\ statement_no x i s /\ names_action s (VStr a) /\ action_fault services a words /\ m = mkRM (snd wq ++ [PKey "Statement"; PIdx i])%list words)).
      intros [w' q] Hi. apply filter_In in Hi as [Hi Hk]. cbn [fst snd] in *. apply items_safe_spec in Hi. destruct w' as [| | | | | |d']; try discriminate Hk. cbn [vget bind].
      destruct (assoc "Statement" d') as [x|] eqn:Ex.
      + destruct (Hs _ _ _ _ Hd eq_refl Hi Ex) as [H1 H2]. eapply says_ext; [exact (check_statements_says x q H1 H2)|]. intros m. cbn beta. split.
        * intros [i [s [a [words H]]]]. exists d', x, i, s, a, words. auto.
        * intros [d'' [x' [i [s [a [words [[= <-] [Ex' H]]]]]]]]. rewrite Ex in Ex'. injection Ex' as <-. eauto.
      + cbn. eapply says_ext; [apply says_none|]. intros m. split; [intros [] | intros [d'' [x' [i [s [a [words [[= <-] [Ex' H]]]]]]]]; congruence].
    - intros m. cbn beta. split.
      + intros [[w' q] [Hi [d' [x [i [s [a [words [E [Ex [Hn [Ha [Hf ->]]]]]]]]]]]]]. cbn [fst snd] in *. subst w'. apply filter_In in Hi as [Hi _]. apply items_safe_spec in Hi. eexists. eexists. split; [exact (pf_action json services w r _ d' q x i s a words Hd eq_refl Hi Ex Hn Ha Hf) | reflexivity].
      + intros [shown [words [H ->]]]. destruct H as [s E Ej|v' d' q x i s a words Hd' Hk Hb Hx Hn Ha Hf]; [elim (Hj s E Ej)|]. rewrite (Hsame _ Hd') in *. exists (VDict d', q). split; [apply filter_In; split; [now apply items_safe_spec | reflexivity]|].
        exists d', x, i, s, a, words. auto 10. }
  unfold check_permissions_document. destruct w as [|b0|z0|f0|s|l|dd]; try (apply G; [apply doc_value; discriminate | discriminate]).
  destruct (json s) as [v|] eqn:E; [apply G; [now apply doc_text | intros s' [= <-]; congruence]|]. eapply says_ext; [apply says_one|]. intros m. cbn beta. split.
  - intros ->. do 2 eexists. split; [exact (pf_text json services _ r s eq_refl E) | reflexivity].
  - intros [shown [words [H ->]]]. destruct H as [s' _ _|v' d' q x i s' a words Hd' _ _ _ _ _ _]; [reflexivity|]. inversion Hd' as [s'' v'' E' E''|v'' E' E'']; subst; [congruence | exfalso; eapply E'; reflexivity].
Qed.
End Actions.
Lemma permission_names_same k : In k permission_names <-> In k permission_document_names.
Proof. cbn. tauto. Qed.
Lemma c72_permissions json services props p : NoDup (keys props) -> permissions_shaped json props p ->
  exists ms, permission_check json (load_service_map services) (VDict props) p = Ok ms /\ forall m, In m ms <->
    exists x q w r shown words, document_at permission_document_names props p x q /\ single x q w r /\ ~ is_call w /\ permission_fault json services w r shown words /\ m = mkRM shown words.
Proof.
  intros Hd Hs. unfold permission_check. cbn [items_of bind].
  assert (N1 : forall x q, document_at permission_names props p x q -> document_at permission_document_names props p x q) by (intros x q; apply document_at_names; intros k; apply permission_names_same).
  assert (N2 : forall x q, document_at permission_document_names props p x q -> document_at permission_names props p x q) by (intros x q; apply document_at_names; intros k; apply permission_names_same).
  destruct (document_property_says permission_names (check_permissions_document json (load_service_map services))
    (fun w r m => exists shown words, permission_fault json services w r shown words /\ m = mkRM shown words) props p Hd) as [ms [E H]].
  - cbn. intuition discriminate.
  - intros x q Hx. exact (proj1 (Hs x q (N1 _ _ Hx))).
  - intros x q w r Hx Hw Hc. apply permission_document_says. exact (proj2 (Hs x q (N1 _ _ Hx)) w r Hw Hc).
  - exists ms. split; [exact E|]. intros m. rewrite H. split.
    + intros [x [q [w [r [Hx [Hw [Hc [shown [words [Hf ->]]]]]]]]]]. exists x, q, w, r, shown, words. auto 6.
    + intros [x [q [w [r [shown [words [Hx [Hw [Hc [Hf ->]]]]]]]]]]. exists x, q, w, r. split; [auto|]. split; [exact Hw|]. split; [exact Hc|]. eauto.
Qed.
Lemma indices_object t i s : erase t = VDict s -> indices_ok t [PIdx i].
Proof.
  intros E before j after c Eq L. destruct before as [|? [|? ?]]; try discriminate Eq. inversion L; subst. destruct c as [v| |m l|]; try exact I; cbn in E; [subst v; exact I | discriminate E | discriminate E].
Qed.
Lemma permission_place json services c w r shown words : wf (template c) -> r <> [] -> at_path r (template c) = Some w -> ~ is_call w -> permission_fault json services w r shown words ->
  shown <> [] /\ indices_ok (c_tmpl c) shown.
Proof.
  intros Hw Hne Hr Hc [s E Ej|v d q x i s a words' Hd Hk Hb Hx Hn Ha Hf].
  - split; [exact Hne | now apply (at_path_indices _ _ w)].
  - split; [destruct q; discriminate|]. destruct Hd as [t v E|v E].
    + destruct (branch_key_first _ _ _ _ Hb) as [l [El Hl]]. destruct (key_first_after q r l "Statement" [PIdx i] El Hl) as [l' [-> Hl']]. exact (indices_text c r t l' Hr Hl').
    + pose proof (branch_member_at _ _ _ _ _ _ _ Hw Hb Hr (assoc_In _ _ _ Hx)) as Hq. destruct Hn as [l i s El Hi|l i inner s El Hi _|s El]; subst x.
      * apply (at_path_indices _ _ (VDict s)). change [PKey "Statement"; PIdx i] with ([PKey "Statement"] ++ [PIdx i])%list. rewrite app_assoc. unfold template in Hq. rewrite at_path_app, Hq. cbn [at_path]. now rewrite Hi.
      * apply (at_path_indices _ _ (VList inner)). change [PKey "Statement"; PIdx i] with ([PKey "Statement"] ++ [PIdx i])%list. rewrite app_assoc. unfold template in Hq. rewrite at_path_app, Hq. cbn [at_path]. now rewrite Hi.
      * change [PKey "Statement"; PIdx 0] with ([PKey "Statement"] ++ [PIdx 0])%list. rewrite app_assoc. apply (indices_after _ _ _ _ Hq). intros t' Ht'. exact (indices_object t' 0 s Ht').
Qed.
Lemma permission_document_place t props p x q : at_path p t = Some (VDict props) -> document_at permission_document_names props p x q -> at_path q t = Some x.
Proof.
  intros Hp [k y _ Hx|l i o y Hl Hi Hx]; rewrite at_path_app, Hp; cbn [at_path]; [now rewrite Hx|]. rewrite Hl, Hi. now rewrite Hx.
Qed.
Lemma c72_permissions_run json services sp k c raw name rt attrs pd m0 d0 x q w r shown words :
  snd (coll_run sp k c) = Ok raw -> In (permission_rule json (load_service_map services)) (k_all k) -> enabled (k_set k) (permission_rule json (load_service_map services)) = true ->
  wf (template c) -> c_tmpl c = MDict m0 d0 -> resource_of (template c) name rt attrs -> assoc "Properties" attrs = Some (VDict pd) -> In rt permission_rule_types ->
  permissions_shaped json pd (props_path name) ->
  document_at permission_document_names pd (props_path name) x q -> single x q w r -> ~ is_call w -> permission_fault json services w r shown words ->
  exists f, locate_match c "W3037" (mkRM shown words) = Ok f /\ In f raw.
Proof.
  intros Hrun Hr He Hw Hc Hres Hp Hrt Hs Hx Hw' Hcall Hf. pose proof (resource_at c name rt attrs pd Hw Hres Hp) as Hat.
  assert (Hnd : NoDup (keys pd)) by (pose proof (at_path_wf _ _ _ Hw Hat) as H'; apply wf_dict in H' as [H' _]; exact H').
  destruct (c72_permissions json services pd (props_path name) Hnd Hs) as [ms [Hms Hin]].
  apply (reported_props_ok sp k c raw (permission_rule json (load_service_map services)) (fun _ _ props _ p => permission_check json (load_service_map services) props p) name rt attrs pd ms (mkRM shown words) m0 d0 Hrun Hr He eq_refl (in_or_app _ _ _ (or_introl Hrt))); auto.
  - intros m Hm. destruct (proj1 (Hin m) Hm) as [x' [q' [w' [r' [sh [wo [Hx' [Hw'' [Hc' [Hf' ->]]]]]]]]]]. cbn [rm_path].
    pose proof (permission_document_place _ _ _ _ _ Hat Hx') as Hq. pose proof (single_at _ _ _ _ _ Hw'' Hq) as Hr'.
    assert (Hne : r' <> []) by (apply single_below in Hw'' as [l ->]; destruct Hx'; discriminate).
    exact (permission_place json services c w' r' sh wo Hw Hne Hr' Hc' Hf').
  - apply Hin. exists x, q, w, r, shown, words. auto 6.
Qed.

(** * References to roles *)
Lemma eq_str_iff t x : eq_str t x = true <-> x = VStr t.
Proof. destruct x as [| | | |s| |]; cbn; split; try discriminate; [intros H; apply String.eqb_eq in H; now subst | intros [= ->]; apply String.eqb_refl]. Qed.
Lemma keys_filter_NoDup (f : string * val -> bool) d : NoDup (keys d) -> NoDup (keys (filter f d)).
Proof.
  induction d as [|kv d IH]; [auto|]. cbn [keys map filter]. intros H. inversion H as [|? ? Hn Hd]; subst. destruct (f kv); [|now apply IH]. cbn [keys map]. constructor; [|now apply IH].
  intros K. apply Hn. apply in_map_iff in K as [kv' [E K]]. apply filter_In in K as [K _]. apply in_map_iff. eauto.
Qed.
Lemma path_ref_says str_other t v p : wf t -> is_dict t = true -> is_list v = false -> is_dict v = false ->
  (forall n o x, v = VStr n -> defined_in "Resources" t n o -> assoc "Properties" o = Some x -> is_dict x = true) ->
  says (path_ref str_other t v p) (fun m => exists n x, v = VStr n /\ pathed t n x /\ m = mkRM p (path_words str_other x)).
Proof.
  intros Hw Ht Hl Hd Hp. unfold path_ref, get_parameters. destruct t as [| | | | | |top]; try discriminate Ht. cbn [vget_def bind].
  assert (Hnone : forall v', (forall n, v' <> VStr n) -> says (@Ok (list rulematch) []) (fun m => exists n x, v' = VStr n /\ pathed (VDict top) n x /\ m = mkRM p (path_words str_other x))).
  { intros v' Hn. eapply says_ext; [apply says_none|]. intros m. split; [intros [] | intros [n [x [E _]]]; elim (Hn n E)]. }
  destruct v as [|b0|z0|f0|n|l|d]; try discriminate Hl; try discriminate Hd; try (apply Hnone; discriminate).
  assert (Hnd : NoDup (keys (get_resources (VDict top)))).
  { unfold get_resources. cbn [vget_def]. destruct (assoc "Resources" top) as [rs|] eqn:Ers; [|constructor]. destruct rs as [| | | | | |rs]; try constructor.
    apply keys_filter_NoDup. apply wf_dict in Hw as [_ Hw]. apply assoc_In in Ers. apply Hw in Ers. now apply wf_dict in Ers as [Ers _]. }
  destruct (assoc n (get_resources (VDict top))) as [r|] eqn:Er.
  - assert (Hi : In (n, r) (get_resources (VDict top))) by (now apply assoc_In). apply (in_get_resources _ _ _ Hw) in Hi as [o [ty [-> [Ho [Hty Hn]]]]]. cbn [vget_def bind].
    destruct (assoc "Properties" o) as [pv|] eqn:Ep.
    + pose proof (Hp n o pv eq_refl Ho Ep) as Hk. destruct pv as [| | | | | |pd]; try discriminate Hk. cbn [vget bind]. eapply says_ext; [apply says_if|]. intros m. cbn beta. split.
      * intros [E ->]. apply andb_prop in E as [E1 E2]. destruct (assoc "Path" pd) as [x|] eqn:Ex; [|discriminate E1]. exists n, x. split; [reflexivity|]. split; [|reflexivity].
        exists o, ty, pd. repeat (split; [assumption|]). intros ->. discriminate E2.
      * intros [n' [x [[= <-] [[o' [ty' [pd' [Ho' [_ [_ [Ep' [Ex [Ht1 Ht2]]]]]]]]] ->]]]].
        assert (o' = o) as -> by (destruct Ho as [d1 [s1 [E1 [E2 E3]]]], Ho' as [d2 [s2 [F1 [F2 F3]]]]; congruence). rewrite Ep in Ep'. injection Ep' as <-. rewrite Ex. split; [|reflexivity].
        rewrite Ht1. cbn [andb]. apply negb_true_iff. apply not_true_is_false. rewrite eq_str_iff. exact Ht2.
    + cbn [vget bind assoc truthy andb]. eapply says_ext; [apply says_none|]. intros m. split; [intros []|]. intros [n' [x [[= <-] [[o' [ty' [pd' [Ho' [_ [_ [Ep' _]]]]]]] _]]]].
      assert (o' = o) as -> by (destruct Ho as [d1 [s1 [E1 [E2 E3]]]], Ho' as [d2 [s2 [F1 [F2 F3]]]]; congruence). congruence.
  - cbn [vget_def vget bind assoc truthy andb]. eapply says_ext; [apply says_none|]. intros m. split; [intros []|]. intros [n' [x [[= <-] [[o' [ty' [pd' [Ho' [Hty [Hn _]]]]]] _]]]].
    assert (Hi : In (n, VDict o') (get_resources (VDict top))) by (apply (in_get_resources _ _ _ Hw); exists o', ty'; auto). apply (assoc_NoDup _ _ _ Hnd) in Hi. congruence.
Qed.
Lemma c72_roles str_other t props p : wf t -> is_dict t = true -> role_refs_shaped t props p ->
  exists ms, path_check str_other t (VDict props) p = Ok ms /\ forall m, In m ms <->
    exists x n r y, assoc "ServiceRole" props = Some x /\ single x (p ++ [PKey "ServiceRole"])%list (VDict [("Ref", VStr n)]) r /\ pathed t n y /\ m = mkRM (r ++ [PKey "Ref"])%list (path_words str_other y).
Proof.
  intros Hw Ht Hs. unfold path_check. destruct (assoc "ServiceRole" props) as [x|] eqn:Ex.
  - destruct (Hs x Ex) as [Hn Hr].
    assert (Hcall : forall v, call_of (VDict [("Ref", v)]) "Ref" v) by (intros v; split; [reflexivity | apply smem_iff; reflexivity]).
    destruct (check_value_calls (fun _ _ => Ok []) [("Ref", path_ref str_other t)] props "ServiceRole" x p Ex Hn) as [o [Eo Hin]].
    + intros w r Hw'. split; [eauto|]. intros fn y h [-> Hfn] Eh. cbn [assoc] in Eh. destruct (String.eqb fn "Ref") eqn:E; [|discriminate Eh]. apply String.eqb_eq in E. subst fn. injection Eh as <-.
      destruct (Hr y r Hw') as [H1 [H2 H3]]. destruct (path_ref_says str_other t y (r ++ [PKey "Ref"])%list Hw Ht H1 H2 H3) as [o [Eo _]]. eauto.
    + exists o. split; [exact Eo|]. intros m. rewrite Hin. split.
      * intros [w [r [Hw' [[_ [o' [[= <-] []]]]|[fn [y [h [o' [[-> Hfn] [Eh [Eo' Hm]]]]]]]]]]]. cbn [assoc] in Eh. destruct (String.eqb fn "Ref") eqn:E; [|discriminate Eh]. apply String.eqb_eq in E. subst fn. injection Eh as <-.
        destruct (Hr y r Hw') as [H1 [H2 H3]]. destruct (path_ref_says str_other t y (r ++ [PKey "Ref"])%list Hw Ht H1 H2 H3) as [o1 [E1 Hin1]]. rewrite E1 in Eo'. injection Eo' as ->. apply Hin1 in Hm as [n [z [-> [Hz ->]]]].
        exists x, n, r, z. auto.
      * intros [x' [n [r [y [[= <-] [Hw' [Hy ->]]]]]]]. exists (VDict [("Ref", VStr n)]), r. split; [exact Hw'|]. right. exists "Ref", (VStr n), (path_ref str_other t).
        destruct (Hr _ r Hw') as [H1 [H2 H3]]. destruct (path_ref_says str_other t (VStr n) (r ++ [PKey "Ref"])%list Hw Ht H1 H2 H3) as [o1 [E1 Hin1]].
        exists o1. split; [apply Hcall|]. split; [reflexivity|]. split; [exact E1|]. apply Hin1. eauto.
  - rewrite check_value_absent by (intros d K; injection K as <-; exact Ex). exists []. split; [reflexivity|]. intros m. split; [intros [] | intros [x [n [r [y [K _]]]]]; discriminate K].
Qed.
Lemma c72_roles_run str_other sp k c raw name attrs pd m0 d0 x n r y :
  snd (coll_run sp k c) = Ok raw -> In (path_rule str_other) (k_all k) -> enabled (k_set k) (path_rule str_other) = true ->
  wf (template c) -> c_tmpl c = MDict m0 d0 -> resource_of (template c) name "AWS::CodeBuild::Project" attrs -> assoc "Properties" attrs = Some (VDict pd) ->
  role_refs_shaped (template c) pd (props_path name) -> assoc "ServiceRole" pd = Some x -> single x (props_path name ++ [PKey "ServiceRole"])%list (VDict [("Ref", VStr n)]) r -> pathed (template c) n y ->
  exists f, locate_match c "E3050" (mkRM (r ++ [PKey "Ref"])%list (path_words str_other y)) = Ok f /\ In f raw.
Proof.
  intros Hrun Hr He Hw Hc Hres Hp Hs Hx Hw' Hy. pose proof (resource_at c name _ attrs pd Hw Hres Hp) as Hat.
  assert (Ht : is_dict (template c) = true) by (unfold template; rewrite Hc; reflexivity).
  destruct (c72_roles str_other (template c) pd (props_path name) Hw Ht Hs) as [ms [Hms Hin]].
  apply (reported_props sp k c raw (path_rule str_other) (fun _ c props _ p => path_check str_other (template c) props p) name "AWS::CodeBuild::Project" attrs pd ms (mkRM (r ++ [PKey "Ref"])%list (path_words str_other y)) m0 d0 Hrun Hr He eq_refl (or_introl eq_refl)); auto.
  - intros m Hm. destruct (proj1 (Hin m) Hm) as [x' [n' [r' [y' [Hx' [Hs' [_ ->]]]]]]]. cbn [rm_path]. split; [destruct r'; discriminate|]. exists (VStr n').
    assert (Hq : at_path (props_path name ++ [PKey "ServiceRole"])%list (template c) = Some x') by (rewrite at_path_app, Hat; cbn [at_path]; now rewrite Hx').
    rewrite at_path_app, (single_at _ _ _ _ _ Hs' Hq). reflexivity.
  - apply Hin. exists x, n, r, y. auto.
Qed.
