(** C73: schedules and targets of event rules. *)
From Coq Require Import List Lia.
From Verif.Model Require Import Base Locate Helpers Node Search Rules PropertyRules Events.
From Verif.Spec Require Import Paths Branches Required Walk Values Permissions Events.
From Verif.Proofs Require Import BaseFacts SearchProofs BranchProofs ConditionUseProofs PropertyRuleProofs GroupProofs SizeProofs ValueProofs RefProofs Says Places IamProofs PermissionProofs ValueRun.
Import Verif.Model.Rules.
Import ListNotations.
Local Open Scope string_scope.

(** * Schedules *)
Lemma parts_split e l : parts e l <-> split_on " " e = l.
Proof.
  split.
  - intros [H1 [H2 H3]]. now apply split_on_unique.
  - intros <-. destruct (split_on_parts " " e) as [H1 [H2 H3]]. split; [exact H1 | split; [exact H2 | exact H3]].
Qed.
Lemma whole_iff s : all_digits s = true <-> whole s.
Proof.
  unfold all_digits, whole, nonempty_of. rewrite andb_true_iff, negb_true_iff, String.eqb_neq.
  assert (D : forall a, is_digit a = true <-> digit_letter a).
  { intros a. unfold is_digit, in_range, digit_letter. rewrite andb_true_iff, !PeanoNat.Nat.leb_le. split.
    - intros H. exists (code a). split; [exact H|]. symmetry. apply ascii_nat_embedding.
    - intros [n [H ->]]. unfold code. rewrite nat_ascii_embedding by lia. exact H. }
  assert (E : str_forall is_digit s = true <-> forall a, In a (list_ascii_of_string s) -> digit_letter a).
  { induction s as [|a s IH]; [split; [intros _ a [] | reflexivity]|]. cbn [str_forall list_ascii_of_string]. rewrite andb_true_iff, IH, D. split.
    - intros [H1 H2] b [<-|Hb]; auto.
    - intros H. split; [apply H; now left | intros b Hb; apply H; now right]. }
  now rewrite E.
Qed.
Lemma find_char_first c t rest : without c t -> find_char c (t ++ String c rest) = Some (String.length t).
Proof.
  intros H. apply without_iff in H. induction t as [|a t IH]; cbn [find_char append has_char] in *.
  - unfold char_eqb. now rewrite Ascii.eqb_refl.
  - apply orb_false_iff in H as [H1 H2]. rewrite H1, (IH H2). reflexivity.
Qed.
Lemma substring_skip t s n : String.substring (String.length t) n (t ++ s) = String.substring 0 n s.
Proof. induction t as [|a t IH]; [reflexivity|]. exact IH. Qed.
Lemma substring_take t s : String.substring 0 (String.length t) (t ++ s) = t.
Proof. induction t as [|a t IH]; [destruct s; reflexivity|]. cbn. now rewrite IH. Qed.
Lemma length_app s t : String.length (s ++ t) = String.length s + String.length t.
Proof. induction s as [|a s IH]; [reflexivity|]. cbn. now rewrite IH. Qed.
Lemma within_call fn e rest : without "(" fn -> without ")" fn -> without ")" e -> within_parens (fn ++ "(" ++ e ++ ")" ++ rest) = e.
Proof.
  intros H1 H2 H3. unfold within_parens. cbn [append]. rewrite (find_char_first "(" fn _ H1).
  change (fn ++ String "(" (e ++ String ")" rest)) with (fn ++ (String "(" e) ++ String ")" rest). rewrite <- append_assoc.
  rewrite (find_char_first ")" (fn ++ String "(" e) rest).
  - rewrite length_app. cbn [String.length]. replace (String.length fn + S (String.length e) - S (String.length fn)) with (String.length e) by lia.
    rewrite append_assoc. cbn [append]. change (fn ++ String "(" (e ++ String ")" rest)) with (fn ++ (String "(" "") ++ e ++ String ")" rest). rewrite <- append_assoc.
    replace (S (String.length fn)) with (String.length (fn ++ "(")) by (rewrite length_app; cbn; lia). rewrite substring_skip. apply substring_take.
  - apply without_iff. apply without_iff in H2, H3. rewrite has_char_app, H2. cbn [has_char]. exact H3.
Qed.
Lemma call_text_iff fn s : without "(" fn -> without ")" fn ->
  (starts_with (fn ++ "(") s && ends_with ")" s = true <-> exists e, call_text fn s e) /\ (forall e, call_text fn s e -> within_parens s = e).
Proof.
  intros H1 H2. split.
  - rewrite andb_true_iff, ends_with_iff. unfold starts_with. rewrite prefix_iff. split.
    + intros [[r Er] Hs]. assert (Hc : has_char ")" r = true).
      { destruct Hs as [b Eb]. destruct (has_char ")" r) eqn:E; [reflexivity|]. exfalso. assert (K : has_char ")" s = true) by (rewrite Eb, has_char_app; cbn; now rewrite orb_true_r).
        apply without_iff in H2. rewrite Er, has_char_app, has_char_app, H2, E in K. discriminate K. }
      apply first_char in Hc as [e [rest [-> He]]]. exists e. split; [exact He|]. exists rest. split; [rewrite Er, append_assoc; reflexivity | exact Hs].
    + intros [e [_ [rest [E Hs]]]]. split; [|exact Hs]. exists (e ++ ")" ++ rest). rewrite E, append_assoc. reflexivity.
  - intros e [He [rest [-> _]]]. now apply within_call.
Qed.
Lemma two_cases {A} (l : list A) : (exists a b, l = [a; b]) \/ List.length l <> 2.
Proof. destruct l as [|a [|b [|c l]]]; [now right | now right | left; eauto | right; discriminate]. Qed.
Lemma six_cases {A} (l : list A) : (exists a b c d e f, l = [a; b; c; d; e; f]) \/ List.length l <> 6.
Proof. destruct l as [|a [|b [|c [|d [|e [|f [|g l]]]]]]]; try (right; discriminate). left. do 6 eexists. reflexivity. Qed.
Lemma rate_first s e : call_text "rate" s e -> forall e', ~ call_text "cron" s e'.
Proof. intros [_ [r [-> _]]] e' [_ [r' [E _]]]. discriminate E. Qed.
Lemma cons_at {A} (x y : A) : (In x [y] <-> x = y).
Proof. split; [intros [<-|[]]; reflexivity | intros ->; now left]. Qed.
Lemma call_text_unique fn s e e' : without "(" fn -> without ")" fn -> call_text fn s e -> call_text fn s e' -> e = e'.
Proof. intros H1 H2 H H'. rewrite <- (proj2 (call_text_iff fn s H1 H2) e H). now apply (call_text_iff fn s H1 H2). Qed.
Lemma rate_says s e p m : call_text "rate" s e -> (In m (check_rate s p) <-> exists words, schedule_fault s words /\ m = mkRM p words).
Proof.
  assert (N1 : without "(" "rate") by (apply without_iff; reflexivity). assert (N2 : without ")" "rate") by (apply without_iff; reflexivity).
  intros He. assert (U : forall e', call_text "rate" s e' -> e' = e) by (intros e' H; now apply (call_text_unique "rate" s)).
  unfold check_rate. rewrite (proj2 (call_text_iff "rate" s N1 N2) e He).
  assert (X : forall words, schedule_fault s words -> (e = "" /\ words = "Rate value of ScheduleExpression cannot be empty") \/
    (exists l, e <> "" /\ parts e l /\ List.length l <> 2 /\ words = "Rate expression must contain 2 elements (Value Unit), rate contains " ++ count_text l ++ " elements") \/
    (exists a b, parts e [a; b] /\ ~ whole a /\ words = "Rate Value (" ++ a ++ ") should be of type Integer.")).
  { intros words H. inversion H as [K|e' l K H1 H2 H3|e' a b K H1 H2|K|e' l K|e' a b c d f g K|K K']; subst.
    - left. split; [symmetry; now apply U | reflexivity].
    - apply U in K. subst. right. left. exists l. auto.
    - apply U in K. subst. right. right. exists a, b. auto.
    - elim (rate_first _ _ He _ K).
    - elim (rate_first _ _ He _ K).
    - elim (rate_first _ _ He _ K).
    - elim (K _ He). }
  destruct (String.eqb e "") eqn:Ee.
  - apply String.eqb_eq in Ee. subst e. rewrite cons_at. split.
    + intros ->. eexists. split; [apply sc_rate_empty, He | reflexivity].
    + intros [words [H ->]]. apply X in H as [[_ ->]|[[l [H _]]|[a [b [H _]]]]]; [reflexivity | congruence|]. apply parts_split in H. discriminate H.
  - apply String.eqb_neq in Ee. destruct (two_cases (split_on " " e)) as [[a [b El]]|El].
    + rewrite El. destruct (all_digits a) eqn:Ed.
      * split; [intros [] | intros [words [H ->]]]. apply X in H as [[H _]|[[l [_ [H [Hl _]]]]|[a' [b' [H [Hn _]]]]]]; [congruence| |].
        -- apply parts_split in H. rewrite H in El. subst l. elim Hl. reflexivity.
        -- apply parts_split in H. rewrite H in El. injection El as -> ->. elim Hn. now apply whole_iff.
      * rewrite cons_at. assert (Hn : ~ whole a) by (intros K; apply whole_iff in K; congruence). split.
        -- intros ->. eexists. split; [apply (sc_rate_value s e a b He); [now apply parts_split | exact Hn] | reflexivity].
        -- intros [words [H ->]]. apply X in H as [[H _]|[[l [_ [H [Hl _]]]]|[a' [b' [H [_ ->]]]]]]; [congruence| |]; apply parts_split in H; rewrite H in El; [subst l; now elim Hl | now injection El as -> ->].
    + assert (Es : (match split_on " " e with [value; _] => if all_digits value then [] else [mkRM p ("Rate Value (" ++ value ++ ") should be of type Integer.")]
        | items => [mkRM p ("Rate expression must contain 2 elements (Value Unit), rate contains " ++ str_of_Z (Z.of_nat (List.length items)) ++ " elements")] end) =
        [mkRM p ("Rate expression must contain 2 elements (Value Unit), rate contains " ++ count_text (split_on " " e) ++ " elements")]).
      { unfold count_text. destruct (split_on " " e) as [|a [|b [|c l]]]; try reflexivity. now elim El. }
      rewrite Es. rewrite cons_at. split.
      * intros ->. eexists. split; [apply (sc_rate_parts s e (split_on " " e) He Ee); [now apply parts_split | exact El] | reflexivity].
      * intros [words [H ->]]. apply X in H as [[H _]|[[l [_ [H [Hl ->]]]]|[a' [b' [H [_ ->]]]]]]; [congruence| |]; apply parts_split in H; rewrite H in El |- *; [reflexivity | now elim El].
Qed.
Lemma cron_says s e p m : call_text "cron" s e -> (In m (check_cron s p) <-> exists words, schedule_fault s words /\ m = mkRM p words).
Proof.
  assert (N1 : without "(" "cron") by (apply without_iff; reflexivity). assert (N2 : without ")" "cron") by (apply without_iff; reflexivity).
  intros He. assert (U : forall e', call_text "cron" s e' -> e' = e) by (intros e' H; now apply (call_text_unique "cron" s)).
  assert (R : forall e', ~ call_text "rate" s e') by (intros e' H; exact (rate_first _ _ H _ He)).
  unfold check_cron. rewrite (proj2 (call_text_iff "cron" s N1 N2) e He).
  assert (X : forall words, schedule_fault s words -> (e = "" /\ words = "Cron value of ScheduleExpression cannot be empty") \/
    (exists l, e <> "" /\ parts e l /\ List.length l <> 6 /\
      words = "Cron expression must contain 6 elements (Minutes Hours Day-of-month Month Day-of-week Year), cron contains " ++ count_text l ++ " elements") \/
    (exists a b dm c dw d, parts e [a; b; dm; c; dw; d] /\ dm <> "?" /\ dw <> "?" /\ words = "Don't specify the Day-of-month and Day-of-week fields in the same cron expression")).
  { intros words H. inversion H as [K|e' l K|e' a b K|K|e' l K H1 H2 H3|e' a b dm c dw d K H1 H2 H3|K K']; subst; try (elim (R _ K)).
    - left. split; [symmetry; now apply U | reflexivity].
    - apply U in K. subst. right. left. exists l. auto.
    - apply U in K. subst. right. right. exists a, b, dm, c, dw, d. auto.
    - elim (K' _ He). }
  destruct (String.eqb e "") eqn:Ee.
  - apply String.eqb_eq in Ee. subst e. rewrite cons_at. split.
    + intros ->. eexists. split; [apply sc_cron_empty, He | reflexivity].
    + intros [words [H ->]]. apply X in H as [[_ ->]|[[l [H _]]|[a [b [dm [c [dw [d [H _]]]]]]]]]; [reflexivity | congruence|]. apply parts_split in H. discriminate H.
  - apply String.eqb_neq in Ee. destruct (six_cases (split_on " " e)) as [[a [b [dm [c [dw [d El]]]]]]|El].
    + rewrite El. destruct (negb (String.eqb dm "?") && negb (String.eqb dw "?")) eqn:Ed.
      * rewrite cons_at. apply andb_prop in Ed as [E1 E2]. apply negb_true_iff, String.eqb_neq in E1. apply negb_true_iff, String.eqb_neq in E2. split.
        -- intros ->. eexists. split; [apply (sc_cron_days s e a b dm c dw d He); [now apply parts_split | exact E1 | exact E2] | reflexivity].
        -- intros [words [H ->]]. apply X in H as [[H _]|[[l [_ [H [Hl _]]]]|[a' [b' [dm' [c' [dw' [d' [H [_ [_ ->]]]]]]]]]]]; [congruence| |reflexivity]. apply parts_split in H. rewrite H in El. subst l. now elim Hl.
      * split; [intros [] | intros [words [H ->]]]. apply X in H as [[H _]|[[l [_ [H [Hl _]]]]|[a' [b' [dm' [c' [dw' [d' [H [K1 [K2 _]]]]]]]]]]]; [congruence| |].
        -- apply parts_split in H. rewrite H in El. subst l. now elim Hl.
        -- apply parts_split in H. rewrite H in El. injection El as -> -> -> -> -> ->. apply String.eqb_neq in K1, K2. rewrite K1, K2 in Ed. discriminate Ed.
    + assert (Es : (match split_on " " e with [_; _; day_of_month; _; day_of_week; _] =>
           if negb (String.eqb day_of_month "?") && negb (String.eqb day_of_week "?")
           then [mkRM p "Don't specify the Day-of-month and Day-of-week fields in the same cron expression"] else []
        | items => [mkRM p ("Cron expression must contain 6 elements (Minutes Hours Day-of-month Month Day-of-week Year), cron contains " ++ str_of_Z (Z.of_nat (List.length items)) ++ " elements")] end) =
        [mkRM p ("Cron expression must contain 6 elements (Minutes Hours Day-of-month Month Day-of-week Year), cron contains " ++ count_text (split_on " " e) ++ " elements")]).
      { unfold count_text. destruct (split_on " " e) as [|a [|b [|c [|d [|f [|g [|h l]]]]]]]; try reflexivity. now elim El. }
      rewrite Es. rewrite cons_at. split.
      * intros ->. eexists. split; [apply (sc_cron_parts s e (split_on " " e) He Ee); [now apply parts_split | exact El] | reflexivity].
      * intros [words [H ->]]. apply X in H as [[H _]|[[l [_ [H [Hl ->]]]]|[a' [b' [dm' [c' [dw' [d' [H [_ [_ ->]]]]]]]]]]]; [congruence| |]; apply parts_split in H; rewrite H in El |- *; [reflexivity | now elim El].
Qed.
Lemma schedule_says s p : says (schedule_value (VStr s) p) (fun m => exists words, schedule_fault s words /\ m = mkRM p words).
Proof.
  assert (N1 : without "(" "rate") by (apply without_iff; reflexivity). assert (N2 : without ")" "rate") by (apply without_iff; reflexivity).
  assert (N3 : without "(" "cron") by (apply without_iff; reflexivity). assert (N4 : without ")" "cron") by (apply without_iff; reflexivity).
  unfold schedule_value. destruct (call_text_iff "rate" s N1 N2) as [HR _]. destruct (call_text_iff "cron" s N3 N4) as [HC _]. cbn [append] in HR, HC.
  destruct (starts_with "rate(" s && ends_with ")" s) eqn:E1; [|destruct (starts_with "cron(" s && ends_with ")" s) eqn:E2].
  - destruct (proj1 HR eq_refl) as [e He]. eexists. split; [reflexivity|]. intros m. now apply (rate_says s e).
  - destruct (proj1 HC eq_refl) as [e He]. eexists. split; [reflexivity|]. intros m. now apply (cron_says s e).
  - assert (A : forall e, ~ call_text "rate" s e) by (intros e He; enough (false = true) by discriminate; apply HR; eauto).
    assert (B : forall e, ~ call_text "cron" s e) by (intros e He; enough (false = true) by discriminate; apply HC; eauto).
    eapply says_ext; [apply says_one|]. intros m. cbn beta. split.
    + intros ->. eexists. split; [now apply sc_other | reflexivity].
    + intros [words [H ->]]. inversion H as [K|e' l K|e' a b K|K|e' l K|e' a b dm c dw d K|K K']; subst; try (elim (A _ K)); try (elim (B _ K)). reflexivity.
Qed.
Lemma c73_schedule props p : texts_given props p "ScheduleExpression" ->
  exists ms, schedule_check (VDict props) p = Ok ms /\ forall m, In m ms <->
    exists x s r words, assoc "ScheduleExpression" props = Some x /\ single x (p ++ [PKey "ScheduleExpression"])%list (VStr s) r /\ schedule_fault s words /\ m = mkRM r words.
Proof.
  intros H. destruct (value_says schedule_value "ScheduleExpression" props p (fun w r m => exists s words, w = VStr s /\ schedule_fault s words /\ m = mkRM r words)) as [ms [Hms Hin]].
  - intros x Hx. destruct (H x Hx) as [Hn Hs]. split; [exact Hn|]. intros w r Hw Hc. destruct (Hs w r Hw Hc) as [s ->]. eapply says_ext; [apply schedule_says|]. intros m. cbn beta. split.
    + intros [words K]. exists s, words. auto.
    + intros [s' [words [[= <-] K]]]. eauto.
  - exists ms. split; [exact Hms|]. intros m. rewrite Hin. split.
    + intros [x [w [r [Hx [Hw [_ [s [words [-> K]]]]]]]]]. exists x, s, r, words. tauto.
    + intros [x [s [r [words [Hx [Hw [K ->]]]]]]]. exists x, (VStr s), r. split; [exact Hx|]. split; [exact Hw|]. split; [intros [fn [y [[=] _]]]|]. eauto.
Qed.
Lemma c73_schedule_run sp k c raw name attrs pd m0 d0 x s r words :
  snd (coll_run sp k c) = Ok raw -> In schedule_rule (k_all k) -> enabled (k_set k) schedule_rule = true ->
  wf (template c) -> c_tmpl c = MDict m0 d0 -> resource_of (template c) name "AWS::Events::Rule" attrs -> assoc "Properties" attrs = Some (VDict pd) ->
  texts_given pd (props_path name) "ScheduleExpression" -> assoc "ScheduleExpression" pd = Some x ->
  single x (props_path name ++ [PKey "ScheduleExpression"])%list (VStr s) r -> schedule_fault s words ->
  exists f, locate_match c "E3027" (mkRM r words) = Ok f /\ In f raw.
Proof.
  intros Hrun Hr He Hw Hc Hres Hp Hs Hx Hsing Hf.
  apply (value_run sp k c raw schedule_rule schedule_value "ScheduleExpression" name "AWS::Events::Rule" attrs pd m0 d0 (fun w r m => exists s words, w = VStr s /\ schedule_fault s words /\ m = mkRM r words) x (VStr s) r); auto.
  - now left.
  - intros x' Hx'. destruct (Hs x' Hx') as [Hn Ht]. split; [exact Hn|]. intros w q Hw' Hc'. destruct (Ht w q Hw' Hc') as [s' ->]. eapply says_ext; [apply schedule_says|]. intros m. cbn beta. split.
    + intros [words' K]. exists s', words'. auto.
    + intros [s2 [words' [[= <-] K]]]. eauto.
  - intros w q m [s' [words' [_ [_ ->]]]]. reflexivity.
  - intros [fn [y [[=] _]]].
  - exists s, words. auto.
Qed.
