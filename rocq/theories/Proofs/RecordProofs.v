(** C77: what E3020 says about a record. *)
From Coq Require Import List String Ascii ZArith Lia.
From Verif.Model Require Import Base Helpers Conditions Search Resolve Rules Refs Relationship Parameters Functions PropertyRules Events SubProps Route53.
From Verif.Spec Require Import Paths Branches References Walk Values Permissions Nested Records.
From Verif.Proofs Require Import BaseFacts PermissionProofs ValueRun Says RecordTexts.
Import Verif.Model.Rules.
Import ListNotations.
Local Open Scope string_scope.

Lemma says_text (b : bool) (m0 : rulematch) (P : rulematch -> Prop) : (forall m, P m <-> b = false /\ m = m0) -> says (Ok (if b then [] else [m0])) P.
Proof. intros H. destruct b; [eapply says_ext; [apply says_none|] | eapply says_ext; [apply says_one|]]; intros m; rewrite H; intuition discriminate. Qed.
Lemma false_iff (b : bool) (P : Prop) : (b = true <-> P) -> (b = false <-> ~ P).
Proof. intros H. rewrite <- H. now destruct b; split; intuition. Qed.
(** * The settings of records *)
Lemma settings_split s a b c : three_settings s a b c -> split_twice s = [a; b; c].
Proof.
  intros [-> [Ha Hb]]. unfold split_twice. change (a ++ " " ++ b ++ " " ++ c) with (a ++ String " " (b ++ String " " c)). rewrite split_on_app by now apply without_iff. rewrite split_on_app by now apply without_iff.
  destruct (split_on_parts " " c) as [H1 [_ H2]]. destruct (split_on " " c) as [|x rest]; [easy|]. rewrite H2. now rewrite (concat_join " " (x :: rest)).
Qed.
Lemma two_split s a b : s = a ++ " " ++ b -> without " " a -> without " " b -> split_on " " s = [a; b].
Proof. intros -> Ha Hb. change (a ++ " " ++ b) with (a ++ String " " b). rewrite split_on_app by now apply without_iff. now rewrite split_on_nochar by now apply without_iff. Qed.
Lemma settings_cases s : (without " " s /\ split_twice s = [s]) \/ (exists a b, s = a ++ " " ++ b /\ without " " a /\ without " " b /\ split_twice s = [a; b]) \/ exists a b c, three_settings s a b c /\ split_twice s = [a; b; c].
Proof.
  unfold split_twice. destruct (split_on_parts " " s) as [H1 [H2 H3]]. destruct (split_on " " s) as [|a [|b [|c rest]]]; [easy| | |].
  - left. cbn [String.concat] in H3. subst a. split; [apply H2; now left | reflexivity].
  - right. left. exists a, b. split; [exact H3|]. split; [apply H2; now left|]. split; [apply H2; right; now left | reflexivity].
  - right. right. exists a, b, (join_str " " (c :: rest)). split; [|reflexivity]. split; [|split; apply H2; [now left | right; now left]]. rewrite H3. rewrite <- (concat_join " " (c :: rest)). reflexivity.
Qed.
Lemma starts_iff s : starts_quote s = true <-> exists t, s = quote ++ t.
Proof. destruct s as [|a s]; [split; [discriminate | intros [t [=]]]|]. cbn [starts_quote]. rewrite char_eqb_eq. split; [intros ->; now exists s | intros [t [= -> _]]; reflexivity]. Qed.
Lemma ends_iff s : ends_quote s = true <-> exists t, s = t ++ quote.
Proof. unfold ends_quote. destruct (cut_end """" s) as [t|] eqn:E; [apply cut_iff in E; split; eauto|]. rewrite cut_none in E. split; [discriminate|]. intros [t K]. now elim (E t). Qed.

Section Checks.
Variable ipv6 : string -> bool.
Definition faulty (ty : string) (v : val) (p : path) (m : rulematch) : Prop := exists s words, v = VStr s /\ record_fault ipv6 p ty s words /\ m = mkRM p words.
Lemma caa_says v p : says (check_caa v p) (faulty "CAA" v p).
Proof.
  unfold check_caa. destruct v as [| | | |s| |]; try (eapply says_ext; [apply says_none|]; intros m; split; [intros [] | intros [s' [w [E _]]]; discriminate E]).
  assert (F : forall m, faulty "CAA" (VStr s) p m <-> exists words, caa_fault s words /\ m = mkRM p words).
  { intros m. split; [intros [s' [w [[= <-] [H ->]]]]; inversion H; subst; eauto | intros [w [H ->]]; exists s, w; split; [reflexivity|]; split; [now constructor | reflexivity]]. }
  assert (U : forall a b c a' b' c', three_settings s a b c -> three_settings s a' b' c' -> a' = a /\ b' = b /\ c' = c).
  { intros a b c a' b' c' H H'. apply settings_split in H, H'. rewrite H in H'. now injection H' as -> -> ->. }
  assert (X1 : forall a b c, three_settings s a b c -> ~ without " " s).
  { intros a b c [-> _] K. apply K. rewrite chars_app. apply in_app_iff. right. now left. }
  destruct (settings_cases s) as [[H E]|[[a [b [H [Ha [Hb E]]]]]|[a [b [c [H E]]]]]]; rewrite E.
  - eapply says_ext; [apply says_one|]. intros m. rewrite F. split; [intros ->; exists ("CAA record must contain 3 settings (flags tag ""value""), record contains 1 settings."); split; [now apply cf_one | reflexivity]|].
    intros [w [Hf ->]]. destruct Hf as [_|a b K _ _|a b c K _|a b c z K _ _ _|a b c K _|a b c K _]; try (exfalso; now apply (X1 _ _ _ K)); [reflexivity|].
    exfalso. apply H. rewrite K, chars_app. apply in_app_iff. right. now left.
  - assert (X2 : forall a b c, ~ three_settings s a b c) by (intros a' b' c' K; apply settings_split in K; rewrite K in E; discriminate E).
    eapply says_ext; [apply says_one|]. intros m. rewrite F. split; [intros ->; exists ("CAA record must contain 3 settings (flags tag ""value""), record contains 2 settings."); split; [now apply (cf_two s a b) | reflexivity]|].
    intros [w [Hf ->]]. destruct Hf as [K|a' b' K _ _|a' b' c' K _|a' b' c' z' K _ _ _|a' b' c' K _|a' b' c' K _]; try (exfalso; now apply (X2 _ _ _ K)); [|reflexivity].
    exfalso. apply K. rewrite H, chars_app. apply in_app_iff. right. now left.
  - pose proof (tag_iff b) as Ht. pose proof (starts_iff c) as Hq1. pose proof (ends_iff c) as Hq2.
    eexists. split; [reflexivity|]. intros m. rewrite F, !in_app_iff. split.
    + intros [K|[K|K]].
      * destruct (is_number a) as [z|] eqn:Ez.
        -- destruct (Z.eqb_spec z 0) as [_|N0]; [destruct K|]. destruct (Z.eqb_spec z 128) as [_|N1]; [destruct K|]. destruct K as [<-|[]]. apply is_number_some in Ez. eexists. split; [eapply cf_other_flag; eassumption | reflexivity].
        -- destruct K as [<-|[]]. rewrite is_number_none in Ez. eexists. split; [eapply cf_flag; eassumption | reflexivity].
      * destruct (alphanumeric b); [destruct K|]. destruct K as [<-|[]]. eexists. split; [eapply cf_tag; [exact H|]|reflexivity]. intros L. apply Ht in L. discriminate L.
      * destruct (starts_quote c); [destruct (ends_quote c); [destruct K|]|]; (destruct K as [<-|[]]; eexists; split; [eapply cf_value; [exact H|]|reflexivity]).
        -- right. intros t Et. assert (false = true) by (apply Hq2; eauto). discriminate.
        -- left. intros t Et. assert (false = true) by (apply Hq1; eauto). discriminate.
    + intros [w [Hf ->]]. destruct Hf as [K|a' b' K K1 K2|a' b' c' K Hn|a' b' c' z K Hn N0 N1|a' b' c' K Hn|a' b' c' K Hn].
      * now elim (X1 _ _ _ H).
      * exfalso. apply settings_split in H. unfold split_twice in H. rewrite (two_split _ _ _ K K1 K2) in H. discriminate H.
      * destruct (U _ _ _ _ _ _ H K) as [-> [-> ->]]. left. rewrite <- is_number_none in Hn. rewrite Hn. now left.
      * destruct (U _ _ _ _ _ _ H K) as [-> [-> ->]]. left. apply is_number_some in Hn. rewrite Hn. destruct (Z.eqb_spec z 0); [contradiction|]. destruct (Z.eqb_spec z 128); [contradiction|]. now left.
      * destruct (U _ _ _ _ _ _ H K) as [-> [-> ->]]. right. left. destruct (alphanumeric b); [elim Hn; now apply Ht | now left].
      * destruct (U _ _ _ _ _ _ H K) as [-> [-> ->]]. right. right. destruct (starts_quote c) eqn:E1; [destruct (ends_quote c) eqn:E2|]; try (now left).
        destruct (proj1 Hq1 eq_refl) as [t1 Et1]. destruct (proj1 Hq2 eq_refl) as [t2 Et2]. destruct Hn as [Hn|Hn]; [now elim (Hn t1) | now elim (Hn t2)].
Qed.
Lemma mx_says v p : (forall s a b, v = VStr s -> s = a ++ " " ++ b -> without " " a -> without " " b -> lined host_text b \/ forall z, number a z -> (65535 < z)%Z) -> says (check_mx v p) (faulty "MX" v p).
Proof.
  intros Hok. unfold check_mx. destruct v as [| | | |s| |]; try (eapply says_ext; [apply says_none|]; intros m; split; [intros [] | intros [s' [w [E _]]]; discriminate E]).
  assert (F : forall m, faulty "MX" (VStr s) p m <-> exists words, mx_fault s words /\ m = mkRM p words).
  { intros m. split; [intros [s' [w [[= <-] [H ->]]]]; inversion H; subst; eauto | intros [w [H ->]]; exists s, w; split; [reflexivity|]; split; [now constructor | reflexivity]]. }
  destruct (split_on_parts " " s) as [H1 [H2 H3]].
  assert (Two : (exists a b, split_on " " s = [a; b] /\ s = a ++ " " ++ b /\ without " " a /\ without " " b) \/ List.length (split_on " " s) <> 2).
  { destruct (split_on " " s) as [|a [|b [|c l]]]; try (right; discriminate). left. exists a, b. split; [reflexivity|]. split; [exact H3|]. split; apply H2; [now left | right; now left]. }
  destruct Two as [[a [b [E [Es [Ha Hb]]]]]|Hl].
  - assert (U : forall a' b', s = a' ++ " " ++ b' -> without " " a' -> without " " b' -> a' = a /\ b' = b).
    { intros a' b' K K1 K2. pose proof (two_split _ _ _ K K1 K2) as K3. rewrite E in K3. now injection K3 as -> ->. }
    assert (C : forall l, l <> [] -> (forall x, In x l -> without " " x) -> s = String.concat " " l -> List.length l = 2).
    { intros l L1 L2 L3. rewrite <- (split_on_unique " " s l L1 L2 L3), E. reflexivity. }
    pose proof (host_iff b) as Hh. destruct (Hok s a b eq_refl Es Ha Hb) as [Hn|Hn].
    + rewrite E. apply Hh in Hn as Eh. rewrite Eh. destruct (is_number a) as [z|] eqn:Ez.
      * apply is_number_some in Ez. destruct (Z.leb_spec z 65535) as [Hz|Hz].
        -- eapply says_ext; [apply says_none|]. intros m. rewrite F. split; [intros []|]. intros [w [Hf _]].
           destruct Hf as [l L1 L2 L3 L4|a' b' K K1 K2 Kn|a' b' z' K K1 K2 Kn Kz|a' b' K K1 K2 Kn Kh|a' b' z' K K1 K2 Kn Kz Kh]; [now apply L4, C| | | |]; destruct (U _ _ K K1 K2) as [-> ->]; try contradiction.
           ++ now elim (Kn z).
           ++ pose proof (number_unique _ _ _ Ez Kn). subst z'. lia.
        -- eapply says_ext; [apply says_one|]. intros m. rewrite F. split; [intros ->; eexists; split; [eapply mf_large; eassumption | reflexivity]|]. intros [w [Hf ->]].
           destruct Hf as [l L1 L2 L3 L4|a' b' K K1 K2 Kn|a' b' z' K K1 K2 Kn Kz|a' b' K K1 K2 Kn Kh|a' b' z' K K1 K2 Kn Kz Kh]; [elim L4; now apply C| | | |]; destruct (U _ _ K K1 K2) as [-> ->]; try contradiction.
           ++ now elim (Kn z).
           ++ reflexivity.
      * rewrite is_number_none in Ez. eapply says_ext; [apply says_one|]. intros m. rewrite F. split; [intros ->; eexists; split; [eapply mf_priority; eassumption | reflexivity]|]. intros [w [Hf ->]].
        destruct Hf as [l L1 L2 L3 L4|a' b' K K1 K2 Kn|a' b' z' K K1 K2 Kn Kz|a' b' K K1 K2 Kn Kh|a' b' z' K K1 K2 Kn Kz Kh]; [elim L4; now apply C| | | |]; destruct (U _ _ K K1 K2) as [-> ->]; try contradiction.
        -- reflexivity.
        -- now elim (Ez z').
    + rewrite E. destruct (is_number a) as [z|] eqn:Ez.
      * apply is_number_some in Ez. destruct (Z.leb_spec z 65535) as [Hz|Hz]; [apply Hn in Ez; lia|]. destruct (host_matches b).
        -- eapply says_ext; [apply says_one|]. intros m. rewrite F. split; [intros ->; eexists; split; [eapply mf_large; eassumption | reflexivity]|]. intros [w [Hf ->]].
           destruct Hf as [l L1 L2 L3 L4|a' b' K K1 K2 Kn|a' b' z' K K1 K2 Kn Kz|a' b' K K1 K2 Kn Kh|a' b' z' K K1 K2 Kn Kz Kh]; [elim L4; now apply C| | | |]; destruct (U _ _ K K1 K2) as [-> ->]; try (elim Kh; now apply Hh); [now elim (Kn z) | reflexivity].
        -- assert (Nh : ~ lined host_text b) by (intros L; apply Hh in L; discriminate L). eexists. split; [reflexivity|]. intros m. rewrite F. cbn [app In]. split.
           ++ intros [<-|[<-|[]]]; eexists; (split; [|reflexivity]); [eapply mf_large | eapply mf_name_large]; eassumption.
           ++ intros [w [Hf ->]].
              destruct Hf as [l L1 L2 L3 L4|a' b' K K1 K2 Kn|a' b' z' K K1 K2 Kn Kz|a' b' K K1 K2 Kn Kh|a' b' z' K K1 K2 Kn Kz Kh]; [elim L4; now apply C| | | |]; destruct (U _ _ K K1 K2) as [-> ->]; try (now elim (Kn z)); auto.
      * rewrite is_number_none in Ez. destruct (host_matches b).
        -- eapply says_ext; [apply says_one|]. intros m. rewrite F. split; [intros ->; eexists; split; [eapply mf_priority; eassumption | reflexivity]|]. intros [w [Hf ->]].
           destruct Hf as [l L1 L2 L3 L4|a' b' K K1 K2 Kn|a' b' z' K K1 K2 Kn Kz|a' b' K K1 K2 Kn Kh|a' b' z' K K1 K2 Kn Kz Kh]; [elim L4; now apply C| | | |]; destruct (U _ _ K K1 K2) as [-> ->]; try (elim Kh; now apply Hh); [reflexivity | now elim (Ez z')].
        -- assert (Nh : ~ lined host_text b) by (intros L; apply Hh in L; discriminate L). eexists. split; [reflexivity|]. intros m. rewrite F. cbn [app In]. split.
           ++ intros [<-|[<-|[]]]; eexists; (split; [|reflexivity]); [eapply mf_priority | eapply mf_name_priority]; eassumption.
           ++ intros [w [Hf ->]].
              destruct Hf as [l L1 L2 L3 L4|a' b' K K1 K2 Kn|a' b' z' K K1 K2 Kn Kz|a' b' K K1 K2 Kn Kh|a' b' z' K K1 K2 Kn Kz Kh]; [elim L4; now apply C| | | |]; destruct (U _ _ K K1 K2) as [-> ->]; try (now elim (Ez z')); auto.
  - assert (G : says (Ok [mkRM p ("MX record must contain 2 settings (priority domainname), record contains " ++ str_of_Z (Z.of_nat (List.length (split_on " " s))) ++ " settings.")]) (faulty "MX" (VStr s) p)).
    { eapply says_ext; [apply says_one|]. intros m. rewrite F. split; [intros ->; eexists; split; [apply (mf_count s (split_on " " s)); assumption | reflexivity]|]. intros [w [Hf ->]].
      destruct Hf as [l L1 L2 L3 L4|a' b' K K1 K2 Kn|a' b' z' K K1 K2 Kn Kz|a' b' K K1 K2 Kn Kh|a' b' z' K K1 K2 Kn Kz Kh]; [now rewrite (split_on_unique " " s l L1 L2 L3)| | | |]; exfalso; apply Hl; now rewrite (two_split _ _ _ K K1 K2). }
    destruct (split_on " " s) as [|a [|b [|c l]]]; try exact G. now elim Hl.
Qed.
Lemma record_says ty f v p : record_check ipv6 ty = Some f ->
  (ty = "CNAME" \/ ty = "TXT" -> (exists s, v = VStr s) \/ exists e, v = VDict e) ->
  (ty = "MX" -> forall s a b, v = VStr s -> s = a ++ " " ++ b -> without " " a -> without " " b -> lined host_text b \/ forall z, number a z -> (65535 < z)%Z) ->
  says (f v p) (faulty ty v p).
Proof.
  intros Hc Ht Hm. apply assoc_In in Hc. cbn [In] in Hc.
  assert (T : forall matches what, says (check_text matches ty what v p) (fun m => exists s, v = VStr s /\ matches s = false /\ m = mkRM p (ty ++ " record (" ++ s ++ ") is not a valid " ++ what))).
  { intros matches what. unfold check_text. destruct v as [| | | |s| |]; try (eapply says_ext; [apply says_none|]; intros m; split; [intros [] | intros [s' [E _]]; discriminate E]).
    apply says_text. intros m. split; [intros [s' [[= <-] H]]; exact H | intros H; exists s; auto]. }
  assert (Z : forall w r, ~ (VDict w = VStr r)) by discriminate.
  destruct Hc as [E|[E|[E|[E|[E|[E|[E|[E|[]]]]]]]]]; injection E as <- <-.
  - eapply says_ext; [apply T|]. intros m. split; [intros [s [-> [H ->]]]; exists s; eexists; split; [reflexivity|]; split; [apply rf_a; apply (false_iff _ _ (ipv4_iff s)), H | reflexivity]|].
    intros [s [w [-> [H ->]]]]. inversion H; subst. exists s. split; [reflexivity|]. split; [now apply (false_iff _ _ (ipv4_iff s)) | reflexivity].
  - eapply says_ext; [apply T|]. intros m. split; [intros [s [-> [H ->]]]; exists s; eexists; split; [reflexivity|]; split; [now apply rf_aaaa | reflexivity]|].
    intros [s [w [-> [H ->]]]]. inversion H; subst. exists s. auto.
  - apply caa_says.
  - destruct (Ht (or_introl eq_refl)) as [[s ->]|[e ->]].
    + cbn [check_cname]. apply says_text. intros m. rewrite orb_false_iff, (false_iff _ _ (host_iff s)), (false_iff _ _ (validation_iff s)). split.
      * intros [s' [w [[= <-] [H ->]]]]. inversion H; subst. auto.
      * intros [[H1 H2] ->]. exists s. eexists. split; [reflexivity|]. split; [now apply rf_cname | reflexivity].
    + eapply says_ext; [apply says_none|]. intros m. split; [intros [] | intros [s [w [[=] _]]]].
  - apply mx_says. exact (Hm eq_refl).
  - eapply says_ext; [apply T|]. intros m. split; [intros [s [-> [H ->]]]; exists s; eexists; split; [reflexivity|]; split; [apply rf_ns; apply (false_iff _ _ (host_iff s)), H | reflexivity]|].
    intros [s [w [-> [H ->]]]]. inversion H; subst. exists s. split; [reflexivity|]. split; [now apply (false_iff _ _ (host_iff s)) | reflexivity].
  - eapply says_ext; [apply T|]. intros m. split; [intros [s [-> [H ->]]]; exists s; eexists; split; [reflexivity|]; split; [apply rf_ptr; apply (false_iff _ _ (host_iff s)), H | reflexivity]|].
    intros [s [w [-> [H ->]]]]. inversion H; subst. exists s. split; [reflexivity|]. split; [now apply (false_iff _ _ (host_iff s)) | reflexivity].
  - destruct (Ht (or_intror eq_refl)) as [[s ->]|[e ->]].
    + cbn [check_txt]. apply says_text. intros m. rewrite (false_iff _ _ (quoted_iff s)). split.
      * intros [s' [w [[= <-] [H ->]]]]. inversion H; subst. auto.
      * intros [H ->]. exists s. eexists. split; [reflexivity|]. split; [now apply rf_txt | reflexivity].
    + eapply says_ext; [apply says_none|]. intros m. split; [intros [] | intros [s [w [[=] _]]]].
Qed.
Lemma fault_known q ty s words : record_fault ipv6 q ty s words -> exists f, record_check ipv6 ty = Some f.
Proof. intros H. destruct H; eexists; reflexivity. Qed.
End Checks.
