(** Dynamic references in texts, and C60: secure references. *)
From Coq Require Import Lia.
From Verif.Model Require Import Base Locate Helpers Node Conditions Search Resolve Rules Refs Relationship Limits Parameters JsonDump PropertyRules Functions ValueRules.
From Verif.Spec Require Import Paths Branches Required Values.
From Verif.Proofs Require Import BaseFacts BranchProofs SearchProofs PropertyRuleProofs GroupProofs SizeProofs CidrProofs PlaceholderProofs ValueProofs PrimitiveProofs.
Import Verif.Model.Rules.
Import ListNotations.
Local Open Scope string_scope.

Lemma no_newline_iff s : no_newline s = true <-> ~ In newline_char (list_ascii_of_string s).
Proof.
  induction s as [|a s IH]; cbn [no_newline list_ascii_of_string]; [split; [intros _ [] | reflexivity]|].
  rewrite andb_true_iff, negb_true_iff, IH. split.
  - intros [H1 H2] [->|K]; [|contradiction]. discriminate H1.
  - intros H. split; [|intros K; apply H; now right]. apply not_true_iff_false. intros K. apply char_eqb_eq in K. subst a. apply H. now left.
Qed.
Lemma after_prefix_iff p s r : after_prefix p s = Some r <-> s = p ++ r.
Proof.
  revert s. induction p as [|a p IH]; intros s; cbn [after_prefix append].
  - split; [intros [= ->]; reflexivity | intros ->; now destruct r].
  - destruct s as [|b s]; [split; discriminate|]. destruct (char_eqb a b) eqn:E.
    + apply char_eqb_eq in E. subst b. rewrite IH. split; [intros ->; reflexivity | intros [= ->]; reflexivity].
    + split; [discriminate|]. intros [= -> _]. assert (char_eqb a a = true) by now apply char_eqb_eq. congruence.
Qed.
Definition all_of (f : ascii -> bool) (s : string) : Prop := forall a, In a (list_ascii_of_string s) -> f a = true.
Lemma skip_sound f s n r : skip_while f s = (n, r) -> exists a, s = a ++ r /\ String.length a = n /\ all_of f a.
Proof.
  revert n r. induction s as [|c s IH]; intros n r; cbn [skip_while].
  - intros [= <- <-]. exists "". repeat split. intros a [].
  - destruct (f c) eqn:E; [|intros [= <- <-]; exists ""; repeat split; intros a []].
    destruct (skip_while f s) as [n' r'] eqn:Es. cbn [fst snd]. intros [= <- <-]. destruct (IH n' r' eq_refl) as [a [-> [Hl Ha]]]. exists (String c a). split; [reflexivity|]. split; [cbn; now rewrite Hl|].
    intros x [<-|Hx]; auto.
Qed.
Lemma skip_complete f a b r : all_of f a -> f b = false -> skip_while f (a ++ String b r) = (String.length a, String b r).
Proof.
  induction a as [|c a IH]; intros Ha Hb; cbn [append skip_while String.length]; [now rewrite Hb|].
  rewrite (Ha c (or_introl eq_refl)), IH; [reflexivity | intros x Hx; apply Ha; now right | exact Hb].
Qed.
Lemma anywhere_iff test s : anywhere test s = true <-> exists b r, s = b ++ r /\ test r = true.
Proof.
  induction s as [|a s IH]; cbn [anywhere].
  - rewrite orb_false_r. split; [intros H; exists "", ""; auto|]. intros [b [r [E H]]]. destruct b; [|discriminate]. cbn in E. now subst r.
  - rewrite orb_true_iff, IH. split.
    + intros [H|[b [r [-> H]]]]; [exists "", (String a s); auto | exists (String a b), r; auto].
    + intros [b [r [E H]]]. destruct b as [|c b]; cbn in E; [subst r; now left|]. injection E as -> ->. right. eauto.
Qed.
Lemma one_line_iff test s : one_line test s = true <-> exists line, single_line s line /\ exists b r, line = b ++ r /\ test r = true.
Proof.
  unfold one_line. cbv zeta. rewrite andb_true_iff, no_newline_iff, anywhere_iff. unfold single_line. split.
  - intros [H1 H2]. exists (drop_last_newline s). split; [|exact H2]. split; [|exact H1]. destruct (drop_spec s) as [[t [E1 E2]]|[_ E2]]; rewrite E2; auto.
  - intros [line [[Hl Hn] H]]. assert (E : drop_last_newline s = line); [|rewrite E; auto].
    destruct (drop_spec s) as [[t [E1 E2]]|[K E2]]; rewrite E2.
    + destruct Hl as [->|Hl].
      * exfalso. apply Hn. rewrite E1. rewrite chars_app. apply in_or_app. right. now left.
      * rewrite E1 in Hl. clear -Hl. revert line Hl. induction t as [|a t IH]; intros [|b line] Hl; cbn in Hl; try reflexivity.
        -- injection Hl as _ Hl. destruct line; discriminate Hl.
        -- injection Hl as _ Hl. destruct t; discriminate Hl.
        -- injection Hl as -> Hl. f_equal. now apply IH.
    + destruct Hl as [->|Hl]; [reflexivity | now destruct (K line)].
Qed.
Lemma code_of (a : ascii) : a = ascii_of_nat (code a).
Proof. unfold code. symmetry. apply ascii_nat_embedding. Qed.
Lemma range_iff lo hi a : hi < 256 -> in_range lo hi a = true <-> exists n, lo <= n <= hi /\ a = ascii_of_nat n.
Proof.
  intros Hh. unfold in_range. rewrite andb_true_iff, !Nat.leb_le. split.
  - intros H. exists (code a). split; [lia | apply code_of].
  - intros [n [Hn ->]]. unfold code. rewrite nat_ascii_embedding by lia. lia.
Qed.
Lemma digit_letter_iff a : is_digit a = true <-> digit_letter a.
Proof. unfold is_digit. apply range_iff. lia. Qed.
Lemma name_letter_iff a : name_char a = true <-> name_letter a.
Proof.
  unfold name_char, name_letter, is_digit. rewrite !orb_true_iff, !range_iff, !char_eqb_eq by lia. cbn [In]. split.
  - intros [[[[[[[n H]|[n H]]|[n H]]|H]|H]|H]|H]; try (left; exists n; intuition lia); right; auto.
  - intros [[n [[H|[H|H]] E]]|[H|[H|[H|[H|[]]]]]]; [do 6 left; eauto|do 5 left; right; eauto|do 4 left; right; eauto|do 3 left; right; auto|do 2 left; right; auto|do 1 left; right; auto|right; auto].
Qed.
Lemma all_of_iff f P s : (forall a, f a = true <-> P a) -> (s <> "" /\ all_of f s <-> nonempty_of P s).
Proof. intros H. unfold nonempty_of, all_of. split; intros [H1 H2]; (split; [exact H1|]; intros a Ha; apply H; auto). Qed.
Lemma versioned_iff s : versioned s = true <-> exists name version after, s = name ++ ":" ++ version ++ "}}" ++ after /\ nonempty_of name_letter name /\ nonempty_of digit_letter version.
Proof.
  unfold versioned. split.
  - destruct (skip_while name_char s) as [n r] eqn:E1. destruct n as [|n]; [discriminate|]. destruct r as [|c s']; [discriminate|]. intros H. apply andb_prop in H as [Hc H]. apply char_eqb_eq in Hc. subst c.
    destruct (skip_while is_digit s') as [n' r'] eqn:E2. destruct n' as [|n']; [discriminate|]. destruct (after_prefix "}}" r') as [after|] eqn:E3; [|discriminate]. apply after_prefix_iff in E3. subst r'.
    apply skip_sound in E1 as [name [-> [L1 A1]]]. apply skip_sound in E2 as [version [-> [L2 A2]]]. exists name, version, after. split; [reflexivity|].
    split; [apply (all_of_iff _ _ _ name_letter_iff) | apply (all_of_iff _ _ _ digit_letter_iff)]; (split; [|assumption]).
    + intros ->. discriminate L1.
    + intros ->. discriminate L2.
  - intros [name [version [after [-> [H1 H2]]]]]. apply (all_of_iff _ _ _ name_letter_iff) in H1 as [N1 A1]. apply (all_of_iff _ _ _ digit_letter_iff) in H2 as [N2 A2].
    change (":" ++ version ++ "}}" ++ after) with (String ":" (version ++ String "}" (String "}" after))). rewrite (skip_complete name_char name ":" _ A1 eq_refl).
    destruct name as [|a name]; [congruence|]. cbn [String.length]. rewrite (skip_complete is_digit version "}" _ A2 eq_refl). destruct version as [|b version]; [congruence|]. reflexivity.
Qed.
Lemma behind_iff p test s : behind p test s = true <-> exists r, s = p ++ r /\ test r = true.
Proof.
  unfold behind. destruct (after_prefix p s) as [r|] eqn:E.
  - apply after_prefix_iff in E. split; [eauto|]. intros [r' [E' H]]. rewrite E in E'. apply after_prefix_iff in E'. assert (K : after_prefix p (p ++ r) = Some r) by now apply after_prefix_iff. congruence.
  - split; [discriminate|]. intros [r [E' _]]. apply after_prefix_iff in E'. congruence.
Qed.
Lemma versioned_reference_iff service s : one_line (behind ("{{resolve:" ++ service ++ ":") versioned) s = true <-> versioned_reference service s.
Proof.
  rewrite one_line_iff. unfold versioned_reference. split.
  - intros [line [Hl [b [r [E H]]]]]. apply behind_iff in H as [r' [-> H]]. apply versioned_iff in H as [name [version [after [-> [H1 H2]]]]]. exists line, b, name, version, after. split; [exact Hl|]. split; [|auto].
    rewrite E. now rewrite !str_app_assoc.
  - intros [line [b [name [version [after [Hl [E [H1 H2]]]]]]]]. exists line. split; [exact Hl|]. exists b, (("{{resolve:" ++ service ++ ":") ++ name ++ ":" ++ version ++ "}}" ++ after). split; [rewrite E; now rewrite !str_app_assoc|].
    apply behind_iff. eexists. split; [reflexivity|]. apply versioned_iff. eauto 10.
Qed.
Lemma dyn_ref_ssm_iff s : dyn_ref_ssm s = true <-> versioned_reference "ssm" s.
Proof. apply (versioned_reference_iff "ssm"). Qed.
Lemma dyn_ref_secure_iff s : dyn_ref_ssm_secure s = true <-> versioned_reference "ssm-secure" s.
Proof. apply (versioned_reference_iff "ssm-secure"). Qed.
Lemma dyn_ref_iff s : dyn_ref s = true <-> dynamic_reference s.
Proof.
  unfold dyn_ref, dynamic_reference. rewrite one_line_iff. split.
  - intros [line [Hl [b [r [E H]]]]]. apply behind_iff in H as [r' [-> H]]. destruct r' as [|a r']; [discriminate|]. apply contains_iff in H as [w [after ->]]. exists line, b, (String a w), after. split; [exact Hl|]. split; [exact E | discriminate].
  - intros [line [b [what [after [Hl [E Hw]]]]]]. exists line. split; [exact Hl|]. exists b, ("{{resolve:" ++ what ++ "}}" ++ after). split; [exact E|]. apply behind_iff. exists (what ++ "}}" ++ after). split; [reflexivity|].
    destruct what as [|a what]; [congruence|]. cbn [append]. apply contains_iff. exists what, after. reflexivity.
Qed.

(** * E1027 *)
Lemma in_table_secure t prop : in_table t prop secure_exceptions = true <-> In (t, prop) secure_places.
Proof.
  unfold in_table. split.
  - destruct (assoc t secure_exceptions) as [l|] eqn:E; [|discriminate]. apply assoc_In in E. intros H. apply smem_iff in H. cbn in E. decompose [or] E; clear E; try contradiction;
      match goal with K : (_, _) = (t, l) |- _ => injection K as <- <- end; destruct H as [<-|[]]; cbn; tauto.
  - intros H. cbn in H. decompose [or] H; clear H; try contradiction; match goal with K : (_, _) = (t, prop) |- _ => injection K as <- <- end; reflexivity.
Qed.
Lemma secure_text_in v p m : In m (secure_text v p) <-> exists s, v = VStr s /\ versioned_reference "ssm-secure" s /\ m = secure_match p.
Proof.
  unfold secure_text. destruct v as [| | | |s| |]; try (split; [intros [] | intros [s [[=] _]]]). destruct (dyn_ref_ssm_secure s) eqn:E.
  - apply dyn_ref_secure_iff in E. split; [intros [<-|[]]; eauto | intros [s' [_ [_ ->]]]; now left].
  - split; [intros [] | intros [s' [[= <-] [K _]]]]. apply dyn_ref_secure_iff in K. congruence.
Qed.
Lemma sub_is_call y : call_of (VDict [("Fn::Sub", y)]) "Fn::Sub" y.
Proof. split; [reflexivity|]. apply smem_iff. reflexivity. Qed.
Lemma c60_secure type props specs p :
  (forall prop x q, assoc prop props = Some x -> ~ alternative x (p ++ [PKey prop])%list VNull q) ->
  (forall prop x r, assoc prop props = Some x -> ~ single x (p ++ [PKey prop])%list (VDict [("Fn::Sub", VList [])]) r) ->
  exists ms, secure_check type (VDict props) specs p = Ok ms /\
    forall m, In m ms <-> exists prop x ps t w r s q, assoc prop props = Some x /\ assoc prop specs = Some ps /\ has_primitive ps t /\ ~ In (type, prop) secure_places /\
      single x (p ++ [PKey prop])%list w r /\ text_in ps w r s q /\ versioned_reference "ssm-secure" s /\
      m = mkRM q ("Dynamic Reference secure strings are not supported for this property at " ++ path_text q).
Proof.
  intros Hn He. unfold secure_check.
  destruct (per_primitive_values props specs p (fun prop ps t => secure_value (opt_eqb (ps_type ps) "Map")) [("Fn::Sub", secure_sub)] (fun prop => in_table type prop secure_exceptions) Hn) as [ms [E Hms]].
  { intros prop x ps t w r Hx Hs Ht _ Hw. split; [intros _; unfold secure_value; eauto|]. intros fn y h [-> Hf] Eh. cbn [assoc] in Eh. destruct (String.eqb fn "Fn::Sub") eqn:Ef; [|discriminate]. apply String.eqb_eq in Ef. subst fn. injection Eh as <-.
    destruct y as [| | | | |l|]; cbn [secure_sub]; eauto. destruct l as [|z l]; [now destruct (He prop x r Hx)|eauto]. }
  exists ms. split; [exact E|]. intros m. rewrite Hms. split.
  - intros [prop [x [ps [t [w [r [Hx [Hs [Ht [Hk [Hw Hh]]]]]]]]]]].
    assert (Hp : ~ In (type, prop) secure_places) by (rewrite <- in_table_secure; congruence).
    assert (K : exists s q, text_in ps w r s q /\ versioned_reference "ssm-secure" s /\ m = secure_match q).
    { destruct Hh as [[Hc [o [Eo Hm]]]|[fn [y [h [o [[-> Hf] [Eh [Eo Hm]]]]]]]].
      - unfold secure_value in Eo. injection Eo as <-. destruct (opt_eqb (ps_type ps) "Map") eqn:Em.
        + apply opt_eqb_some in Em. apply map_values_in in Hm as [d [k [y [-> [Hi [_ Hm]]]]]]. apply secure_text_in in Hm as [s [-> [Hv ->]]]. exists s, (r ++ [PKey k])%list. split; [now apply ti_member|]. auto.
        + apply secure_text_in in Hm as [s [-> [Hv ->]]]. exists s, r. split; [apply ti_value; rewrite <- opt_eqb_some; congruence|]. auto.
      - cbn [assoc] in Eh. destruct (String.eqb fn "Fn::Sub") eqn:Ef; [|discriminate]. apply String.eqb_eq in Ef. subst fn. injection Eh as <-.
        destruct y as [| | | |s|l|]; cbn [secure_sub] in Eo; try (injection Eo as <-; now destruct Hm).
        + injection Eo as <-. change (In m (secure_text (VStr s) (r ++ [PKey "Fn::Sub"])%list)) in Hm. apply secure_text_in in Hm as [s' [[= <-] [Hv ->]]]. exists s, (r ++ [PKey "Fn::Sub"])%list. split; [apply ti_sub|]. auto.
        + destruct l as [|z l]; [discriminate|]. injection Eo as <-. apply secure_text_in in Hm as [s' [-> [Hv ->]]]. rewrite <- app_assoc. exists s', (r ++ [PKey "Fn::Sub"; PIdx 0])%list. split; [apply ti_sub_list|]. auto. }
    destruct K as [s [q [K1 [K2 ->]]]]. exists prop, x, ps, t, w, r, s, q. auto 12.
  - intros [prop [x [ps [t [w [r [s [q [Hx [Hs [Ht [Hp [Hw [Hi [Hv ->]]]]]]]]]]]]]]]. exists prop, x, ps, t, w, r. split; [exact Hx|]. split; [exact Hs|]. split; [exact Ht|].
    split; [apply not_true_iff_false; rewrite in_table_secure; exact Hp|]. split; [exact Hw|]. inversion Hi; subst.
    + left. split; [intros [k [y [[=] _]]]|]. eexists. split; [reflexivity|]. assert (Em : opt_eqb (ps_type ps) "Map" = false) by (apply not_true_iff_false; rewrite opt_eqb_some; assumption). rewrite Em. apply secure_text_in. eauto.
    + left. split; [assumption|]. eexists. split; [reflexivity|]. match goal with K : ps_type ps = _ |- _ => apply opt_eqb_some in K; rewrite K end. apply map_values_in. exists d, k, (VStr s). split; [reflexivity|]. split; [assumption|]. split; [reflexivity|]. apply secure_text_in. eauto.
    + right. exists "Fn::Sub", (VStr s), secure_sub. eexists. split; [apply sub_is_call|]. split; [reflexivity|]. split; [reflexivity|]. apply secure_text_in. eauto.
    + right. exists "Fn::Sub", (VList (VStr s :: l)), secure_sub. eexists. split; [apply sub_is_call|]. split; [reflexivity|]. split; [reflexivity|]. apply secure_text_in. rewrite <- app_assoc. eauto.
Qed.
