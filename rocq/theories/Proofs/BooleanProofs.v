(** C36. *)
From Coq Require Import Lia.
From Verif.Model Require Import Base Helpers.
From Verif.Spec Require Import Booleans.
From Verif.Proofs Require Import BaseFacts.

Lemma lower_char_cases a c : lower_char a = c -> is_upper c = false -> a = c \/ (is_lower c = true /\ a = upper_char c).
Proof.
  intros H Hc. unfold lower_char in H. destruct (is_upper a) eqn:E; [|left; congruence]. right.
  unfold is_upper, is_lower, upper_char, in_range in *. apply andb_true_iff in E as [E1 E2].
  apply Nat.leb_le in E1, E2. subst c. unfold code in *.
  rewrite nat_ascii_embedding by lia.
  assert (H1 : (Nat.leb 97 (nat_of_ascii a + 32) && Nat.leb (nat_of_ascii a + 32) 122) = true).
  { apply andb_true_iff. split; apply Nat.leb_le; lia. }
  split; [exact H1|]. unfold is_lower, in_range, code. rewrite nat_ascii_embedding by lia. rewrite H1.
  replace (nat_of_ascii a + 32 - 32) with (nat_of_ascii a) by lia. now rewrite ascii_nat_embedding.
Qed.
Lemma lower_letter a c : is_upper c = false -> is_lower c = true -> (lower_char a = c <-> a = c \/ a = upper_char c).
Proof.
  intros H1 H2. split.
  - intros H. destruct (lower_char_cases a c H H1) as [|[_ ?]]; auto.
  - intros [->| ->].
    + unfold lower_char. now rewrite H1.
    + unfold upper_char. rewrite H2. unfold lower_char. unfold is_lower, in_range in H2. apply andb_true_iff in H2 as [E1 E2].
      apply Nat.leb_le in E1, E2. assert (Hc : is_upper (ascii_of_nat (code c - 32)) = true).
      { unfold is_upper, in_range, code in *. rewrite nat_ascii_embedding by lia.
        apply andb_true_iff; split; apply Nat.leb_le; lia. }
      rewrite Hc. unfold code in *. rewrite nat_ascii_embedding by lia.
      replace (nat_of_ascii c - 32 + 32) with (nat_of_ascii c) by lia. apply ascii_nat_embedding.
Qed.
Lemma lower_true_iff s : lower s = "true" <-> spells_true s.
Proof.
  unfold spells_true. split.
  - intros H. destruct s as [|a [|b [|c [|d [|e s]]]]]; try discriminate H. cbn [lower map_str] in H.
    injection H as H1 H2 H3 H4. exists a, b, c, d. split; [reflexivity|].
    apply lower_letter in H1, H2, H3, H4; try reflexivity. auto.
  - intros [a [b [c [d [-> [H1 [H2 [H3 H4]]]]]]]]. cbn [lower map_str].
    apply (lower_letter a "t") in H1; try reflexivity. apply (lower_letter b "r") in H2; try reflexivity.
    apply (lower_letter c "u") in H3; try reflexivity. apply (lower_letter d "e") in H4; try reflexivity. congruence.
Qed.
Lemma lower_not_True s : lower s <> "True".
Proof.
  intros H. destruct s as [|a s]; [discriminate|]. cbn [lower map_str] in H. injection H as H _.
  unfold lower_char in H. destruct (is_upper a) eqn:E.
  - unfold is_upper, in_range in E. apply andb_true_iff in E as [E1 E2]. apply Nat.leb_le in E1, E2.
    assert (Hx : nat_of_ascii "T" = 84) by reflexivity. rewrite <- H in Hx. unfold code in *.
    rewrite nat_ascii_embedding in Hx by lia. lia.
  - subst a. discriminate.
Qed.
Lemma str_to_bool_true s : str_to_bool (VStr s) = VBool true <-> spells_true s.
Proof.
  cbn [str_to_bool]. rewrite <- lower_true_iff. cbn. destruct (String.eqb_spec (lower s) "true") as [H|H]; [split; auto|].
  destruct (String.eqb_spec (lower s) "True") as [H2|H2]; [now apply lower_not_True in H2|]. cbn. split; [discriminate | congruence].
Qed.

Lemma c36_bool a b : bool_compare (VBool a) (VBool b) = true <-> a = b.
Proof. cbn. split; [apply eqb_prop | intros ->; apply eqb_reflx]. Qed.
Lemma c36_string s b : bool_compare (VStr s) (VBool b) = true <-> (spells_true s <-> b = true).
Proof.
  assert (H := str_to_bool_true s). unfold bool_compare. cbn [str_to_bool] in *.
  destruct (smem (lower s) ["true"; "True"]); rewrite eqb_true_iff.
  - assert (Hs : spells_true s) by now apply H. split; [intros <-; tauto | intros [G _]; symmetry; now apply G].
  - assert (Hs : ~ spells_true s) by (intros G; apply H in G; discriminate). destruct b; split; try congruence.
    + intros [_ G]. exfalso. now apply Hs, G.
    + intros _. split; [contradiction | discriminate].
Qed.
Lemma c36_other v b : is_bool v = false -> is_str v = false -> bool_compare v (VBool b) = false.
Proof. destruct v; try discriminate; reflexivity. Qed.
