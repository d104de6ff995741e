(** C77: the texts of records. *)
From Coq Require Import List String Ascii ZArith Lia.
From Verif.Model Require Import Base Helpers Conditions Search Resolve Rules Refs Relationship Parameters Functions PropertyRules Events SubProps Route53.
From Verif.Spec Require Import Paths Branches References Walk Values Permissions Nested Records.
From Verif.Proofs Require Import BaseFacts ConditionUseProofs PermissionProofs CidrProofs DynRefProofs DeviceProofs ValueRun AliasProofs EventProofs.
Import Verif.Model.Rules.
Import ListNotations.
Local Open Scope string_scope.

Lemma drop_iff (f : string -> bool) (P : string -> Prop) s : (forall t, f t = true <-> P t) -> (forall t, ~ P (t ++ String newline_char "")) -> f (drop_last_newline s) = true <-> lined P s.
Proof.
  intros Hf Hn. unfold lined. destruct (drop_spec s) as [[t [E ->]]|[H ->]]; rewrite Hf.
  - subst s. split; [intros Hp; right; exists t; split; [reflexivity | exact Hp]|]. intros [K|[t' [E K]]]; [now elim (Hn t)|]. apply append_newline_inj in E. congruence.
  - split; [now left|]. intros [K|[t [E _]]]; [exact K | now elim (H t)].
Qed.
Lemma every_iff (f : ascii -> bool) (P : ascii -> Prop) s : (forall a, f a = true <-> P a) -> str_forall f s = true <-> every P s.
Proof.
  intros Hf. unfold every. induction s as [|a s IH]; [split; [intros _ a [] | reflexivity]|]. cbn [str_forall list_ascii_of_string]. rewrite andb_true_iff, IH, Hf. split.
  - intros [H1 H2] b [<-|Hb]; auto.
  - intros H. split; [apply H; now left | intros b Hb; apply H; now right].
Qed.
Lemma chars_app a b : list_ascii_of_string (a ++ b) = (list_ascii_of_string a ++ list_ascii_of_string b)%list.
Proof. induction a as [|x a IH]; [reflexivity|]. cbn [append list_ascii_of_string app]. now rewrite IH. Qed.
Lemma every_app P a b : every P (a ++ b) <-> every P a /\ every P b.
Proof. unfold every. rewrite chars_app. split; [intros H; split; intros c Hc; apply H, in_app_iff; auto | intros [H1 H2] c Hc; apply in_app_iff in Hc as [Hc|Hc]; auto]. Qed.
Lemma every_newline P t : ~ P newline_char -> ~ every P (t ++ String newline_char "").
Proof. intros Hn H. apply every_app in H as [_ H]. apply Hn, H. now left. Qed.
Lemma range_code lo hi a : in_range lo hi a = true <-> lo <= nat_of_ascii a <= hi.
Proof. unfold in_range, code. rewrite andb_true_iff, !Nat.leb_le. reflexivity. Qed.

(** * Host names *)
Lemma host_iff s : host_matches s = true <-> lined host_text s.
Proof.
  unfold host_matches. apply (drop_iff (fun t => negb (String.eqb t "") && str_forall (in_range 33 126) t)).
  - intros t. unfold host_text. rewrite andb_true_iff, negb_true_iff, String.eqb_neq. rewrite (every_iff _ _ _ (range_code 33 126)). reflexivity.
  - intros t [_ H]. revert H. apply every_newline. cbn. lia.
Qed.
Lemma tag_iff s : alphanumeric s = true <-> lined (every letter_or_digit) s.
Proof.
  unfold alphanumeric. apply (drop_iff (str_forall is_alnum)).
  - intros t. apply every_iff. intros a. unfold is_alnum, is_upper, is_lower, is_digit, letter_or_digit. rewrite !orb_true_iff, !range_code. tauto.
  - intros t. apply every_newline. unfold letter_or_digit. cbn. lia.
Qed.
Lemma cut_iff e s : forall t, cut_end e s = Some t <-> s = t ++ e.
Proof.
  induction s as [|a s IH]; intros t; cbn [cut_end].
  - destruct (String.eqb_spec "" e) as [<-|Hn].
    + rewrite append_nil_r. split; congruence.
    + split; [discriminate|]. intros E. destruct t; [cbn in E; congruence | discriminate].
  - destruct (String.eqb_spec (String a s) e) as [<-|Hn].
    + split; [intros [= <-]; reflexivity|]. intros E. destruct t as [|b t]; [reflexivity|]. exfalso. apply (f_equal String.length) in E. cbn [append String.length] in E. rewrite length_app in E. cbn [String.length] in E. lia.
    + destruct (cut_end e s) as [u|] eqn:Eu; cbn [option_map].
      * split; [intros [= <-]; cbn [append]; f_equal; now apply IH|]. intros E. destruct t as [|b t]; cbn [append] in E; [congruence|]. injection E as -> E. apply IH in E. congruence.
      * split; [discriminate|]. intros E. destruct t as [|b t]; cbn [append] in E; [congruence|]. injection E as -> E. apply IH in E. discriminate.
Qed.
Lemma cut_none e s : cut_end e s = None <-> forall t, s <> t ++ e.
Proof. destruct (cut_end e s) as [t|] eqn:E; [split; [discriminate|]; intros H; apply cut_iff in E; now elim (H t) | split; [|reflexivity]]. intros _ t K. apply cut_iff in K. congruence. Qed.
Lemma ends_snoc_neq s a t b : a <> b -> s ++ String a "" <> t ++ String b "".
Proof.
  intros Hn. revert t. induction s as [|c s IH]; intros [|d t] E; cbn [append] in E.
  - injection E as E. contradiction.
  - destruct t; discriminate.
  - destruct s; discriminate.
  - injection E as -> E. exact (IH t E).
Qed.
Lemma validation_iff s : validation_matches s = true <-> lined validation_text s.
Proof.
  unfold validation_matches. apply (drop_iff (fun t => let u := match cut_end "." t with Some u => u | None => t end in match cut_end ".acm-validations.aws" u with Some v => negb (has_char newline v) | None => false end)).
  - intros t. cbv zeta. unfold validation_text. destruct (cut_end "." t) as [u|] eqn:Eu.
    + apply cut_iff in Eu. subst t. destruct (cut_end ".acm-validations.aws" u) as [v|] eqn:Ev.
      * apply cut_iff in Ev. subst u. rewrite negb_true_iff, without_iff. split; [intros H; exists v; split; [exact H|]; right; now rewrite append_assoc|].
        intros [w [Hw [E|E]]].
        -- exfalso. change (w ++ ".acm-validations.aws") with (w ++ (".acm-validations.aw" ++ "s")) in E. rewrite <- (append_assoc w) in E. exact (ends_snoc_neq _ "." _ "s" ltac:(discriminate) E).
        -- rewrite append_assoc in E. apply append_cancel_r in E. now subst w.
      * split; [discriminate|]. intros [w [Hw [E|E]]]; exfalso.
        -- change (w ++ ".acm-validations.aws") with (w ++ (".acm-validations.aw" ++ "s")) in E. rewrite <- (append_assoc w) in E. exact (ends_snoc_neq _ "." _ "s" ltac:(discriminate) E).
        -- change (w ++ ".acm-validations.aws.") with (w ++ (".acm-validations.aws" ++ ".")) in E. rewrite <- (append_assoc w) in E. apply append_cancel_r in E. rewrite cut_none in Ev. exact (Ev w E).
    + destruct (cut_end ".acm-validations.aws" t) as [v|] eqn:Ev.
      * apply cut_iff in Ev. subst t. rewrite negb_true_iff, without_iff. split; [intros H; exists v; split; [exact H|]; now left|]. intros [w [Hw [E|E]]].
        -- apply append_cancel_r in E. now subst w.
        -- exfalso. rewrite cut_none in Eu. apply (Eu (w ++ ".acm-validations.aws")). rewrite E. change ".acm-validations.aws." with (".acm-validations.aws" ++ "."). now rewrite <- (append_assoc w).
      * split; [discriminate|]. intros [w [Hw [E|E]]]; exfalso.
        -- rewrite cut_none in Ev. exact (Ev w E).
        -- rewrite cut_none in Eu. apply (Eu (w ++ ".acm-validations.aws")). rewrite E. change ".acm-validations.aws." with (".acm-validations.aws" ++ "."). now rewrite <- (append_assoc w).
  - intros t [w [Hw [E|E]]].
    + change (w ++ ".acm-validations.aws") with (w ++ (".acm-validations.aw" ++ "s")) in E. rewrite <- (append_assoc w) in E. exact (ends_snoc_neq _ newline_char _ "s" ltac:(discriminate) E).
    + change (w ++ ".acm-validations.aws.") with (w ++ (".acm-validations.aws" ++ ".")) in E. rewrite <- (append_assoc w) in E. exact (ends_snoc_neq _ newline_char _ "." ltac:(discriminate) E).
Qed.

(** * Numbers *)
Lemma parse_snoc s : forall c acc, parse_digits (s ++ String c "") acc = match parse_digits s acc with Some z => if is_digit c then Some (z * 10 + Z.of_nat (code c - 48))%Z else None | None => None end.
Proof. induction s as [|a s IH]; intros c acc; cbn [append parse_digits]; [reflexivity|]. destruct (is_digit a); [apply IH | reflexivity]. Qed.
Lemma digit_of_is n : n < 10 -> is_digit (digit_of n) = true /\ code (digit_of n) - 48 = n.
Proof. intros H. unfold digit_of, is_digit, in_range, code. rewrite nat_ascii_embedding by lia. split; [|lia]. apply andb_true_iff. rewrite !Nat.leb_le. lia. Qed.
Lemma is_digit_of c : is_digit c = true -> exists n, n < 10 /\ c = digit_of n.
Proof. unfold is_digit. rewrite range_code. intros H. exists (nat_of_ascii c - 48). split; [lia|]. unfold digit_of. replace (48 + (nat_of_ascii c - 48)) with (nat_of_ascii c) by lia. symmetry. apply ascii_nat_embedding. Qed.
Lemma snoc_ind (P : string -> Prop) : P "" -> (forall s a, P s -> P (s ++ String a "")) -> forall s, P s.
Proof.
  intros H0 H1 s. remember (String.length s) as n eqn:E. revert s E. induction n as [|n IH]; intros s E; [destruct s; [exact H0 | discriminate]|].
  assert (K : exists t a, s = t ++ String a "").
  { clear -E. revert n E. induction s as [|b s IH]; intros n E; [discriminate|]. destruct s as [|c s]; [exists "", b; reflexivity|]. destruct n as [|n]; [discriminate|]. destruct (IH n) as [t [a Ea]]; [injection E as E; now rewrite E|]. exists (String b t), a. cbn [append]. now rewrite Ea. }
  destruct K as [t [a ->]]. apply H1, IH. rewrite length_app in E. cbn in E. lia.
Qed.
Lemma number_parse s z : number s z <-> s <> "" /\ parse_digits s 0 = Some z.
Proof.
  split.
  - induction 1 as [n Hn|s z n H [IH1 IH2] Hn]; destruct (digit_of_is n Hn) as [D1 D2].
    + split; [discriminate|]. cbn [parse_digits]. rewrite D1, D2. reflexivity.
    + split; [destruct s; discriminate|]. rewrite parse_snoc, IH2, D1, D2. f_equal. lia.
  - revert z. pattern s. apply snoc_ind; clear s; [intros z [H _]; now elim H|]. intros s c IH z [_ E]. rewrite parse_snoc in E. destruct (parse_digits s 0) as [y|] eqn:Ey; [|discriminate]. destruct (is_digit c) eqn:Ec; [|discriminate]. injection E as <-.
    apply is_digit_of in Ec as [n [Hn ->]]. destruct (digit_of_is n Hn) as [_ D2]. rewrite D2. destruct s as [|a s]; [injection Ey as <-; now constructor|].
    replace (y * 10 + Z.of_nat n)%Z with (10 * y + Z.of_nat n)%Z by lia. constructor; [|exact Hn]. apply IH. split; [discriminate | reflexivity].
Qed.
Lemma digits_parse s : forall acc, str_forall is_digit s = true <-> exists z, parse_digits s acc = Some z.
Proof. induction s as [|a s IH]; intros acc; cbn [str_forall parse_digits]; [split; eauto|]. destruct (is_digit a); cbn [andb]; [apply IH | split; [discriminate | intros [z [=]]]]. Qed.
Lemma is_number_some s z : is_number s = Some z <-> number s z.
Proof.
  rewrite number_parse. unfold is_number, all_digits. destruct (String.eqb_spec s "") as [->|Hn]; cbn [negb andb]; [split; [discriminate | intros [H _]; now elim H]|].
  destruct (str_forall is_digit s) eqn:E; [tauto|]. split; [discriminate|]. intros [_ H]. assert (K : str_forall is_digit s = true) by (apply (digits_parse s 0); eauto). congruence.
Qed.
Lemma is_number_none s : is_number s = None <-> forall z, ~ number s z.
Proof.
  destruct (is_number s) as [z|] eqn:E; [split; [discriminate|]; intros H; apply is_number_some in E; now elim (H z)|]. split; [|reflexivity]. intros _ z Hz. apply is_number_some in Hz. congruence.
Qed.
Lemma number_unique s y z : number s y -> number s z -> y = z.
Proof. rewrite !number_parse. intros [_ E] [_ E']. congruence. Qed.
Lemma parse_least s : forall acc z, (0 <= acc)%Z -> parse_digits s acc = Some z -> (acc <= z)%Z.
Proof. induction s as [|a s IH]; intros acc z Ha H; cbn [parse_digits] in H; [injection H as <-; lia|]. destruct (is_digit a); [|discriminate]. apply IH in H; lia. Qed.
Lemma number_least s z : number s z -> (0 <= z)%Z.
Proof. rewrite number_parse. intros [_ H]. apply parse_least in H; lia. Qed.
Lemma char_code a n : n < 256 -> char_eqb a (ascii_of_nat n) = true <-> nat_of_ascii a = n.
Proof. intros H. rewrite char_eqb_eq. split; [intros ->; now apply nat_ascii_embedding | intros <-; symmetry; apply ascii_nat_embedding]. Qed.
Lemma octet_iff s : octet_zeros s = true <-> small_number s.
Proof.
  unfold small_number.
  assert (N : forall P : Prop, (P <-> s <> "" /\ exists z, parse_digits s 0 = Some z /\ (z <= 255)%Z /\ String.length s <= 3) -> P <-> exists z, number s z /\ (z <= 255)%Z /\ String.length s <= 3).
  { intros P ->. split; [intros [H [z [H1 H2]]]; exists z; split; [apply number_parse; auto | exact H2] | intros [z [H1 H2]]; apply number_parse in H1 as [H0 H1]; split; [exact H0|]; exists z; auto]. }
  apply N. clear N. unfold code.
  destruct s as [|a [|b [|c [|d s]]]]; cbn [octet_zeros parse_digits String.length].
  - split; [discriminate | intros [H _]; now elim H].
  - destruct (is_digit a) eqn:Ea; [|split; [discriminate | intros [_ [z [[=] _]]]]]. unfold is_digit in Ea. rewrite range_code in Ea. split; [intros _|reflexivity].
    split; [discriminate|]. eexists. split; [reflexivity|]. unfold code. lia.
  - destruct (is_digit a) eqn:Ea; [|split; [discriminate | intros [_ [z [[=] _]]]]]. destruct (is_digit b) eqn:Eb; [|split; [discriminate | intros [_ [z [[=] _]]]]]. unfold is_digit in Ea, Eb. rewrite range_code in Ea, Eb. split; [intros _|reflexivity].
    split; [discriminate|]. eexists. split; [reflexivity|]. unfold code. lia.
  - rewrite !orb_true_iff, !andb_true_iff. change "2"%char with (ascii_of_nat 50). change "5"%char with (ascii_of_nat 53). rewrite !char_code by lia. unfold is_digit. rewrite !range_code. fold (is_digit a) (is_digit b) (is_digit c). split.
    + intros H. assert (Ea : is_digit a = true) by (unfold is_digit; rewrite range_code; lia). assert (Eb : is_digit b = true) by (unfold is_digit; rewrite range_code; lia). assert (Ec : is_digit c = true) by (unfold is_digit; rewrite range_code; lia).
      rewrite Ea, Eb, Ec. split; [discriminate|]. eexists. split; [reflexivity|]. unfold code. lia.
    + intros [_ [z [E [Hz _]]]]. destruct (is_digit a) eqn:Ea; [|discriminate]. destruct (is_digit b) eqn:Eb; [|discriminate]. destruct (is_digit c) eqn:Ec; [|discriminate]. injection E as <-. unfold is_digit in Ea, Eb, Ec. rewrite range_code in Ea, Eb, Ec. unfold code in Hz. lia.
  - split; [discriminate|]. intros [_ [z [_ [_ H]]]]. lia.
Qed.
Lemma number_digits s z : number s z -> every (fun a => is_digit a = true) s.
Proof. rewrite number_parse. intros [_ H]. apply (every_iff is_digit); [reflexivity|]. apply (digits_parse s 0). eauto. Qed.
Lemma small_without s c : small_number s -> is_digit c = false -> without c s.
Proof. intros [z [H _]] Hc K. apply number_digits in H. apply H in K. congruence. Qed.
Lemma ipv4_iff s : ipv4_matches s = true <-> lined ipv4_text s.
Proof.
  unfold ipv4_matches. apply (drop_iff (fun t => match split_on "." t with [a; b; c; d] => octet_zeros a && octet_zeros b && octet_zeros c && octet_zeros d | _ => false end)).
  - intros t. split.
    + destruct (split_on_parts "." t) as [_ [_ E]]. destruct (split_on "." t) as [|a [|b [|c [|d [|e l]]]]]; try discriminate. rewrite !andb_true_iff, !octet_iff. intros [[[Ha Hb] Hc] Hd]. exists a, b, c, d. auto.
    + intros [a [b [c [d [E [Ha [Hb [Hc Hd]]]]]]]]. rewrite (split_on_unique "." t [a; b; c; d]).
      * rewrite !andb_true_iff, !octet_iff. auto.
      * discriminate.
      * intros x [<-|[<-|[<-|[<-|[]]]]]; now apply small_without.
      * exact E.
  - intros t [a [b [c [d [E [_ [_ [_ Hd]]]]]]]]. destruct Hd as [z [Hd _]]. apply number_digits in Hd. assert (K : every (fun x => x <> newline_char) d) by (intros x Hx ->; apply Hd in Hx; discriminate Hx).
    clear Hd. revert K. pattern d in E |- *. revert E. 
    intros E K. assert (D : d = "" \/ exists u x, d = u ++ String x "") by (pattern d; apply snoc_ind; [now left | intros u x _; right; eauto]).
    destruct D as [->|[u [x ->]]].
    + rewrite append_nil_r in E. rewrite <- !append_assoc in E. change (((((a ++ ".") ++ b) ++ ".") ++ c) ++ ".") with (((((a ++ ".") ++ b) ++ ".") ++ c) ++ String "." "") in E. exact (ends_snoc_neq _ newline_char _ "." ltac:(discriminate) E).
    + rewrite <- !append_assoc in E. apply ends_snoc_neq in E; [exact E|]. intros <-. apply (K newline_char); [rewrite chars_app; apply in_app_iff; right; now left | reflexivity].
Qed.

(** * Quoted texts *)
Lemma quoted_iff s : txt_matches s = true <-> lined quoted s.
Proof.
  unfold txt_matches. apply (drop_iff (fun t => match split_on """" t with start :: rest => String.eqb start "" && txt_parts rest | [] => false end)).
  - assert (Hp : forall s, quoted_part s = true -> without """" s -> quotable s) by (intros x H Hx; unfold quoted_part in H; rewrite andb_true_iff, !Nat.leb_le in H; split; [exact Hx | lia]).
    assert (Hq : forall s, quotable s -> quoted_part s = true) by (intros x [_ H]; unfold quoted_part; rewrite andb_true_iff, !Nat.leb_le; lia).
    intros t. split.
    + destruct (split_on_parts """" t) as [_ [Hw E]]. destruct (split_on """" t) as [|start rest]; [discriminate|]. rewrite andb_true_iff, String.eqb_eq. intros [-> H].
      assert (G : forall n l, List.length l < n -> txt_parts l = true -> (forall x, In x l -> without """" x) -> quoted (quote ++ String.concat quote l)).
      { induction n as [|n IH]; intros l Hn Hl Hwl; [lia|]. destruct l as [|x [|gap l]]; try discriminate. cbn [txt_parts] in Hl. rewrite andb_true_iff in Hl. destruct Hl as [Hx Hl]. destruct l as [|y l].
        - apply String.eqb_eq in Hl as ->. cbn [String.concat]. constructor. apply Hp; [exact Hx|]. apply Hwl. now left.
        - apply andb_true_iff in Hl as [Hg Hl]. rewrite concat_more by discriminate. rewrite concat_more by discriminate. constructor.
          + apply Hp; [exact Hx|]. apply Hwl. now left.
          + apply (every_iff (char_eqb " ")); [|exact Hg]. intros a. rewrite char_eqb_eq. split; congruence.
          + apply IH; [cbn [List.length] in *; lia | exact Hl|]. intros z Hz. apply Hwl. right. now right. }
      assert (K : t = quote ++ String.concat quote rest).
      { destruct rest as [|x rest]; [discriminate H|]. rewrite E. now rewrite concat_more by discriminate. }
      rewrite K. apply (G (S (List.length rest))); [lia | exact H|]. intros x Hx. apply Hw. now right.
    + intros H. assert (G : exists rest, split_on """" t = "" :: rest /\ txt_parts rest = true).
      { induction H as [x Hx|x gap rest Hx Hg Hr [l [El Hl]]].
        - exists [x; ""]. split; [|cbn [txt_parts]; now rewrite Hq]. change (quote ++ x ++ quote) with ("" ++ String """" (x ++ String """" "")). rewrite split_on_app by reflexivity. rewrite split_on_app; [reflexivity|]. apply without_iff, Hx.
        - exists (x :: gap :: l). split.
          + change (quote ++ x ++ quote ++ gap ++ rest) with ("" ++ String """" (x ++ String """" (gap ++ rest))). rewrite split_on_app by reflexivity. rewrite split_on_app by apply without_iff, Hx. do 2 f_equal.
            assert (R : exists rest', rest = String """" rest') by (inversion Hr; subst; eexists; reflexivity). destruct R as [rest' ->]. rewrite split_on_app.
            * change (String """" rest') with ("" ++ String """" rest') in El. rewrite split_on_app in El by reflexivity. injection El as ->. reflexivity.
            * apply without_iff. intros K. apply Hg in K. discriminate K.
          + cbn [txt_parts]. rewrite Hq by exact Hx. cbn [andb]. destruct l as [|y l]; [discriminate Hl|]. rewrite Hl, andb_true_r. apply (every_iff (char_eqb " ") (fun a => a = " "%char)); [|exact Hg]. intros a. rewrite char_eqb_eq. split; congruence. }
      destruct G as [rest [-> Hr]]. exact Hr.
  - intros t H. assert (G : forall s, quoted s -> exists u, s = u ++ quote).
    { induction 1 as [x Hx|x gap rest Hx Hg Hr [u ->]]; [exists (quote ++ x); now rewrite append_assoc | exists (quote ++ x ++ quote ++ gap ++ u)]. now rewrite !append_assoc. }
    apply G in H as [u E]. exact (ends_snoc_neq _ newline_char _ """" ltac:(discriminate) E).
Qed.
