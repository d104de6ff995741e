(** Proofs for C101: the command line. *)
From Coq Require Import List Arith Lia Bool ZArith Ascii String.
From Verif.Model Require Import Base Config CommandLine.
From Verif.Spec Require Import Options CommandLine.
From Verif.Proofs Require Import BaseFacts OptionProofs CidrProofs.
Import ListNotations.
Local Open Scope string_scope.
Local Open Scope nat_scope.

(** * The options *)
Lemma options_found : Forall (fun o => Forall (fun n => assoc n option_strings = Some o /\ parse_optional n = Some (Option (Some o) n n None) /\ has_char "=" n = false /\
  starts_with "-" n = true /\ n <> "--") (o_names o)) options.
Proof. repeat (constructor; [repeat (constructor; [repeat split; (reflexivity || discriminate)|]); constructor|]). constructor. Qed.
Lemma found o n : In o options -> In n (o_names o) -> assoc n option_strings = Some o /\ parse_optional n = Some (Option (Some o) n n None) /\ has_char "=" n = false /\
  starts_with "-" n = true /\ n <> "--" /\ In (n, o) option_strings.
Proof.
  intros H K. pose proof (proj1 (Forall_forall _ _) options_found o H) as F. destruct (proj1 (Forall_forall _ _) F n K) as (A & B & C & D & E). repeat split; auto.
  unfold option_strings. apply in_flat_map. exists o. split; [exact H|]. apply in_map_iff. now exists n.
Qed.
Lemma in_strings n o : In (n, o) option_strings -> In o options /\ In n (o_names o).
Proof. unfold option_strings. intros H. apply in_flat_map in H as [o' [H K]]. apply in_map_iff in K as [n' [[= -> ->] K]]. now split. Qed.
Lemma strings_once : NoDup option_strings.
Proof.
  apply (NoDup_map_inv fst). unfold option_strings, options. cbn [flat_map map o_names app fst].
  repeat (constructor; [intros K; cbn [In] in K; repeat (destruct K as [K|K]; [discriminate K|]); exact K|]). constructor.
Qed.
(** Names are a dash and a letter, or begin with two dashes. *)
Definition short_or_long (n : string) : bool :=
  match n with
  | String a (String b EmptyString) => Ascii.eqb a dash && negb (Ascii.eqb b dash) && negb (Ascii.eqb b equals)
  | String a (String b _) => Ascii.eqb a dash && Ascii.eqb b dash
  | _ => false
  end.
Lemma names_shape o n : In o options -> In n (o_names o) -> short_or_long n = true.
Proof.
  intros H K. assert (F : forallb (fun o => forallb short_or_long (o_names o)) options = true) by (vm_compute; reflexivity).
  pose proof (proj1 (forallb_forall _ _) F o H) as G. exact (proj1 (forallb_forall _ _) G n K).
Qed.
Lemma assoc_strings n o : assoc n option_strings = Some o -> In o options /\ In n (o_names o).
Proof. intros H. apply in_strings. now apply assoc_In. Qed.
Lemma dests_once : NoDup (map o_dest options).
Proof. repeat (constructor; [intros K; cbn [In map o_dest options] in K; repeat (destruct K as [K|K]; [discriminate K|]); exact K|]). constructor. Qed.
Lemma same_dest o o' : In o options -> In o' options -> o_dest o = o_dest o' -> o = o'.
Proof.
  intros H H' E. pose proof dests_once as N. revert H H' N. generalize options. induction l as [|a l IH]; [intros []|]. cbn [map]. intros H H' N. inversion N as [|? ? N1 N2]; subst.
  destruct H as [->|H], H' as [->|H']; auto; exfalso; apply N1; [rewrite E | rewrite <- E]; now apply in_map.
Qed.

(** * Texts *)
Lemma undashed_plain s : undashed s -> parse_optional s = Some (Plain s) /\ s <> "--".
Proof.
  intros H. destruct s as [|c r]; [split; [reflexivity | discriminate]|]. split; [|intros E; exact (H "-" E)].
  cbn [parse_optional]. destruct (Ascii.eqb_spec c dash) as [->|N]; [exfalso; exact (H r eq_refl) | reflexivity].
Qed.
Lemma split_first_none c s : has_char c s = false -> split_first c s = None.
Proof. induction s as [|a s IH]; [reflexivity|]. cbn [has_char split_first]. intros H. apply orb_false_iff in H as [H1 H2]. unfold char_eqb in H1. rewrite H1, (IH H2). reflexivity. Qed.
Lemma split_first_some c s t : has_char c s = false -> split_first c (s ++ String c t) = Some (s, t).
Proof.
  induction s as [|a s IH]; cbn [has_char split_first append]; [now rewrite Ascii.eqb_refl|]. intros H. apply orb_false_iff in H as [H1 H2]. unfold char_eqb in H1.
  rewrite H1, (IH H2). reflexivity.
Qed.
Lemma starts_app p s : starts_with p (p ++ s) = true.
Proof. unfold starts_with. induction p as [|a p IH]; [destruct s; reflexivity|]. cbn. destruct (ascii_dec a a); [exact IH | congruence]. Qed.
Lemma starts_split p s : starts_with p s = true -> exists r, s = p ++ r.
Proof.
  unfold starts_with. revert s. induction p as [|a p IH]; intros s H; [now exists s|]. destruct s as [|b s]; [discriminate|]. cbn in H. destruct (ascii_dec a b) as [->|]; [|discriminate].
  destruct (IH s H) as [r ->]. now exists r.
Qed.
Lemma has_char_left c a b : has_char c (a ++ b) = false -> has_char c a = false.
Proof. rewrite has_char_app. intros H. now apply orb_false_iff in H. Qed.
Lemma filter_one {A} (f : A -> bool) l x : NoDup l -> In x l -> f x = true -> (forall y, In y l -> f y = true -> y = x) -> filter f l = [x].
Proof.
  induction l as [|a l IH]; [intros _ []|]. intros N H Hx Hu. inversion N as [|? ? N1 N2]; subst. cbn [filter].
  assert (Z : forall l', (forall y, In y l' -> f y = true -> y = x) -> ~ In x l' -> filter f l' = []).
  { induction l' as [|b l' IH']; [reflexivity|]. intros U K. cbn [filter]. destruct (f b) eqn:E; [exfalso; apply K; left; apply U; [now left | exact E]|].
    apply IH'; [intros y Hy; apply U; now right | intros Hy; apply K; now right]. }
  destruct H as [->|H].
  - rewrite Hx. f_equal. apply Z; [intros y Hy; apply Hu; now right | exact N1].
  - destruct (f a) eqn:E; [exfalso; apply N1; rewrite (Hu a (or_introl eq_refl) E); exact H|]. apply IH; auto. intros y Hy. apply Hu. now right.
Qed.
Lemma flat_map_one {A B} (f : A -> list B) l x : NoDup l -> In x l -> (forall y, In y l -> y <> x -> f y = []) -> flat_map f l = f x.
Proof.
  assert (Z : forall l', (forall y, In y l' -> f y = []) -> flat_map f l' = []).
  { induction l' as [|b l' IH']; [reflexivity|]. intros U. cbn [flat_map]. rewrite (U b (or_introl eq_refl)). apply IH'. intros y Hy. apply U. now right. }
  induction l as [|a l IH]; [intros _ []|]. intros N H Hu. inversion N as [|? ? N1 N2]; subst. cbn [flat_map]. destruct H as [->|H].
  - rewrite Z, app_nil_r; [reflexivity|]. intros y Hy. apply Hu; [now right|]. intros ->. contradiction.
  - rewrite (Hu a); [|now left | intros ->; contradiction]. apply IH; auto. intros y Hy. apply Hu. now right.
Qed.

(** * Tokens of names *)
Lemma app_eq_self (p rest : string) : p = p ++ rest -> rest = "".
Proof. induction p as [|a p IH]; cbn [append]; [congruence|]. intros [= E]. auto. Qed.
Lemma long_facts o n : long_name o n -> has_char "=" n = false /\ n <> "--" /\ In o options /\ (exists r, n = String dash r /\ r <> "") /\
  (assoc n option_strings = Some o \/ assoc n option_strings = None /\ exists x rest, n = "--" ++ x /\ In (n ++ rest, o) option_strings /\ forall m, In m option_strings -> starts_with n (fst m) = true -> m = (n ++ rest, o)).
Proof.
  intros [n' Ho Hn | p rest Ho [x [Ex Hx]] Hn Hu].
  - destruct (found o n' Ho Hn) as (A & _ & C & D & E & _). split; [exact C|]. split; [exact E|]. split; [exact Ho|]. split; [|now left].
    pose proof (names_shape o n' Ho Hn) as S. destruct n' as [|a [|b r]]; try discriminate S. exists (String b r). split; [|discriminate].
    cbn [short_or_long] in S. destruct r; apply andb_true_iff in S as [S S2]; [apply andb_true_iff in S as [S _]|]; apply Ascii.eqb_eq in S; now subst a.
  - destruct (found o _ Ho Hn) as (A & _ & C & D & E & F). apply has_char_left in C. split; [exact C|].
    split; [intros ->; injection Ex as <-; now apply Hx|]. split; [exact Ho|]. split; [exists (String "-" x); split; [exact Ex | discriminate]|].
    destruct (assoc p option_strings) as [o'|] eqn:Ep.
    + left. destruct (assoc_strings p o' Ep) as [Ho' Hp']. assert (K : p = p ++ rest) by (apply (Hu o' p ""); auto; now rewrite append_nil_r).
      rewrite <- K in Hn. destruct (found o p Ho Hn) as (A' & _). congruence.
    + right. split; [reflexivity|]. exists x, rest. split; [exact Ex|]. split; [exact F|]. intros [m om] Hm Hs. cbn [fst] in Hs. destruct (in_strings m om Hm) as [M1 M2].
      destruct (starts_split p m Hs) as [r Er]. assert (Em : m = p ++ rest) by (apply (Hu om m r); auto). f_equal; [exact Em|].
      destruct (found om m M1 M2) as (A' & _). rewrite Em, A in A'. congruence.
Qed.
Lemma tuples_long o n v x rest : n = "--" ++ x -> has_char "=" n = false -> In (n ++ rest, o) option_strings -> (forall m, In m option_strings -> starts_with n (fst m) = true -> m = (n ++ rest, o)) ->
  option_tuples (match v with Some w => n ++ "=" ++ w | None => n end) = [(o, n ++ rest, v)].
Proof.
  intros Ex Hq Hin Hu.
  assert (F : filter (fun no => starts_with n (fst no)) option_strings = [(n ++ rest, o)]).
  { apply filter_one; [exact strings_once | exact Hin | apply starts_app | exact Hu]. }
  unfold option_tuples. destruct v as [w|].
  - rewrite Ex. cbn [append]. rewrite Ascii.eqb_refl. rewrite Ex in Hq. pose proof (split_first_some equals ("--" ++ x) w Hq) as S. cbn [append] in S. cbn [append]. unfold equals in *. rewrite S.
    rewrite Ex in F. cbn [append] in F. rewrite F. reflexivity.
  - rewrite Ex in *. cbn [append]. cbn [append] in Hq, F. pose proof (split_first_none equals _ Hq) as S. rewrite Ascii.eqb_refl, S, F. reflexivity.
Qed.
Lemma tok_long o n : long_name o n -> exists name, parse_optional n = Some (Option (Some o) n name None).
Proof.
  intros H. destruct (long_facts o n H) as (Hq & _ & Ho & (r & Er & Hr) & [A|(A & x & rest & Ex & Hin & Hu)]).
  - exists n. destruct (assoc_strings n o A) as [B C]. exact (proj1 (proj2 (found o n B C))).
  - exists (n ++ rest). pose proof (tuples_long o n None x rest Ex Hq Hin Hu) as T. cbn beta iota in T. rewrite Er in *. cbn [parse_optional]. rewrite Ascii.eqb_refl. cbn [negb]. rewrite A.
    destruct (String.eqb_spec r ""); [contradiction|]. rewrite (split_first_none equals _ Hq : split_first equals (String dash r) = None). rewrite T. reflexivity.
Qed.
Lemma tok_equals o n v : long_name o n -> exists name, parse_optional (n ++ "=" ++ v) = Some (Option (Some o) (n ++ "=" ++ v) name (Some v)) /\ n ++ "=" ++ v <> "--".
Proof.
  intros H. destruct (long_facts o n H) as (Hq & _ & Ho & (r & Er & Hr) & HA).
  assert (N : assoc (n ++ "=" ++ v) option_strings = None).
  { destruct (assoc (n ++ "=" ++ v) option_strings) as [o'|] eqn:E; [|reflexivity]. destruct (assoc_strings _ _ E) as [B C]. destruct (found _ _ B C) as (_ & _ & Q & _).
    rewrite has_char_app in Q. cbn [append has_char] in Q. destruct (has_char "=" n); discriminate. }
  assert (D : n ++ "=" ++ v <> "--").
  { intros E. assert (K : has_char "=" (n ++ "=" ++ v) = true) by (rewrite has_char_app; cbn [append has_char]; destruct (has_char "=" n); reflexivity). rewrite E in K. discriminate. }
  assert (R : r ++ "=" ++ v <> "") by (destruct r; discriminate).
  pose proof (split_first_some equals n v Hq) as S. change (n ++ String equals v) with (n ++ "=" ++ v) in S.
  destruct HA as [A|(A & x & rest & Ex & Hin & Hu)].
  - exists n. split; [|exact D]. rewrite Er in *. cbn [append parse_optional]. cbn [append] in N, S. rewrite Ascii.eqb_refl, N, S, A. cbn [negb append] in *.
    destruct (String.eqb_spec (r ++ String "=" v) ""); [contradiction|]. reflexivity.
  - exists (n ++ rest). split; [|exact D]. pose proof (tuples_long o n (Some v) x rest Ex Hq Hin Hu) as T. cbn beta iota in T. rewrite Er in *. cbn [append parse_optional]. cbn [append] in N, S, T.
    rewrite Ascii.eqb_refl, N, S, A, T. cbn [negb append] in *. destruct (String.eqb_spec (r ++ String "=" v) ""); [contradiction|]. reflexivity.
Qed.
Lemma letter_facts c o : letter_of c o -> c <> dash /\ c <> equals /\ assoc (String dash (String c "")) option_strings = Some o /\ In (String dash (String c ""), o) option_strings /\
  parse_optional (String dash (String c "")) = Some (Option (Some o) (String dash (String c "")) (String dash (String c "")) None).
Proof.
  intros [Ho Hn]. destruct (found _ _ Ho Hn) as (A & B & _ & _ & _ & C). pose proof (names_shape _ _ Ho Hn) as S. cbn [short_or_long] in S.
  apply andb_true_iff in S as [S S2]. apply andb_true_iff in S as [_ S]. apply negb_true_iff, Ascii.eqb_neq in S, S2. auto.
Qed.
Lemma no_longer c x r : c <> dash -> assoc (String dash (String c (String x r))) option_strings = None.
Proof.
  intros N. destruct (assoc _ _) as [o|] eqn:E; [|reflexivity]. destruct (assoc_strings _ _ E) as [B C]. pose proof (names_shape _ _ B C) as S. cbn [short_or_long] in S.
  apply andb_true_iff in S as [_ S]. apply Ascii.eqb_eq in S. contradiction.
Qed.
Lemma tok_letters c o v : letter_of c o -> v <> "" -> (forall r, v <> "=" ++ r) ->
  parse_optional (String dash (String c v)) = Some (Option (Some o) (String dash (String c v)) (String dash (String c "")) (Some v)).
Proof.
  intros H Hv He. destruct (letter_facts c o H) as (Nd & Ne & A & Hin & _). destruct v as [|x v]; [now destruct Hv|].
  cbn [parse_optional]. rewrite Ascii.eqb_refl. cbn [negb]. rewrite (no_longer c x v Nd). cbn [String.eqb].
  assert (T : option_tuples (String dash (String c (String x v))) = [(o, String dash (String c ""), Some (String x v))]).
  { unfold option_tuples. destruct (Ascii.eqb_spec c dash); [contradiction|].
    rewrite (flat_map_one _ option_strings (String dash (String c ""), o)); [cbn [fst snd]; now rewrite String.eqb_refl | exact strings_once | exact Hin |].
    intros [m om] Hm Hneq. cbn [fst snd]. destruct (String.eqb_spec m (String dash (String c ""))) as [E|E].
    - exfalso. apply Hneq. destruct (in_strings _ _ Hm) as [M1 M2]. destruct (found _ _ M1 M2) as (A' & _). congruence.
    - destruct (starts_with (String dash (String c (String x v))) m) eqn:Es; [|reflexivity]. exfalso. destruct (starts_split _ _ Es) as [r ->]. destruct (in_strings _ _ Hm) as [M1 M2].
      pose proof (names_shape _ _ M1 M2) as S. cbn [append short_or_long] in S. apply andb_true_iff in S as [_ S]. apply Ascii.eqb_eq in S. contradiction. }
  rewrite T. destruct (split_first equals (String dash (String c (String x v)))) as [[p w]|] eqn:Es; [|reflexivity].
  assert (P : exists p', p = String dash (String c (String x p'))).
  { cbn [split_first] in Es. change (Ascii.eqb dash equals) with false in Es. cbn iota in Es. destruct (Ascii.eqb_spec c equals); [contradiction|].
    destruct (Ascii.eqb_spec x equals) as [->|]; [exfalso; apply (He v); reflexivity|]. destruct (split_first equals v) as [[p' w']|]; [|discriminate]. injection Es as <- <-. now exists p'. }
  destruct P as [p' ->]. rewrite (no_longer c x p' Nd). reflexivity.
Qed.

(** * Consuming tokens *)
Definition closed_by (b : bool) (tail : list token) : Prop := b = true -> match tail with Plain _ :: _ => False | _ => True end.
Lemma span_plain vs tail : match tail with Plain _ :: _ => False | _ => True end -> span is_plain (map Plain vs ++ tail) = (map Plain vs, tail).
Proof. intros H. induction vs as [|v vs IH]; cbn [map app span is_plain]; [destruct tail as [|[] tail]; [reflexivity | destruct H | reflexivity | reflexivity]|]. now rewrite IH. Qed.
Lemma texts_plain vs : map text_of (map Plain vs) = vs.
Proof. rewrite map_map. apply map_id. Qed.
Definition open_after (o : opt) : bool := match arity_of o with SomeValues => true | _ => false end.
Lemma consume_after o name vs tail : values_after o vs -> closed_by (open_after o) tail -> consume_optional o name None (map Plain vs ++ tail) = Took [(o, vs)] tail.
Proof.
  intros [E | v E _ | v vs' E _ _] Hc; unfold consume_optional; rewrite E; [reflexivity | reflexivity |].
  unfold closed_by, open_after in Hc. rewrite E in Hc. rewrite (span_plain (v :: vs') tail (Hc eq_refl)). cbn [map]. rewrite <- (texts_plain vs') at 2. reflexivity.
Qed.
Lemma consume_value o name v tail : arity_of o <> NoValue -> consume_optional o name (Some v) tail = Took [(o, [v])] tail.
Proof. intros H. unfold consume_optional. destruct v; cbn [chain]; destruct (arity_of o); try reflexivity; contradiction. Qed.
Lemma chain_eq c o rest tail : c <> dash -> arity_of o = NoValue -> forall c' v', rest = String c' v' -> forall o', assoc (String dash (String c' "")) option_strings = Some o' ->
  chain rest o (String dash (String c "")) tail =
  match (match v' with
         | EmptyString => consume_optional o' (String dash (String c' "")) None tail
         | _ => chain v' o' (String dash (String c' "")) tail end) with Took ds r => Took ((o, []) :: ds) r | x => x end.
Proof.
  intros N E c' v' -> o' A. cbn [chain]. rewrite E, A. assert (S : starts_with "--" (String dash (String c "")) = false).
  { destruct (starts_with "--" _) eqn:K; [|reflexivity]. apply starts_split in K as [r K]. injection K as ->. contradiction. }
  rewrite S. destruct v'; [unfold consume_optional; destruct (arity_of o'); [reflexivity | destruct tail as [|[]] ; reflexivity | destruct (span is_plain tail) as [[|] ?]; reflexivity]|]. destruct (chain _ _ _ _); reflexivity.
Qed.
Definition letters_open (vs : list string) (l : list (opt * list string)) : bool :=
  match vs with [] => false | _ => open_after (fst (last l (mkOpt [] "" Switch, []))) end.
Lemma chain_letters rest vs l : letters rest vs l -> forall c o tail, letter_of c o -> arity_of o = NoValue -> closed_by (letters_open vs l) tail ->
  chain rest o (String dash (String c "")) (map Plain vs ++ tail) = Took ((o, []) :: l) tail.
Proof.
  induction 1 as [c' o' vs L V | c' o' v L A Hv Hd He | c' o' rest vs l L A Hl IH]; intros c o tail Lo Ao Hc; destruct (letter_facts _ _ Lo) as (Nd & _); destruct (letter_facts _ _ L) as (Nd' & _ & A' & _).
  - rewrite (chain_eq c o _ _ Nd Ao c' "" eq_refl o' A'). rewrite (consume_after o' _ vs tail V); [reflexivity|].
    inversion V as [E | v E Hv | v vs' E Hv Hvs]; subst; unfold letters_open in Hc; cbn [last fst] in Hc; [unfold open_after; rewrite E; discriminate | exact Hc | exact Hc].
  - rewrite (chain_eq c o _ _ Nd Ao c' v eq_refl o' A'). destruct v as [|x v]; [now destruct Hv|]. cbn [map app chain]. destruct (arity_of o'); [contradiction | reflexivity | reflexivity].
  - rewrite (chain_eq c o _ _ Nd Ao c' rest eq_refl o' A'). destruct rest as [|x rest]; [inversion Hl|]. rewrite (IH c' o' tail L A); [reflexivity|].
    destruct l as [|y l]; [inversion Hl|]. exact Hc.
Qed.
Lemma letters_start s vs l : letters s vs l -> s <> "" /\ (forall r, s <> "=" ++ r) /\ (forall r, s <> "-" ++ r).
Proof. intros H. inversion H as [c o ? L _ | c o ? L | c o ? ? ? L]; subst; destruct (letter_facts _ _ L) as (N1 & N2 & _); repeat split; try discriminate; intros r [= K]; contradiction. Qed.

(** * Arguments that say something *)
Definition toks (a : list string) (ts : list token) : Prop := Forall2 (fun s t => parse_optional s = Some t /\ s <> "--") a ts.
Lemma toks_app a ts r tr : toks a ts -> tokens r = Some tr -> tokens (a ++ r) = Some (ts ++ tr)%list.
Proof.
  intros H E. induction H as [|s t a ts [Hp Hd] H IH]; [exact E|]. cbn [app tokens]. destruct (String.eqb_spec s "--"); [contradiction|]. rewrite Hp, IH. reflexivity.
Qed.
Lemma toks_plain vs : Forall undashed vs -> toks vs (map Plain vs).
Proof. induction 1 as [|v vs H _ IH]; constructor; [now apply undashed_plain | exact IH]. Qed.
Lemma after_undashed o vs : values_after o vs -> Forall undashed vs.
Proof. intros [ | | ]; repeat constructor; auto. Qed.
Definition follows (ts tail : list token) (l : list (opt * list string)) : Prop := forall fuel pending ns extras,
  parse_loop (S fuel) pending ns extras (ts ++ tail) = match take_actions ns l with Values ns' _ => parse_loop fuel pending ns' extras tail | x => x end.
Lemma follows_one o s n v rest tail l : consume_optional o n v (rest ++ tail) = Took l tail -> follows (Option (Some o) s n v :: rest) tail l.
Proof. intros H fuel pending ns extras. cbn [app parse_loop existsb is_option orb]. rewrite H. reflexivity. Qed.
Lemma letters_values s vs l : letters s vs l -> Forall undashed vs.
Proof. induction 1 as [c o vs L V | | ]; [exact (after_undashed o vs V) | constructor | assumption]. Qed.
Lemma says_run a l b : says a l b -> exists t ts, toks a (t :: ts) /\ is_option t = true /\ forall tail, closed_by b tail -> follows (t :: ts) tail l.
Proof.
  intros [o n vs Hn V | o n v Hn A Hd | s vs l' L].
  - destruct (tok_long o n Hn) as [name E]. destruct (long_facts o n Hn) as (_ & D & _). exists (Option (Some o) n name None), (map Plain vs). split; [|split; [reflexivity|]].
    + constructor; [split; assumption|]. apply toks_plain. exact (after_undashed o vs V).
    + intros tail Hc. apply follows_one. apply consume_after; [exact V | exact Hc].
  - destruct (tok_equals o n v Hn) as [name [E D]]. exists (Option (Some o) (n ++ "=" ++ v) name (Some v)), []. split; [|split; [reflexivity|]].
    + constructor; [split; assumption | constructor].
    + intros tail _. apply follows_one. now apply consume_value.
  - pose proof (letters_values _ _ _ L) as U. destruct (letters_start _ _ _ L) as (S1 & S2 & S3). assert (D : "-" ++ s <> "--") by (intros [= E]; apply (S3 ""); exact E).
    assert (B : (match vs with [] => false | _ => match arity_of (fst (last l' (mkOpt [] "" Switch, []))) with SomeValues => true | _ => false end end) = letters_open vs l') by reflexivity.
    rewrite B. clear B. inversion L as [c o vs' Lc V | c o v Lc A Hv Hd He | c o rest vs' l'' Lc A Hl]; subst; destruct (letter_facts _ _ Lc) as (_ & _ & _ & _ & P).
    + exists (Option (Some o) ("-" ++ String c "") ("-" ++ String c "") None), (map Plain vs). split; [constructor; [split; assumption | now apply toks_plain]|]. split; [reflexivity|].
      intros tail Hc. apply follows_one. apply consume_after; [exact V|]. inversion V as [E | v E Hv | v vs' E Hv Hvs]; subst; [unfold closed_by, open_after; rewrite E; discriminate | exact Hc | exact Hc].
    + exists (Option (Some o) ("-" ++ String c v) (String dash (String c "")) (Some v)), []. split; [constructor; [split; [exact (tok_letters c o v Lc Hv He) | exact D] | constructor]|]. split; [reflexivity|].
      intros tail _. apply follows_one. now apply consume_value.
    + destruct (letters_start _ _ _ Hl) as (R1 & R2 & _). exists (Option (Some o) ("-" ++ String c rest) (String dash (String c "")) (Some rest)), (map Plain vs).
      split; [constructor; [split; [exact (tok_letters c o rest Lc R1 R2) | exact D] | now apply toks_plain]|]. split; [reflexivity|].
      intros tail Hc. apply follows_one. unfold consume_optional. apply chain_letters; [exact Hl | exact Lc | exact A |].
      destruct l'' as [|y l'']; [inversion Hl|]. exact Hc.
Qed.
Lemma take_app ns l l' : take_actions ns (l ++ l') = match take_actions ns l with Values ns' _ => take_actions ns' l' | x => x end.
Proof.
  revert ns. induction l as [|[o vs] l IH]; intros ns; [reflexivity|]. cbn [app take_actions]. destruct (take_action ns o vs) as [z|e|ns' ex]; [reflexivity | reflexivity | apply IH].
Qed.
Lemma says_nonempty a l b : says a l b -> a <> [].
Proof. intros [ | | ]; discriminate. Qed.
Lemma all_run a l b : all_say a l b -> exists ts, toks a ts /\ (a <> [] -> exists t ts', ts = t :: ts' /\ is_option t = true) /\ exists k, k <= List.length ts /\
  forall tail, closed_by b tail -> forall fuel pending ns extras,
  parse_loop (k + fuel) pending ns extras (ts ++ tail) = match take_actions ns l with Values ns' _ => parse_loop fuel pending ns' extras tail | x => x end.
Proof.
  induction 1 as [|a l b a' l' b' Hs Ha IH].
  - exists []. split; [constructor|]. split; [intros []; reflexivity|]. exists 0. split; [reflexivity|]. reflexivity.
  - destruct (says_run a l b Hs) as (t & ts & T & Ot & F). destruct IH as (ts' & T' & Hh & k & Hk & R).
    exists ((t :: ts) ++ ts')%list. split; [now apply Forall2_app|]. split; [intros _; exists t, (ts ++ ts')%list; now split|].
    exists (S k). split; [rewrite app_length; cbn [List.length]; lia|]. intros tail Hc fuel pending ns extras.
    rewrite <- app_assoc. change (S k + fuel) with (S (k + fuel)). rewrite (F (ts' ++ tail)%list).
    + rewrite take_app. destruct (take_actions ns l) as [z|e|ns' ex]; [reflexivity | reflexivity |]. apply R. destruct a' as [|x a']; [|exact Hc].
      inversion Ha as [|a1 l1 b1 a2 l2 b2 Hs1 Ha1 E]; [discriminate|]. apply says_nonempty in Hs1. destruct a1; [now destruct Hs1 | discriminate].
    + destruct a' as [|x a'].
      * inversion T'; subst. exact Hc.
      * destruct (Hh ltac:(discriminate)) as (t' & ts'' & -> & O'). intros _. cbn [app]. destruct t'; try discriminate. exact I.
Qed.

(** * The whole command line *)
Lemma span_names vs tail : match tail with t :: _ => is_option t = true | [] => True end -> span (fun t => negb (is_option t)) (map Plain vs ++ tail) = (map Plain vs, tail).
Proof. intros H. induction vs as [|v vs IH]; cbn [map app span is_option negb]; [destruct tail as [|t tail]; [reflexivity|]; cbn [span]; rewrite H; reflexivity|]. now rewrite IH. Qed.
Definition put (ns : args) (names : list string) : args := set_assoc "templates" (texts_of names) ns.
Lemma remove_undashed vs : Forall undashed vs -> remove_first "--" vs = vs.
Proof. induction 1 as [|v vs H _ IH]; [reflexivity|]. cbn [remove_first]. destruct (String.eqb_spec v "--") as [->|]; [exfalso; apply (H "-"); reflexivity|]. now rewrite IH. Qed.
Lemma no_options vs : existsb is_option (map Plain vs) = false.
Proof. induction vs; [reflexivity | exact IHvs]. Qed.
(** What the parser does with a command line. *)
Lemma command_parsed argv l names : command argv l names -> exists l1 l2, l = (l1 ++ l2)%list /\
  parse_args argv = match take_actions defaults l1 with
                    | Values ns _ => match take_actions (if (match l2 with [] => false | _ => true end) then put ns names else ns) l2 with
                                     | Values ns' _ => Values (if (match l2 with [] => false | _ => true end) then ns' else put ns' names) []
                                     | x => x end
                    | x => x end.
Proof.
  intros [a l' b Ha | a l1 a' l2 b n ns Ha Hn Hns Ha' | a l' b ns Ha]; unfold parse_args.
  - exists l', []. split; [now rewrite app_nil_r|]. destruct (all_run a l' b Ha) as (ts & T & _ & k & Hk & R). pose proof (toks_app a ts [] [] T eq_refl) as E. rewrite !app_nil_r in E. rewrite E.
    replace (S (List.length ts)) with (k + S (List.length ts - k)) by lia. specialize (R [] ltac:(intros _; exact I) (S (List.length ts - k)) true defaults []). rewrite app_nil_r in R. rewrite R.
    destruct (take_actions defaults l') as [z|e|ns' ex]; [reflexivity | reflexivity |]. reflexivity.
  - destruct (all_run a l1 false Ha) as (ts & T & _ & k & Hk & R). destruct (all_run a' l2 b Ha') as (ts' & T' & Hh' & k' & Hk' & R').
    assert (E' : tokens a' = Some ts') by (pose proof (toks_app a' ts' [] [] T' eq_refl) as E; rewrite !app_nil_r in E; exact E).
    pose proof (toks_plain (n :: ns) (Forall_cons _ Hn Hns)) as Tn. pose proof (toks_app _ _ _ _ Tn E') as En. pose proof (toks_app _ _ _ _ T En) as E. rewrite E.
    exists l1, l2. split; [reflexivity|].
    set (m := map Plain (n :: ns)). assert (Lm : 1 <= List.length m) by (unfold m; cbn; lia).
    replace (S (List.length (ts ++ m ++ ts'))) with (k + S (k' + S (List.length ts + List.length m + List.length ts' - k - k' - 1))) by (rewrite !app_length; lia).
    rewrite (R _ ltac:(intros K; discriminate K)). destruct (take_actions defaults l1) as [z|e|ns1 ex]; [reflexivity | reflexivity |].
    assert (P : take_names ns1 m = put ns1 (n :: ns)) by (unfold take_names, put, m; rewrite texts_plain, (remove_undashed _ (Forall_cons _ Hn Hns)); reflexivity).
    destruct a' as [|x a'].
    + assert (l2 = []) as ->. { inversion Ha' as [|a1 l3 b1 a2 l4 b2 Hs1 Ha1 Eq]; [reflexivity|]. apply says_nonempty in Hs1. destruct a1; [now destruct Hs1 | discriminate]. }
      inversion T'; subst. rewrite app_nil_r. cbn [parse_loop]. unfold m at 1. rewrite no_options, P. reflexivity.
    + destruct (Hh' ltac:(discriminate)) as (t' & ts'' & Ets & O'). cbn [parse_loop].
      assert (X : existsb is_option (m ++ ts') = true) by (rewrite existsb_app, Ets; cbn [existsb]; rewrite O'; apply orb_true_r). rewrite X.
      assert (Y : span (fun t => negb (is_option t)) (m ++ ts') = (m, ts')) by (unfold m; apply span_names; rewrite Ets; exact O').
      unfold m at 1. cbn [map app]. rewrite Y, P.
      specialize (R' [] ltac:(intros _; exact I)). rewrite app_nil_r in R'. rewrite R'.
      assert (L2 : l2 <> []). { inversion Ha' as [|a1 l3 b1 a2 l4 b2 Hs1 Ha1 Eq]; subst. inversion Hs1 as [ | |s vs l5 Ll]; subst; try discriminate. inversion Ll; discriminate. }
      destruct l2 as [|y l2]; [now destruct L2|]. destruct (take_actions (put ns1 (n :: ns)) (y :: l2)) as [z|e|ns2 ex2]; reflexivity.
  - exists l', []. split; [now rewrite app_nil_r|]. destruct (all_run a l' b Ha) as (ts & T & _ & k & Hk & R).
    assert (E0 : tokens ("--" :: ns) = Some (Dashes :: map Plain ns)) by reflexivity. rewrite (toks_app _ _ _ _ T E0).
    replace (S (List.length (ts ++ Dashes :: map Plain ns))) with (k + S (List.length (ts ++ Dashes :: map Plain ns) - k)) by (rewrite app_length; cbn [List.length]; lia).
    rewrite (R (Dashes :: map Plain ns) ltac:(intros _; exact I)). destruct (take_actions defaults l') as [z|e|ns' ex]; [reflexivity | reflexivity |]. cbn [take_actions parse_loop existsb is_option orb]. rewrite no_options.
    unfold take_names. cbn [map text_of]. rewrite texts_plain. reflexivity.
Qed.

(** * What the options do *)
Definition right_number (o : opt) (vs : list string) : Prop :=
  ~ In "--" vs /\ match arity_of o with NoValue => vs = [] | OneValue => exists v, vs = [v] | SomeValues => True end.
Definition usable (x : opt * list string) : Prop := In (fst x) options /\ right_number (fst x) (snd x).
Lemma undashed_not vs : Forall undashed vs -> ~ In "--" vs.
Proof. intros H K. exact (proj1 (Forall_forall _ _) H "--" K "-" eq_refl). Qed.
Lemma after_right o vs : values_after o vs -> right_number o vs.
Proof. intros H. split; [exact (undashed_not _ (after_undashed o vs H))|]. destruct H as [E | v E _ | v vs E _ _]; rewrite E; [reflexivity | now exists v | exact I]. Qed.
Lemma one_right o v : v <> "--" -> arity_of o <> NoValue -> right_number o [v].
Proof. intros H A. split; [intros [K|[]]; contradiction|]. destruct (arity_of o); [contradiction | now exists v | exact I]. Qed.
Lemma letters_usable s vs l : letters s vs l -> Forall usable l.
Proof.
  induction 1 as [c o vs [L _] V | c o v [L _] A Hv Hd He | c o rest vs l [L _] A Hl IH].
  - constructor; [split; [exact L | now apply after_right] | constructor].
  - constructor; [split; [exact L | now apply one_right] | constructor].
  - constructor; [split; [exact L|] | exact IH]. split; [intros []|]. cbn [fst snd]. rewrite A. reflexivity.
Qed.
Lemma says_usable a l b : says a l b -> Forall usable l.
Proof.
  intros [o n vs Hn V | o n v Hn A Hd | s vs l' L]; [| | exact (letters_usable _ _ _ L)]; destruct (long_facts o n Hn) as (_ & _ & Ho & _); constructor; try constructor; try exact Ho;
    [now apply after_right | now apply one_right].
Qed.
Lemma all_usable a l b : all_say a l b -> Forall usable l.
Proof. induction 1 as [|a l b a' l' b' Hs Ha IH]; [constructor|]. apply Forall_app. split; [exact (says_usable _ _ _ Hs) | exact IH]. Qed.
Lemma command_usable argv l names : command argv l names -> Forall usable l.
Proof. intros [a l' b Ha | a l1 a' l2 b n ns Ha Hn Hns Ha' | a l' b ns Ha]; [| apply Forall_app; split |]; eapply all_usable; eassumption. Qed.
(** The value of an option after it is named once more. *)
Definition update (o : opt) (v : val) (vs : list string) : option val :=
  match o_deed o with
  | Switch => Some (VBool true)
  | Keep | KeepFormat => match vs with [x] => Some (VStr x) | _ => None end
  | Add => Some (VList (items_of v ++ map VStr vs))
  | AddSplit => Some (VList (items_of v ++ map VStr (flat_map comma_separated_arg vs)))
  | Configure => option_map settings_value (rule_configuration_action vs (settings_of v))
  | PrintHelp | PrintVersion => None
  end.
Fixpoint updates (o : opt) (v : val) (vss : list (list string)) : option val :=
  match vss with [] => Some v | vs :: rest => match update o v vs with Some w => updates o w rest | None => None end end.
Lemma remove_absent vs : ~ In "--" vs -> remove_first "--" vs = vs.
Proof. induction vs as [|v vs IH]; [reflexivity|]. intros H. cbn [remove_first]. destruct (String.eqb_spec v "--") as [->|]; [exfalso; apply H; now left|]. rewrite IH; [reflexivity|]. intros K. apply H. now right. Qed.
Lemma action_updates ns o vs : usable (o, vs) -> good_use (o, vs) -> exists w, update o (lookup ns (o_dest o)) vs = Some w /\ take_action ns o vs = Values (set_assoc (o_dest o) w ns) [].
Proof.
  intros [_ [Hd Hr]] Hg. cbn [fst snd] in Hd, Hr. unfold update, take_action. rewrite (remove_absent vs Hd). unfold arity_of in Hr. unfold good_use in Hg. cbn [fst snd] in Hg.
  destruct (o_deed o).
  - eexists; split; reflexivity.
  - destruct Hr as [v ->]. eexists; split; reflexivity.
  - destruct Hr as [v ->]. exists (VStr v). split; [reflexivity|]. inversion Hg; subst. assert (S : smem v formats = true) by now apply smem_iff. rewrite S. reflexivity.
  - eexists; split; reflexivity.
  - eexists; split; reflexivity.
  - destruct Hg as (arguments & Ha & ->). destruct (c10_recorded arguments (settings_of (lookup ns (o_dest o))) Ha) as (out & E & _). rewrite E. eexists; split; reflexivity.
  - destruct Hg.
  - destruct Hg.
Qed.
Lemma lookup_same k v ns : lookup (set_assoc k v ns) k = v.
Proof. unfold lookup. now rewrite BaseFacts.assoc_set_same. Qed.
Lemma lookup_other k k' v ns : k <> k' -> lookup (set_assoc k' v ns) k = lookup ns k.
Proof. intros H. unfold lookup. now rewrite BaseFacts.assoc_set_other. Qed.
Lemma not_templates o : In o options -> "templates" <> o_dest o.
Proof. intros H E. assert (F : forallb (fun o => negb (String.eqb "templates" (o_dest o))) options = true) by reflexivity. pose proof (proj1 (forallb_forall _ _) F o H) as G. cbn beta in G. rewrite <- E in G. discriminate. Qed.
Lemma actions_update l : forall ns, Forall usable l -> Forall good_use l -> exists ns', take_actions ns l = Values ns' [] /\
  (forall o, In o options -> updates o (lookup ns (o_dest o)) (said l o) = Some (lookup ns' (o_dest o))) /\ lookup ns' "templates" = lookup ns "templates".
Proof.
  induction l as [|[o vs] l IH]; intros ns U G; [exists ns; split; [reflexivity|]; split; reflexivity|]. inversion U as [|? ? U1 U2]; subst. inversion G as [|? ? G1 G2]; subst.
  destruct (action_updates ns o vs U1 G1) as (w & Ew & Et). destruct (IH (set_assoc (o_dest o) w ns) U2 G2) as (ns' & E & Hs & Ht). exists ns'. cbn [take_actions]. rewrite Et. split; [exact E|]. split.
  - intros o' Ho'. specialize (Hs o' Ho'). unfold said in *. cbn [filter fst snd]. destruct (String.eqb_spec (o_dest o) (o_dest o')) as [D|D].
    + destruct U1 as [Uo _]. rewrite <- (same_dest o o' Uo Ho' D) in *. cbn [map snd updates]. rewrite Ew. rewrite lookup_same in Hs. exact Hs.
    + rewrite lookup_other in Hs by congruence. exact Hs.
  - rewrite Ht. apply lookup_other. destruct U1 as [Uo _]. now apply not_templates.
Qed.
Lemma said_app l1 l2 o : said (l1 ++ l2) o = (said l1 o ++ said l2 o)%list.
Proof. unfold said. now rewrite filter_app, map_app. Qed.
Lemma updates_app o a b v : updates o v (a ++ b) = match updates o v a with Some w => updates o w b | None => None end.
Proof. revert v. induction a as [|x a IH]; intros v; [reflexivity|]. cbn [app updates]. destruct (update o v x); [apply IH | reflexivity]. Qed.
(** The whole command line: what each option ends up as. *)
Lemma command_updates argv l names : command argv l names -> Forall good_use l -> exists ns, parse_args argv = Values ns [] /\
  (forall o, In o options -> updates o (lookup defaults (o_dest o)) (said l o) = Some (lookup ns (o_dest o))) /\ lookup ns "templates" = texts_of names.
Proof.
  intros H G. pose proof (command_usable _ _ _ H) as U. destruct (command_parsed argv l names H) as (l1 & l2 & -> & E). apply Forall_app in G as [G1 G2]. apply Forall_app in U as [U1 U2].
  destruct (actions_update l1 defaults U1 G1) as (ns1 & E1 & S1 & T1). rewrite E1 in E.
  destruct l2 as [|y l2].
  - cbn [take_actions] in E. exists (put ns1 names). split; [exact E|]. split; [|apply lookup_same]. intros o Ho. rewrite app_nil_r. unfold put. rewrite lookup_other; [now apply S1|]. intros K. now apply (not_templates o Ho).
  - destruct (actions_update (y :: l2) (put ns1 names) U2 G2) as (ns2 & E2 & S2 & T2). rewrite E2 in E. exists ns2. split; [exact E|]. split; [|rewrite T2; apply lookup_same].
    intros o Ho. rewrite said_app, updates_app, (S1 o Ho). rewrite <- (S2 o Ho). unfold put. rewrite lookup_other; [reflexivity|]. intros K. now apply (not_templates o Ho).
Qed.
(** * What the values mean *)
Lemma said_right l o : Forall usable l -> In o options -> Forall (right_number o) (said l o).
Proof.
  intros U Ho. apply Forall_forall. intros vs H. unfold said in H. apply in_map_iff in H as [[o' vs'] [<- H]]. apply filter_In in H as [H K]. cbn [fst snd] in *. apply String.eqb_eq in K.
  destruct (proj1 (Forall_forall _ _) U _ H) as [Ho' R]. cbn [fst snd] in *. now rewrite <- (same_dest o' o Ho' Ho K).
Qed.
Lemma settings_back rc : settings_of (settings_value rc) = rc.
Proof.
  unfold settings_of, settings_value. cbn [dict_of]. rewrite map_map. cbn [fst snd dict_of]. rewrite <- (map_id rc) at 2. apply map_ext. intros [k d]. cbn [fst snd]. f_equal. rewrite map_map. cbn [fst snd text_or_empty].
  rewrite <- (map_id d) at 2. apply map_ext. now intros [? ?].
Qed.
Lemma configure_app a b : forall items, rule_configuration_action (a ++ b) items = match rule_configuration_action a items with Some rc => rule_configuration_action b rc | None => None end.
Proof. induction a as [|v a IH]; intros items; [reflexivity|]. cbn [app rule_configuration_action]. destruct (parse_rule_configuration v); [apply IH | reflexivity]. Qed.
Lemma configure_updates o vss : o_deed o = Configure -> forall rc v, updates o (settings_value rc) vss = Some v -> exists rc', v = settings_value rc' /\ rule_configuration_action (List.concat vss) rc = Some rc'.
Proof.
  intros D. induction vss as [|vs vss IH]; intros rc v H; cbn [updates] in H.
  - injection H as <-. exists rc. split; reflexivity.
  - unfold update in H. rewrite D, settings_back in H. cbn [List.concat]. rewrite configure_app. destruct (rule_configuration_action vs rc) as [rc1|]; cbn [option_map] in H; [exact (IH _ _ H) | discriminate].
Qed.
Lemma add_updates o vss : o_deed o = Add -> forall a, updates o (VList a) vss = Some (VList (a ++ map VStr (List.concat vss))).
Proof.
  intros D. induction vss as [|vs vss IH]; intros a; cbn [updates List.concat map]; [now rewrite app_nil_r|]. unfold update. rewrite D. cbn [items_of]. rewrite IH, map_app, app_assoc. reflexivity.
Qed.
Lemma split_updates o vss : o_deed o = AddSplit -> forall a, updates o (VList a) vss = Some (VList (a ++ map VStr (flat_map comma_separated_arg (List.concat vss)))).
Proof.
  intros D. induction vss as [|vs vss IH]; intros a; cbn [updates List.concat flat_map map]; [now rewrite app_nil_r|]. unfold update. rewrite D. cbn [items_of]. rewrite IH, flat_map_app, map_app, app_assoc. reflexivity.
Qed.
Lemma keep_updates o vss : o_deed o = Keep \/ o_deed o = KeepFormat -> Forall (right_number o) vss -> forall v w, updates o v vss = Some w ->
  (exists before x, List.concat vss = (before ++ [x])%list /\ w = VStr x) \/ List.concat vss = [] /\ w = v.
Proof.
  intros D. induction 1 as [|vs vss [_ R] _ IH]; intros v w H; cbn [updates] in H; [injection H as <-; right; now split|].
  assert (A : arity_of o = OneValue) by (unfold arity_of; destruct D as [-> | ->]; reflexivity). rewrite A in R. destruct R as [x ->].
  assert (U : update o v [x] = Some (VStr x)) by (unfold update; destruct D as [-> | ->]; reflexivity). rewrite U in H. left. cbn [List.concat app].
  destruct (IH _ _ H) as [(before & y & E & ->) | [E ->]]; [exists (x :: before), y; rewrite E; now split | exists [], x; rewrite E; now split].
Qed.
Lemma switch_updates o vss v : o_deed o = Switch -> updates o v vss = Some (match vss with [] => v | _ => VBool true end).
Proof. intros D. revert v. induction vss as [|vs vss IH]; intros v; [reflexivity|]. cbn [updates]. unfold update. rewrite D, IH. destruct vss; reflexivity. Qed.
Lemma free_has c s : has_char c s = false -> free_of c s.
Proof. induction s as [|a s IH]; [exact (fun _ => I)|]. cbn [has_char free_of]. intros H. apply orb_false_iff in H as [H1 H2]. split; [|auto]. unfold char_eqb in H1. now apply Ascii.eqb_neq. Qed.
Lemma split_on_some c s : split_on c s <> [].
Proof. unfold split_on. generalize "". induction s as [|a s IH]; intros acc; cbn [split_aux]; [discriminate|]. destruct (char_eqb a c); [discriminate | apply IH]. Qed.
Lemma parts_of l : Forall2 (fun x ps => ps <> [] /\ x = join_str "," ps /\ Forall (free_of ",") ps) l (map comma_separated_arg l).
Proof.
  induction l as [|x l IH]; constructor; [|exact IH]. unfold comma_separated_arg. split; [apply split_on_some|]. split; [symmetry; apply (join_split ",")|].
  eapply Forall_impl; [|apply CidrProofs.split_free]. intros s. apply free_has.
Qed.
Lemma settings_say rc rule name x : (exists r, assoc rule (map (fun kv : string * list (string * string) => (fst kv, VDict (map (fun s => (fst s, VStr (snd s))) (snd kv)))) rc) = Some (VDict r) /\ assoc name r = Some (VStr x)) <-> recorded rc rule name = Some x.
Proof.
  unfold recorded. assert (M : forall A B (f : A -> B) k (d : list (string * A)), assoc k (map (fun kv => (fst kv, f (snd kv))) d) = option_map f (assoc k d)).
  { intros A B f k d. induction d as [|[a b] d IH]; [reflexivity|]. cbn [map assoc fst snd]. destruct (String.eqb _ _); [reflexivity | exact IH]. }
  rewrite (M _ _ (fun d => VDict (map (fun s => (fst s, VStr (snd s))) d))). destruct (assoc rule rc) as [d|]; cbn [option_map].
  - split.
    + intros [r [E K]]. injection E as <-. rewrite (M _ _ VStr) in K. destruct (assoc name d); cbn [option_map] in K; congruence.
    + intros K. eexists. split; [reflexivity|]. rewrite (M _ _ VStr), K. reflexivity.
  - split; [intros [r [E _]]; discriminate | discriminate].
Qed.
Lemma defaults_are : Forall (fun o => lookup defaults (o_dest o) = match o_deed o with Switch => VBool false | Add => VList [] | AddSplit => if String.eqb (o_dest o) "registry_schemas" then VNull else VList []
  | Configure => settings_value [] | _ => VNull end) options.
Proof. repeat (constructor; [reflexivity|]). constructor. Qed.
Lemma updates_mean l o v : Forall usable l -> In o options -> updates o (lookup defaults (o_dest o)) (said l o) = Some v -> means l o v.
Proof.
  intros U Ho H. rewrite (proj1 (Forall_forall _ _) defaults_are o Ho) in H. pose proof (said_right l o U Ho) as R. unfold means. destruct (o_deed o) eqn:D.
  - rewrite (switch_updates o _ _ D) in H. injection H as <-. destruct (said l o); [now right | left; split; [reflexivity | discriminate]].
  - exact (keep_updates o _ (or_introl D) R _ _ H).
  - exact (keep_updates o _ (or_intror D) R _ _ H).
  - rewrite (add_updates o _ D) in H. now injection H as <-.
  - destruct (String.eqb_spec (o_dest o) "registry_schemas") as [E|E].
    + destruct (said l o) as [|vs vss] eqn:S; [injection H as <-; right; now repeat split|]. left. cbn [updates] in H. unfold update in H at 1. rewrite D in H. cbn [items_of app] in H.
      rewrite (split_updates o _ D) in H. injection H as <-. exists (map comma_separated_arg (List.concat (vs :: vss))). split; [apply parts_of|]. split; [|left; discriminate].
      cbn [List.concat]. rewrite <- flat_map_concat_map, flat_map_app. unfold texts_of. now rewrite map_app.
    + rewrite (split_updates o _ D) in H. injection H as <-. left. exists (map comma_separated_arg (List.concat (said l o))). split; [apply parts_of|]. split; [|now right]. cbn [app]. now rewrite <- flat_map_concat_map.
  - destruct (configure_updates o _ D _ _ H) as (rc & -> & E). eexists. split; [reflexivity|]. intros arguments Ha Ec rule name x. rewrite settings_say.
    destruct (c10_recorded arguments [] Ha) as (out & E' & Hr & _). rewrite Ec, E' in E. injection E as <-. rewrite Hr. destruct (last_value rule name (List.concat arguments)); [reflexivity|]. unfold recorded. cbn [assoc]. reflexivity.
  - exact I.
  - exact I.
Qed.
Lemma c101_meaning argv l names : command argv l names -> Forall good_use l ->
  exists ns, parse_args argv = Values ns [] /\ (forall o, In o options -> means l o (lookup ns (o_dest o))) /\ lookup ns "templates" = texts_of names.
Proof.
  intros H G. destruct (command_updates argv l names H G) as (ns & E & S & T). exists ns. split; [exact E|]. split; [|exact T]. intros o Ho. apply updates_mean; [exact (command_usable _ _ _ H) | exact Ho | now apply S].
Qed.
(** Only the order of the uses of one option matters. *)
Lemma c101_order argv l names argv' l' names' ns ns' : command argv l names -> Forall good_use l -> command argv' l' names' -> Forall good_use l' ->
  (forall o, In o options -> said l o = said l' o) -> names = names' -> parse_args argv = Values ns [] -> parse_args argv' = Values ns' [] ->
  (forall o, In o options -> lookup ns (o_dest o) = lookup ns' (o_dest o)) /\ lookup ns "templates" = lookup ns' "templates".
Proof.
  intros H G H' G' Hs -> E E'. destruct (command_updates _ _ _ H G) as (n1 & E1 & S1 & T1). destruct (command_updates _ _ _ H' G') as (n2 & E2 & S2 & T2).
  rewrite E in E1. injection E1 as <-. rewrite E' in E2. injection E2 as <-. split; [|congruence]. intros o Ho. specialize (S1 o Ho). specialize (S2 o Ho). rewrite (Hs o Ho) in S1. congruence.
Qed.
Lemma stop_at argv l1 x l2 names st : command argv (l1 ++ x :: l2) names -> Forall good_use l1 -> (forall ns, take_action ns (fst x) (snd x) = Stop st) -> parse_args argv = Stop st.
Proof.
  intros H G Hst. pose proof (command_usable _ _ _ H) as U. apply Forall_app in U as [U1 U2].
  destruct (command_parsed _ _ _ H) as (m1 & m2 & E & P). rewrite P. clear P.
    assert (T : forall l ns, Forall usable l -> Forall good_use l -> exists ns', take_actions ns l = Values ns' []) by (intros l ns A B; destruct (actions_update l ns A B) as (ns' & C & _); now exists ns').
    assert (W : forall l ns r, Forall usable l -> Forall good_use l -> take_actions ns (l ++ x :: r) = Stop st).
    { intros l ns r A B. rewrite take_app. destruct (T l ns A B) as [ns' ->]. destruct x as [o vs]. cbn [take_actions fst snd] in *. now rewrite Hst. }
    destruct (app_eq_app l1 (x :: l2) m1 m2 E) as [m [[E1 E2] | [E1 E2]]].
    - destruct m as [|y m].
      + rewrite app_nil_r in E1. subst m1. cbn [app] in E2. subst m2. destruct (T l1 defaults U1 G) as [ns' ->]. cbn [app]. pose proof (W [] (put ns' names) l2 ltac:(constructor) ltac:(constructor)) as X. cbn [app] in X. rewrite X. reflexivity.
      + subst l1 m2. apply Forall_app in U1 as [V1 V2]. apply Forall_app in G as [G1 G2]. destruct (T m1 defaults V1 G1) as [ns' ->]. cbn [app]. pose proof (W (y :: m) (put ns' names) l2 V2 G2) as X. cbn [app] in X. rewrite X. reflexivity.
    - destruct m as [|y m].
      + rewrite app_nil_r in E1. subst m1. cbn [app] in E2. subst m2. destruct (T l1 defaults U1 G) as [ns' ->]. cbn iota. pose proof (W [] (put ns' names) l2 ltac:(constructor) ltac:(constructor)) as X. cbn [app] in X. rewrite X. reflexivity.
      + injection E2 as <- E2. subst m1. rewrite (W l1 defaults m U1 G). reflexivity.
Qed.
Lemma unreadable s : free_of ":" s -> exists e, parse_rule_configuration s = Err e.
Proof.
  intros H. unfold parse_rule_configuration, comma_separated_arg. destruct (split_on "," s) as [|a r] eqn:E; [exfalso; exact (split_on_some _ _ E)|].
  assert (F : free_of ":" a).
  { assert (J : exists t, s = a ++ t) by (rewrite <- (join_split "," s), E; destruct r; cbn [join_str]; [exists ""; now rewrite append_nil_r | eexists; reflexivity]).
    destruct J as [t ->]. clear E. induction a as [|c a IH]; [exact I|]. cbn [append free_of] in *. destruct H. split; auto. }
  cbn [parse_configs]. unfold parse_one_config. rewrite (split_whole _ _ F). eexists. reflexivity.
Qed.
Lemma configure_none vs : (exists s, In s vs /\ free_of ":" s) -> forall items, rule_configuration_action vs items = None.
Proof.
  intros (s & Hs & F). induction vs as [|v vs IH]; [destruct Hs|]. intros items. cbn [rule_configuration_action]. destruct Hs as [->|Hs].
  - destruct (unreadable s F) as [e ->]. reflexivity.
  - destruct (parse_rule_configuration v); [now apply IH | reflexivity].
Qed.
(** The first use of an option that is not as it should be ends the program. *)
Lemma c101_stops argv l1 x l2 names : command argv (l1 ++ x :: l2) names -> Forall good_use l1 ->
  match o_deed (fst x) with
  | PrintHelp | PrintVersion => parse_args argv = Stop 0
  | KeepFormat => Forall (fun v => ~ In v ["quiet"; "parseable"; "json"; "junit"; "pretty"]) (snd x) -> parse_args argv = Stop 32
  | _ => True
  end.
Proof.
  intros H G. pose proof (command_usable _ _ _ H) as U. apply Forall_app in U as [U1 U2]. inversion U2 as [|? ? [Hx [Hd Hr]] U3]; subst.
  pose proof (fun st => stop_at argv l1 x l2 names st H G) as K.
  unfold arity_of in Hr. destruct (o_deed (fst x)) eqn:D; try exact I.
  - intros F. apply K. intros ns. unfold take_action. rewrite D, (remove_absent _ Hd). destruct Hr as [v Ev]. rewrite Ev in *. inversion F as [|? ? F1 _]; subst.
    destruct (smem v formats) eqn:S; [|reflexivity]. exfalso. apply F1. now apply smem_iff in S.
  - apply K. intros ns. unfold take_action. now rewrite D.
  - apply K. intros ns. unfold take_action. now rewrite D.
Qed.
Lemma c101_unreadable argv l1 x l2 names : command argv (l1 ++ x :: l2) names -> Forall good_use l1 ->
  o_deed (fst x) = Configure -> (exists s, In s (snd x) /\ free_of ":" s) -> parse_args argv = Stop 0.
Proof.
  intros H G D B. pose proof (command_usable _ _ _ H) as U. apply Forall_app in U as [U1 U2]. inversion U2 as [|? ? [Hx [Hd Hr]] U3]; subst.
  apply (stop_at argv l1 x l2 names 0 H G). intros ns. unfold take_action. rewrite D, (remove_absent _ Hd), (configure_none _ B). reflexivity.
Qed.
(** An argument that could be the beginning of two names ends the program. *)
Lemma ambiguous_none p n o n' o' x : p = "--" ++ x -> free_of "=" x -> In o options -> In n (o_names o) -> In o' options -> In n' (o_names o') -> n <> n' ->
  starts_with p n = true -> starts_with p n' = true -> ~ (exists o'', In o'' options /\ In p (o_names o'')) -> parse_optional p = None.
Proof.
  intros -> Hf Ho Hn Ho' Hn' D S S' N. assert (A : assoc ("--" ++ x) option_strings = None).
  { destruct (assoc _ _) as [o''|] eqn:E; [|reflexivity]. exfalso. apply N. exists o''. now apply assoc_strings. }
  assert (Q : split_first equals ("--" ++ x) = None).
  { apply split_first_none. cbn [append has_char]. clear - Hf. change (has_char "=" x = false). induction x as [|c x IH]; [reflexivity|]. cbn [free_of has_char] in *. destruct Hf as [Hc Hf]. rewrite (IH Hf), orb_false_r.
    unfold char_eqb. now apply Ascii.eqb_neq. }
  assert (F : exists a b r, filter (fun no => starts_with ("--" ++ x) (fst no)) option_strings = a :: b :: r).
  { destruct (found _ _ Ho Hn) as (_ & _ & _ & _ & _ & I1). destruct (found _ _ Ho' Hn') as (_ & _ & _ & _ & _ & I2).
    assert (J1 : In (n, o) (filter (fun no => starts_with ("--" ++ x) (fst no)) option_strings)) by (apply filter_In; split; assumption).
    assert (J2 : In (n', o') (filter (fun no => starts_with ("--" ++ x) (fst no)) option_strings)) by (apply filter_In; split; assumption).
    destruct (filter _ _) as [|a [|b r]]; [destruct J1 | destruct J1 as [-> | []]; destruct J2 as [[= -> _] | []]; now destruct D | now exists a, b, r]. }
  destruct F as (a & b & r & F). cbn [append] in *. cbn [parse_optional]. change (negb (Ascii.eqb "-" dash)) with false. cbn iota. rewrite A, Q. cbn [String.eqb].
  unfold option_tuples. change (Ascii.eqb "-" dash) with true. cbn iota. rewrite Q, F. reflexivity.
Qed.
Lemma c101_ambiguous before p n o n' o' x rest : p = "--" ++ x -> x <> "" -> free_of "=" x -> In o options -> In n (o_names o) -> In o' options -> In n' (o_names o') -> n <> n' ->
  (exists r, n = p ++ r) -> (exists r, n' = p ++ r) -> ~ (exists o'', In o'' options /\ In p (o_names o'')) -> ~ In "--" before -> parse_args (before ++ p :: rest) = Stop 32.
Proof.
  intros Ep Hx Hf Ho Hn Ho' Hn' D [r Er] [r' Er'] N B. assert (P : parse_optional p = None).
  { apply (ambiguous_none p n o n' o' x); auto; [rewrite Er | rewrite Er']; apply starts_app. }
  assert (T : tokens (before ++ p :: rest) = None).
  { clear - P B Hx Ep. induction before as [|a before IH].
    - cbn [app tokens]. destruct (String.eqb_spec p "--") as [K|]; [exfalso; apply Hx; rewrite K in Ep; injection Ep as <-; reflexivity|]. now rewrite P.
    - cbn [app tokens]. destruct (String.eqb_spec a "--") as [->|]; [exfalso; apply B; now left|]. rewrite IH; [destruct (parse_optional a); reflexivity | intros K; apply B; now right]. }
  unfold parse_args. now rewrite T.
Qed.
(** What is said under the names of the documented options. *)
Definition has_deed (k : deed -> bool) (dn : string * string) : bool :=
  existsb (fun o => String.eqb (o_dest o) (fst dn) && k (o_deed o) && forallb (fun o' => Bool.eqb (existsb (String.eqb (snd dn)) (o_names o')) (String.eqb (o_dest o') (fst dn))) options) options.
Lemma under_said (k : deed -> bool) tbl l dest n : forallb (has_deed k) tbl = true -> Forall usable l -> In (dest, n) tbl -> exists o, In o options /\ o_dest o = dest /\ k (o_deed o) = true /\ under l n = said l o.
Proof.
  intros T U H. rewrite forallb_forall in T. apply T in H. unfold has_deed in H. apply existsb_exists in H as (o & Ho & H). cbn [fst snd] in H. apply andb_prop in H as [H F]. apply andb_prop in H as [D K]. apply String.eqb_eq in D.
  exists o. split; [exact Ho|]. split; [exact D|]. split; [exact K|]. unfold under, said. f_equal. apply filter_ext_in. intros x Hx. rewrite Forall_forall in U. pose proof (U x Hx) as Ux. rewrite forallb_forall in F.
  assert (I : In (fst x) options) by (unfold usable in Ux; tauto). apply F in I. apply eqb_prop in I. rewrite D. exact I.
Qed.
Definition is_switch (d : deed) : bool := match d with Switch => true | _ => false end.
Definition is_keep (d : deed) : bool := match d with Keep | KeepFormat => true | _ => false end.
Definition is_add (d : deed) : bool := match d with Add => true | _ => false end.
Definition is_split (d : deed) : bool := match d with AddSplit => true | _ => false end.
Lemma c101_documented argv l names : command argv l names -> Forall good_use l -> exists ns, parse_args argv = Values ns [] /\
  (forall dest n, In (dest, n) switch_options -> lookup ns dest = VBool true /\ under l n <> [] \/ lookup ns dest = VBool false /\ under l n = []) /\
  (forall dest n, In (dest, n) value_options -> (exists before x, List.concat (under l n) = (before ++ [x])%list /\ lookup ns dest = VStr x) \/ List.concat (under l n) = [] /\ lookup ns dest = VNull) /\
  (forall dest n, In (dest, n) list_options -> lookup ns dest = texts_of (List.concat (under l n))) /\
  (forall dest n, In (dest, n) comma_options ->
     (exists parts, Forall2 (fun x ps => ps <> [] /\ x = join_str "," ps /\ Forall (free_of ",") ps) (List.concat (under l n)) parts /\ lookup ns dest = texts_of (List.concat parts)) \/ under l n = [] /\ dest = "registry_schemas" /\ lookup ns dest = VNull) /\
  lookup ns "templates" = texts_of names.
Proof.
  intros C G. pose proof (command_usable _ _ _ C) as U. destruct (c101_meaning _ _ _ C G) as (ns & E & M & T). exists ns. split; [exact E|].
  split; [|split; [|split; [|split; [|exact T]]]]; intros dest n H.
  - destruct (under_said is_switch switch_options l dest n ltac:(vm_compute; reflexivity) U H) as (o & Ho & <- & K & ->). specialize (M o Ho). unfold means in M. destruct (o_deed o); try discriminate K. exact M.
  - destruct (under_said is_keep value_options l dest n ltac:(vm_compute; reflexivity) U H) as (o & Ho & <- & K & ->). specialize (M o Ho). unfold means in M. destruct (o_deed o); try discriminate K; exact M.
  - destruct (under_said is_add list_options l dest n ltac:(vm_compute; reflexivity) U H) as (o & Ho & <- & K & ->). specialize (M o Ho). unfold means in M. destruct (o_deed o); try discriminate K; exact M.
  - destruct (under_said is_split comma_options l dest n ltac:(vm_compute; reflexivity) U H) as (o & Ho & <- & K & ->). specialize (M o Ho). unfold means in M. destruct (o_deed o); try discriminate K.
    destruct M as [(parts & F & V & _) | (S & D & V)]; [left; now exists parts | right; auto].
Qed.
Lemma c101_named_stops argv l1 x l2 names : command argv (l1 ++ x :: l2) names -> Forall good_use l1 ->
  ((exists n, In n ["-h"; "--help"; "-v"; "--version"] /\ In n (o_names (fst x))) -> parse_args argv = Stop 0) /\
  ((exists n, In n ["-f"; "--format"] /\ In n (o_names (fst x))) -> Forall (fun v => ~ In v ["quiet"; "parseable"; "json"; "junit"; "pretty"]) (snd x) -> parse_args argv = Stop 32).
Proof.
  intros H G. pose proof (c101_stops _ _ _ _ _ H G) as K. pose proof (command_usable _ _ _ H) as U. apply Forall_app in U as [_ U]. inversion U as [|? ? [Hx _] _]; subst.
  assert (D : forall p q, forallb (fun o => negb (existsb (fun n => smem n (o_names o)) p) || q (o_deed o)) options = true ->
    (exists n, In n p /\ In n (o_names (fst x))) -> q (o_deed (fst x)) = true).
  { intros p q E (n & Hn & Hm). pose proof (proj1 (forallb_forall _ _) E _ Hx) as Q. cbv beta in Q. apply orb_true_iff in Q as [Q|Q]; [|exact Q]. exfalso.
    apply negb_true_iff in Q. assert (Y : existsb (fun n => smem n (o_names (fst x))) p = true) by (apply existsb_exists; exists n; split; [exact Hn | now apply smem_iff]). congruence. }
  split; intros N.
  - pose proof (D ["-h"; "--help"; "-v"; "--version"] (fun d => match d with PrintHelp | PrintVersion => true | _ => false end) ltac:(vm_compute; reflexivity) N) as Q. destruct (o_deed (fst x)); try discriminate Q; exact K.
  - pose proof (D ["-f"; "--format"] (fun d => match d with KeepFormat => true | _ => false end) ltac:(vm_compute; reflexivity) N) as Q. destruct (o_deed (fst x)); try discriminate Q; exact K.
Qed.
