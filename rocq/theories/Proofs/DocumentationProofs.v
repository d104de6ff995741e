(** Proofs for C90. *)
From Coq Require Import List Arith Lia Bool Sorting.Sorted Sorting.Permutation.
From Verif.Model Require Import Base Helpers Rules Config Maintenance Documentation.
From Verif.Spec Require Import Files Maintenance Documentation.
From Verif.Proofs Require Import BaseFacts FilesProofs PlaceholderProofs MaintenanceProofs MaintenanceMain.
Import ListNotations.
Local Open Scope string_scope.
Local Open Scope nat_scope.

(** * Lines *)
Lemma join_cons x l : join_str "" (x :: l) = x ++ join_str "" l.
Proof. destruct l; cbn [join_str]; [now rewrite str_app_nil | reflexivity]. Qed.
Lemma join_app l l' : join_str "" (l ++ l')%list = join_str "" l ++ join_str "" l'.
Proof. induction l as [|x l IH]; [reflexivity|]. cbn [app]. rewrite !join_cons, IH. now rewrite str_app_assoc. Qed.
Lemma join_lines s : join_str "" (lines_of s) = s.
Proof.
  induction s as [|c s IH]; [reflexivity|]. cbn [lines_of]. destruct (Ascii.eqb_spec c eol) as [->|N].
  - rewrite join_cons, IH. reflexivity.
  - destruct (lines_of s) as [|l ls]; [cbn [join_str] in *; now rewrite <- IH|]. rewrite join_cons in *. cbn [append]. now rewrite IH.
Qed.
Lemma lines_app a b : lines_of (a ++ line_end ++ b) = (lines_of (a ++ line_end) ++ lines_of b)%list.
Proof.
  induction a as [|c a IH].
  - reflexivity.
  - cbn [append lines_of]. rewrite IH. destruct (Ascii.eqb_spec c eol) as [->|N]; [reflexivity|].
    destruct (lines_of (a ++ line_end)) as [|l ls] eqn:E; [|reflexivity]. destruct a as [|c' a]; [discriminate E|]. cbn [append lines_of] in E. destruct (Ascii.eqb c' eol); [discriminate E|]. now destruct (lines_of (a ++ line_end)).
Qed.
Lemma lines_rules b : lines_of ("## Rules" ++ line_end ++ b) = rules_line :: lines_of b.
Proof. reflexivity. Qed.
Definition line_start (a : string) : Prop := a = "" \/ exists a', a = a' ++ line_end.
Lemma lines_start a b : line_start a -> lines_of (a ++ b) = (lines_of a ++ lines_of b)%list.
Proof. intros [->|[a' ->]]; [reflexivity|]. rewrite str_app_assoc. apply lines_app. Qed.
(** A list of lines, each with an end but perhaps the last. *)
Lemma lines_cons c s : lines_of (String c s) <> [].
Proof. cbn [lines_of]. destruct (Ascii.eqb c eol); [discriminate|]. now destruct (lines_of s). Qed.
Lemma lines_prefix s : forall ls l rest, lines_of s = (ls ++ l :: rest)%list -> rest <> [] \/ (exists x, l = x ++ line_end) -> line_start (join_str "" (ls ++ [l])%list).
Proof.
  induction s as [|c s IH]; intros ls l rest E H; [now destruct ls|]. cbn [lines_of] in E. destruct (Ascii.eqb_spec c eol) as [->|N].
  - destruct ls as [|l0 ls].
    + injection E as <- <-. right. exists "". reflexivity.
    + injection E as <- E. cbn [app]. rewrite join_cons. right. destruct (IH ls l rest E H) as [K|[x K]]; rewrite K.
      * exists "". reflexivity.
      * exists (line_end ++ x). now rewrite str_app_assoc.
  - destruct (lines_of s) as [|l1 ls1] eqn:El.
    + destruct ls as [|l0 [|]]; try discriminate E. injection E as <- <-. destruct H as [H|[x H]]; [now elim H|]. destruct x as [|c' x]; [injection H as ->; now elim N | destruct x; discriminate H].
    + destruct ls as [|l0 ls].
      * injection E as <- <-. cbn [app]. rewrite join_cons. cbn [join_str]. rewrite str_app_nil. right.
        assert (K : line_start (join_str "" [l1])).
        { apply (IH [] l1 ls1); [reflexivity|]. destruct H as [H|[x H]]; [now left|]. right. destruct x as [|c' x]; [injection H as -> _; now elim N|]. injection H as _ ->. now exists x. }
        cbn [join_str] in K. destruct K as [->|[x ->]]; [|now exists (String c x)].
        exfalso. clear IH H N. revert ls1 El. destruct s as [|c' s]; [discriminate|]. cbn [lines_of]. destruct (Ascii.eqb c' eol); [discriminate|]. destruct (lines_of s); discriminate.
      * injection E as <- E. subst ls1. assert (K : line_start (join_str "" (((l1 :: ls) ++ [l])%list))) by (apply (IH (l1 :: ls) l rest); [reflexivity | exact H]).
        cbn [app] in *. rewrite join_cons in *. cbn [append]. right. destruct K as [K|[x K]]; [|exists (String c x); cbn [append]; now rewrite K].
        exfalso. assert (l1 = "") by (destruct l1; [reflexivity | discriminate K]). subst l1. clear - El. destruct s as [|c' s]; [discriminate|]. cbn [lines_of] in El. destruct (Ascii.eqb c' eol); [discriminate|]. destruct (lines_of s); discriminate.
Qed.
Lemma static_cases ls : (exists a b, ls = (a ++ rules_line :: b)%list /\ ~ In rules_line a /\ static_lines ls = (a ++ [rules_line])%list) \/ (~ In rules_line ls /\ static_lines ls = ls).
Proof.
  induction ls as [|l ls IH]; [right; split; [intros [] | reflexivity]|]. cbn [static_lines]. destruct (String.eqb_spec l rules_line) as [->|N].
  - left. exists [], ls. split; [reflexivity|]. split; [intros [] | reflexivity].
  - destruct IH as [[a [b [-> [Ha ->]]]]|[H ->]].
    + left. exists (l :: a), b. split; [reflexivity|]. split; [intros [K|K]; [now elim N | contradiction] | reflexivity].
    + right. split; [intros [K|K]; [now elim N | contradiction] | reflexivity].
Qed.
Lemma opens_lines s a b : opens s a b <-> line_start a /\ s = join_str "" (lines_of a ++ rules_line :: lines_of b)%list.
Proof.
  unfold opens. rewrite join_app, join_cons, !join_lines. unfold rules_line. rewrite str_app_assoc. unfold line_start. tauto.
Qed.
Lemma opens_split s a b : opens s a b -> lines_of s = (lines_of a ++ rules_line :: lines_of b)%list.
Proof. intros [-> H]. rewrite lines_start by exact H. now rewrite lines_rules. Qed.
Lemma first_unique {A} (x : A) a b a' b' : ~ In x a -> (a ++ x :: b = a' ++ x :: b')%list -> exists m, a' = (a ++ m)%list.
Proof.
  revert a'. induction a as [|y a IH]; intros a' H E; [now exists a'|]. destruct a' as [|y' a']; injection E as -> E; [elim H; now left|]. destruct (IH a') with (2 := E) as [m ->]; [intros K; apply H; now right|]. now exists m.
Qed.
Lemma static_is s : static_part s (static_text s).
Proof.
  unfold static_text. destruct (static_cases (lines_of s)) as [[a [b [E [Ha ->]]]]|[H ->]].
  - left. exists (join_str "" a), (join_str "" b). rewrite join_app, join_cons. cbn [join_str]. rewrite str_app_nil.
    assert (S : line_start (join_str "" a)).
    { destruct (rev a) as [|l ra] eqn:Er; [left; rewrite <- (rev_involutive a), Er; reflexivity|]. assert (Ea : a = (rev ra ++ [l])%list) by (rewrite <- (rev_involutive a), Er; reflexivity). subst a.
      apply (lines_prefix s (rev ra) l (rules_line :: b)); [rewrite E, <- app_assoc; reflexivity | left; discriminate]. }
    assert (Q : s = join_str "" a ++ "## Rules" ++ line_end ++ join_str "" b).
    { rewrite <- (join_lines s), E, join_app, join_cons. unfold rules_line. now rewrite str_app_assoc. }
    split; [split; [exact Q | exact S]|]. split; [reflexivity|]. intros a' b' O. apply opens_split in O. rewrite E in O. destruct (first_unique _ _ _ _ _ Ha O) as [m Em].
    rewrite <- (join_lines a'), Em, join_app, str_app_length. lia.
  - right. split; [|apply join_lines]. intros a b O. apply opens_split in O. apply H. rewrite O. apply in_or_app. right. now left.
Qed.
Lemma opens_unique s a b a' b' : opens s a b -> opens s a' b' -> String.length a = String.length a' -> a = a'.
Proof.
  intros [E _] [E' _] L. rewrite E in E'. clear E. revert a' E' L. induction a as [|c a IH]; intros [|c' a'] E L; try discriminate L; [reflexivity|]. injection E as -> E. injection L as L. f_equal. now apply IH.
Qed.
Lemma static_unique s x y : static_part s x -> static_part s y -> x = y.
Proof.
  intros [[a [b [O [-> F]]]]|[H ->]] [[a' [b' [O' [-> F']]]]|[H' ->]].
  - f_equal. assert (L := F _ _ O'). assert (L' := F' _ _ O). apply (opens_unique s a b a' b'); [exact O | exact O' | lia].
  - now elim (H' a b).
  - now elim (H a' b').
  - reflexivity.
Qed.
(** The part that stays is found again on the page that was written. *)
Lemma static_again s rest : (exists a b, opens s a b) -> static_text (static_text s ++ rest) = static_text s.
Proof.
  intros [a0 [b0 O]]. destruct (static_is s) as [[a [b [Oa [E F]]]]|[H _]]; [|now elim (H a0 b0)]. rewrite E.
  assert (Ea : (a ++ "## Rules" ++ line_end) ++ rest = a ++ "## Rules" ++ line_end ++ rest) by (now rewrite !str_app_assoc). rewrite Ea.
  assert (La : lines_of s = (lines_of a ++ rules_line :: lines_of b)%list) by (now apply opens_split).
  assert (Na : ~ In rules_line (lines_of a)).
  { destruct (static_cases (lines_of s)) as [[la [lb [E1 [Hn E2]]]]|[Hn _]]; [|intros _; apply Hn; rewrite La; apply in_or_app; right; now left].
    assert (E3 : join_str "" (la ++ [rules_line])%list = a ++ "## Rules" ++ line_end) by (rewrite <- E2; exact E).
    rewrite join_app in E3. cbn [join_str] in E3. rewrite E1 in La. destruct (first_unique _ _ _ _ _ Hn La) as [m Em].
    assert (Lm : String.length (join_str "" m) = 0).
    { assert (Q : String.length (join_str "" la ++ rules_line) = String.length (a ++ "## Rules" ++ line_end)) by (now rewrite E3). rewrite !str_app_length in Q. rewrite <- (join_lines a), Em, join_app, str_app_length in Q. cbn in Q. lia. }
    assert (Ejm : join_str "" m = "") by (destruct (join_str "" m); [reflexivity | discriminate Lm]).
    rewrite Em. intros K. apply in_app_or in K as [K|K]; [contradiction|]. apply in_split in K as [m1 [m2 ->]]. rewrite join_app, join_cons in Ejm. destruct (join_str "" m1); discriminate Ejm. }
  unfold static_text. rewrite lines_start by (exact (proj2 Oa)). rewrite lines_rules.
  destruct (static_cases (lines_of a ++ rules_line :: lines_of rest)%list) as [[la [lb [E1 [Hn ->]]]]|[Hn _]]; [|elim Hn; apply in_or_app; right; now left].
  destruct (first_unique _ _ _ _ _ Hn (eq_sym E1)) as [m Em]. symmetry in E1. destruct (first_unique _ _ _ _ _ Na (eq_sym E1)) as [m' Em'].
  assert (m = []). { apply (f_equal (@List.length _)) in Em. apply (f_equal (@List.length _)) in Em'. rewrite app_length in *. destruct m; [reflexivity|]. cbn in *. lia. }
  subst m. rewrite app_nil_r in Em. rewrite <- Em, join_app, join_lines. reflexivity.
Qed.

(** * Rules in order *)
Lemma insert_perm x l : Permutation (insert_rule x l) (x :: l).
Proof. induction l as [|y l IH]; cbn [insert_rule]; [reflexivity|]. destruct (str_leb (d_id x) (d_id y)); [reflexivity|]. rewrite IH. apply perm_swap. Qed.
Lemma sort_rules_perm l : Permutation (sort_rules l) l.
Proof. induction l as [|x l IH]; cbn [sort_rules fold_right]; [reflexivity|]. rewrite insert_perm. now constructor. Qed.
Lemma insert_sorted x l : StronglySorted in_id_order l -> StronglySorted in_id_order (insert_rule x l).
Proof.
  induction l as [|y l IH]; intros H; cbn [insert_rule]; [repeat constructor|]. inversion H as [|? ? Hs Hf]; subst. destruct (str_leb (d_id x) (d_id y)) eqn:E.
  - constructor; [exact H|]. assert (L : in_id_order x y) by (now apply leb_iff). constructor; [exact L|]. rewrite Forall_forall in *. intros z Hz. specialize (Hf z Hz). unfold in_id_order in *. apply leb_iff. apply leb_iff in L, Hf. now apply str_leb_trans with (d_id y).
  - constructor; [now apply IH|]. rewrite Forall_forall in *. intros z Hz. apply (Permutation_in _ (insert_perm x l)) in Hz. destruct Hz as [<-|Hz]; [|now apply Hf]. apply leb_iff. destruct (str_leb_total (d_id x) (d_id y)) as [K|K]; [congruence | exact K].
Qed.
Lemma sort_rules_sorted l : StronglySorted in_id_order (sort_rules l).
Proof. induction l as [|x l IH]; cbn [sort_rules fold_right]; [constructor | now apply insert_sorted]. Qed.
Lemma id_unique l x y : NoDup (map d_id l) -> In x l -> In y l -> d_id x = d_id y -> x = y.
Proof.
  induction l as [|z l IH]; intros N Hx Hy E; [now elim Hx|]. cbn [map] in N. inversion N as [|? ? Nz Nl]; subst. destruct Hx as [->|Hx], Hy as [->|Hy]; [reflexivity | | |now apply IH].
  - elim Nz. rewrite E. now apply in_map.
  - elim Nz. rewrite <- E. now apply in_map.
Qed.
Lemma sorted_same l : forall l', NoDup (map d_id l) -> StronglySorted in_id_order l -> StronglySorted in_id_order l' -> Permutation l l' -> l = l'.
Proof.
  induction l as [|x l IH]; intros l' N H H' P.
  - apply Permutation_nil in P. now subst.
  - destruct l' as [|y l']; [apply Permutation_sym, Permutation_nil in P; discriminate|]. inversion H as [|? ? Hs Hf]; subst. inversion H' as [|? ? Hs' Hf']; subst. rewrite Forall_forall in Hf, Hf'.
    assert (Iy : In y (x :: l)) by (apply (Permutation_in _ (Permutation_sym P)); now left). assert (Ix : In x (y :: l')) by (apply (Permutation_in _ P); now left).
    assert (E : x = y).
    { destruct Iy as [->|Iy]; [reflexivity|]. destruct Ix as [->|Ix]; [reflexivity|]. apply (id_unique (x :: l)); [exact N | now left | now right |]. specialize (Hf y Iy). specialize (Hf' x Ix). unfold in_id_order in *. apply leb_iff in Hf, Hf'. now apply str_leb_antisym. }
    subst y. f_equal. inversion N; subst. apply IH; try assumption. now apply (Permutation_cons_inv P).
Qed.

(** * The page *)
Lemma forall2_length {A B} {R : A -> B -> Prop} {l l'} : Forall2 R l l' -> List.length l = List.length l'.
Proof. induction 1; cbn [List.length]; congruence. Qed.
Section Page.
Variable source : string -> res string.
Lemma row_is r file : row_for r file (table_row r file).
Proof. unfold row_for, table_row, shown_id. exists (if d_experimental r then d_id r ++ "*" else d_id r). split; [now destruct (d_experimental r) | reflexivity]. Qed.
Lemma rows_written rs text : write_rows source rs = (text, Ok tt) ->
  exists rows, Forall2 (fun r row => exists file, source (d_id r) = Ok file /\ row_for r file row) rs rows /\ text = join_str "" rows ++ table_foot.
Proof.
  revert text. induction rs as [|r rs IH]; intros text E; cbn [write_rows] in E.
  - injection E as <-. exists []. split; [constructor | reflexivity].
  - destruct (source (d_id r)) as [file|e] eqn:Es; [|discriminate E]. destruct (write_rows source rs) as [t x]. cbn [fst snd] in E. injection E as <- ->. destruct (IH t eq_refl) as [rows [F ->]].
    exists (table_row r file :: rows). split; [constructor; [|exact F]; exists file; split; [exact Es | apply row_is]|]. rewrite join_cons. symmetry. apply str_app_assoc.
Qed.
(** What the page is when the update ends well. *)
Lemma c90_page rules s page : update_documentation source rules (Some s) = (Some page, Ok tt) ->
  exists s0 rows, static_part s s0 /\ rows_for source rules rows /\ page = s0 ++ table_head (List.length rows) ++ join_str "" rows ++ table_foot.
Proof.
  unfold update_documentation. destruct (write_rows source (base_docs ++ sort_rules rules)%list) as [text x] eqn:E. cbn [fst snd]. intros Q. assert (x = Ok tt) by congruence. subst x. injection Q as <-.
  destruct (rows_written _ _ E) as [rows [F ->]]. exists (static_text s), rows. split; [apply static_is|]. split; [exists (sort_rules rules); split; [apply sort_rules_perm|]; split; [apply sort_rules_sorted | exact F]|].
  assert (L := forall2_length F). rewrite app_length in L. cbn [base_docs List.length] in L. replace (List.length (sort_rules rules) + 3) with (List.length rows) by lia. reflexivity.
Qed.
(** It ends well exactly when each rule is found in the sources. *)
Lemma c90_ends rules s : snd (update_documentation source rules (Some s)) = Ok tt <-> forall r, In r (base_docs ++ rules)%list -> exists file, source (d_id r) = Ok file.
Proof.
  assert (A : forall rs, snd (write_rows source rs) = Ok tt <-> forall r, In r rs -> exists file, source (d_id r) = Ok file).
  { induction rs as [|r rs IH]; cbn [write_rows]; [split; [intros _ r [] | reflexivity]|]. destruct (source (d_id r)) as [file|e] eqn:Es; cbn [snd].
    - rewrite IH. split; [intros H r' [<-|Hr]; [now exists file | now apply H] | intros H r' Hr; apply H; now right].
    - split; [discriminate | intros H]. destruct (H r (or_introl eq_refl)) as [file K]. congruence. }
  unfold update_documentation. cbn [snd]. rewrite A. split; intros H r Hr; apply H; apply in_app_or in Hr as [Hr|Hr]; apply in_or_app; [now left | right | now left | right].
  - apply (Permutation_in _ (Permutation_sym (sort_rules_perm rules))). exact Hr.
  - apply (Permutation_in _ (sort_rules_perm rules)). exact Hr.
Qed.
(** However it ends, the part that is not generated stays. *)
Lemma c90_static rules s s0 : static_part s s0 -> exists rest, fst (update_documentation source rules (Some s)) = Some (s0 ++ rest).
Proof. intros H. rewrite (static_unique s s0 _ H (static_is s)). unfold update_documentation. cbn [fst]. now eexists. Qed.
(** Once more changes nothing, if the page has the line that opens the part on rules. *)
Lemma c90_again rules s : (exists a b, opens s a b) -> update_documentation source rules (fst (update_documentation source rules (Some s))) = update_documentation source rules (Some s).
Proof. intros H. unfold update_documentation. cbn [fst]. now rewrite static_again. Qed.
(** The order in which the rules were loaded does not matter. *)
Lemma c90_order rules rules' page : NoDup (map d_id rules) -> Permutation rules rules' -> update_documentation source rules page = update_documentation source rules' page.
Proof.
  intros N P. assert (E : sort_rules rules = sort_rules rules').
  { apply sorted_same; [|apply sort_rules_sorted | apply sort_rules_sorted | now rewrite !sort_rules_perm]. apply (Permutation_NoDup (l := map d_id rules)); [|exact N]. apply Permutation_map, Permutation_sym, sort_rules_perm. }
  unfold update_documentation. now rewrite E.
Qed.
End Page.

(** * The policies *)
Lemma strip_iff p : forall s r, strip_prefix p s = Some r <-> s = p ++ r.
Proof.
  induction p as [|a p IH]; intros s r; cbn [strip_prefix append]; [split; [intros E; now injection E | now intros ->]|]. destruct s as [|b s]; [split; discriminate|]. destruct (Ascii.eqb_spec a b) as [->|N].
  - rewrite IH. split; [now intros -> | intros E; now injection E].
  - split; [discriminate | intros E; injection E as -> _; now elim N].
Qed.
Lemma strip_none p s : strip_prefix p s = None <-> forall r, s <> p ++ r.
Proof.
  split.
  - intros E r Q. apply strip_iff in Q. congruence.
  - intros H. destruct (strip_prefix p s) as [r|] eqn:E; [|reflexivity]. apply strip_iff in E. now elim (H r).
Qed.
Lemma first_next p c s a b : strip_prefix p (String c s) = None -> first_at p s a b -> first_at p (String c s) (String c a) b.
Proof.
  intros N [O F]. unfold occurs_at in *. split; [unfold occurs_at; rewrite O; reflexivity|]. intros a' b' K. unfold occurs_at in K. destruct a' as [|c' a']; [elim (proj1 (strip_none _ _) N b'); exact K|]. injection K as <- K. cbn [String.length]. apply le_n_S. now apply (F a' b').
Qed.
(** Where the first occurrence is. *)
Lemma find_first p s : (exists b, text_after p s = Some b /\ first_at p s (text_before p s) b) \/ (text_after p s = None /\ text_before p s = s /\ forall a b, ~ occurs_at p s a b).
Proof.
  induction s as [|c s IH].
  - cbn [text_after text_before]. destruct (strip_prefix p "") as [r|] eqn:E.
    + left. exists r. split; [reflexivity|]. apply strip_iff in E. split; [exact E|]. intros; cbn; lia.
    + right. split; [reflexivity|]. split; [reflexivity|]. intros a b O. unfold occurs_at in O. destruct a as [|c a]; [|discriminate O]. exact (proj1 (strip_none _ _) E b O).
  - cbn [text_after text_before]. destruct (strip_prefix p (String c s)) as [r|] eqn:E.
    + left. exists r. split; [reflexivity|]. apply strip_iff in E. split; [exact E|]. intros; cbn; lia.
    + destruct IH as [[b [-> F]]|[-> [-> H]]].
      * left. exists b. split; [reflexivity|]. now apply first_next.
      * right. split; [reflexivity|]. split; [reflexivity|]. intros a b O. unfold occurs_at in O. destruct a as [|c' a]; [exact (proj1 (strip_none _ _) E b O)|]. injection O as _ O. exact (H a b O).
Qed.
Lemma same_length_app a b : forall p p', a ++ p = b ++ p' -> String.length a = String.length b -> a = b /\ p = p'.
Proof.
  revert b. induction a as [|c a IH]; intros [|c' b] p p' E L; try discriminate L; [now split|]. injection E as -> E. injection L as L. destruct (IH b p p' E L) as [-> ->]. now split.
Qed.
Lemma app_inj_left p b b' : p ++ b = p ++ b' -> b = b'.
Proof. induction p as [|c p IH]; cbn [append]; [trivial|]. intros E. injection E as E. now apply IH. Qed.
Lemma first_at_unique p s a b a' b' : first_at p s a b -> first_at p s a' b' -> a = a' /\ b = b'.
Proof.
  intros [O F] [O' F']. assert (L := F _ _ O'). assert (L' := F' _ _ O). unfold occurs_at in *. rewrite O in O'. destruct (same_length_app a a' _ _ O') as [-> E]; [lia|]. split; [reflexivity | now apply app_inj_left in E].
Qed.
Lemma second_iff text part : second_part text = Ok part <-> between_marks "app.PolicyEditorConfig=" text part.
Proof.
  unfold second_part. change "app.PolicyEditorConfig=" with policies_mark. destruct (find_first policies_mark text) as [[b [-> F]]|[-> [_ H]]].
  - assert (K : text_before policies_mark b = part <-> (exists b', first_at policies_mark b part b') \/ ((forall a' b', ~ occurs_at policies_mark b a' b') /\ part = b)).
    { destruct (find_first policies_mark b) as [[b2 [_ F2]]|[_ [E2 H2]]].
      - split; [intros <-; left; now exists b2|]. intros [[b' F']|[H' _]]; [now apply (first_at_unique _ _ _ _ _ _ F2 F') | elim (H' _ _ (proj1 F2))].
      - rewrite E2. split; [intros <-; now right|]. intros [[b' F']|[_ ->]]; [elim (H2 _ _ (proj1 F')) | reflexivity]. }
    split.
    + intros E. injection E as E. exists (text_before policies_mark text), b. split; [exact F|]. now apply K.
    + intros [a [b' [F' Q]]]. destruct (first_at_unique _ _ _ _ _ _ F F') as [_ <-]. f_equal. now apply K.
  - split; [discriminate|]. intros [a [b [[O _] _]]]. elim (H a b O).
Qed.
Lemma assoc_split {A} k (d : list (string * A)) x : assoc k d = Some x -> exists a b, d = (a ++ (k, x) :: b)%list /\ ~ In k (map fst a) /\ forall y, set_assoc k y d = (a ++ (k, y) :: b)%list.
Proof.
  induction d as [|[k' z] d IH]; cbn [assoc set_assoc]; [discriminate|]. destruct (String.eqb_spec k k') as [->|N].
  - intros E. injection E as ->. exists [], d. split; [reflexivity|]. split; [intros [] | reflexivity].
  - intros E. destruct (IH E) as [a [b [-> [Na S]]]]. exists ((k', z) :: a), b. split; [reflexivity|]. split; [intros [K|K]; [now elim N | contradiction]|]. intros y. rewrite S. reflexivity.
Qed.
Lemma split_assoc {A} k (a b : list (string * A)) x : ~ In k (map fst a) -> assoc k (a ++ (k, x) :: b)%list = Some x /\ forall y, set_assoc k y (a ++ (k, x) :: b)%list = (a ++ (k, y) :: b)%list.
Proof.
  induction a as [|[k' z] a IH]; cbn [app assoc set_assoc]; intros H; [rewrite String.eqb_refl; now split|]. destruct (String.eqb_spec k k') as [->|N]; [elim H; now left|]. destruct IH as [E S]; [intros K; apply H; now right|]. split; [exact E|]. intros y. now rewrite S.
Qed.
Lemma extend_iff service actions v v' : extend_actions service actions v = Ok v' <-> changed_at (with_more actions) ["serviceMap"; service; "Actions"] v v'.
Proof.
  unfold extend_actions. split.
  - unfold at_key. destruct v as [|b|z|q|s|l|d]; try discriminate. destruct (assoc "serviceMap" d) as [v1|] eqn:E1; [|discriminate]. cbn [bind fst snd].
    destruct v1 as [|b|z|q|s|l|d1]; try discriminate. destruct (assoc service d1) as [v2|] eqn:E2; [|discriminate]. cbn [bind fst snd].
    destruct v2 as [|b|z|q|s|l|d2]; try discriminate. destruct (assoc "Actions" d2) as [v3|] eqn:E3; [|discriminate]. cbn [bind fst snd].
    destruct v3 as [|b|z|q|s|l|d3]; try discriminate. intros E. injection E as <-.
    destruct (assoc_split _ _ _ E1) as [a1 [b1 [-> [N1 S1]]]]. destruct (assoc_split _ _ _ E2) as [a2 [b2 [-> [N2 S2]]]]. destruct (assoc_split _ _ _ E3) as [a3 [b3 [-> [N3 S3]]]]. rewrite S1, S2, S3.
    constructor; [exact N1|]. constructor; [exact N2|]. constructor; [exact N3|]. constructor. now exists l.
  - intros H. inversion H as [|k1 ks1 a1 x1 y1 b1 N1 H1]; subst. inversion H1 as [|k2 ks2 a2 x2 y2 b2 N2 H2]; subst. inversion H2 as [|k3 ks3 a3 x3 y3 b3 N3 H3]; subst. inversion H3 as [? ? [l [-> ->]]|]; subst.
    destruct (split_assoc _ a1 b1 (VDict (a2 ++ (service, VDict (a3 ++ ("Actions", VList l) :: b3)%list) :: b2)%list) N1) as [E1 S1]. destruct (split_assoc _ a2 b2 (VDict (a3 ++ ("Actions", VList l) :: b3)%list) N2) as [E2 S2]. destruct (split_assoc _ a3 b3 (VList l) N3) as [E3 S3].
    unfold at_key. rewrite E1. cbn [bind fst snd]. rewrite E2. cbn [bind fst snd]. rewrite E3. cbn [bind fst snd]. now rewrite S1, S2, S3.
Qed.
Section Policies.
Variable loads : string -> option val.
Lemma policies_iff text v : policies_from loads text = Ok v <-> policies_of loads text v.
Proof.
  unfold policies_from, policies_of. split.
  - destruct (second_part text) as [part|e] eqn:E; [|discriminate]. cbn [bind]. destruct (loads part) as [v0|] eqn:El; [|discriminate]. destruct (extend_actions gateway _ v0) as [v1|e] eqn:E1; [|discriminate]. cbn [bind]. intros E2.
    exists part, v0, v1. split; [now apply second_iff|]. split; [exact El|]. split; [exact (proj1 (extend_iff _ _ _ _) E1) | exact (proj1 (extend_iff _ _ _ _) E2)].
  - intros [part [v0 [v1 [B [El [C1 C2]]]]]]. apply second_iff in B. rewrite B. cbn [bind]. rewrite El. apply extend_iff in C1, C2. change "Manage Amazon API Gateway" with gateway in C1. rewrite C1. cbn [bind]. exact C2.
Qed.
Notation update := (update_policies loads).
Lemma put_one {A} (f : string -> option A) k x : put f k x k = Some x.
Proof. unfold put. now rewrite String.eqb_refl. Qed.
Lemma put_two {A} (f : string -> option A) k x n : n <> k -> put f k x n = f n.
Proof. unfold put. intros H. apply String.eqb_neq in H. now rewrite H. Qed.
(** At every moment of an update of the policies their file is as before, cut short, or made from what the server sent; it is the latter when the
    update ends well, and as before when it does not; no other file is changed. *)
Lemma c90_policies ns w w' p : run ns w update = (w', p) ->
  let made f := exists n reply text v, In n ns /\ n_get n policies_url = Ok reply /\ r_text reply = Ok text /\ policies_of loads text v /\ f = Some (Whole v) in
  (policies_file w' = policies_file w \/ policies_file w' = Some Cut \/ made (policies_file w')) /\
  (p = Return (Ok tt) -> made (policies_file w')) /\
  (forall e, p = Return (Err e) -> w' = w) /\
  w_meta w' = w_meta w /\ forall r, r <> "Policies" -> w_spec w' r = w_spec w r.
Proof.
  intros E made.
  assert (K : (w' = w /\ p <> Return (Ok tt)) \/
              (exists n reply text v, In n ns /\ n_get n policies_url = Ok reply /\ r_text reply = Ok text /\ policies_of loads text v /\
                 ((w' = mkWorld (w_dir w) (w_meta w) (put (w_spec w) "Policies" Cut) /\ (forall r, p <> Return r)) \/ (w' = mkWorld (w_dir w) (w_meta w) (put (put (w_spec w) "Policies" Cut) "Policies" (Whole v)) /\ p = Return (Ok tt))))).
  { destruct ns as [|n ns]; [injection E as <- <-; left; split; [reflexivity | discriminate]|]. unfold update_policies in E. cbn [run advance fst snd] in E.
    destruct (n_get n policies_url) as [reply|e] eqn:Eg; [|rewrite run_return in E; injection E as <- <-; left; split; [reflexivity | discriminate]].
    destruct (r_text reply) as [text|e] eqn:Et; [|rewrite run_return in E; injection E as <- <-; left; split; [reflexivity | discriminate]].
    destruct (policies_from loads text) as [v|e] eqn:Ep; [|rewrite run_return in E; injection E as <- <-; left; split; [reflexivity | discriminate]].
    destruct ns as [|n2 ns]; cbn [run advance fst snd] in E; [injection E as <- <-; left; split; [reflexivity | discriminate]|]. right. exists n, reply, text, v. apply policies_iff in Ep.
    split; [now left|]. split; [exact Eg|]. split; [exact Et|]. split; [exact Ep|]. destruct ns as [|n3 ns]; cbn [run advance fst snd w_dir w_meta w_spec] in E.
    - injection E as <- <-. left. split; [reflexivity | discriminate].
    - rewrite run_return in E. injection E as <- <-. right. now split. }
  destruct K as [[-> Np]|[n [reply [text [v [Hn [Hg [Ht [Hv [[-> Np]|[-> ->]]]]]]]]]]].
  - split; [now left|]. split; [intros Q; contradiction|]. split; [reflexivity|]. split; reflexivity.
  - unfold policies_file. cbn [w_spec w_meta]. rewrite put_one. split; [right; now left|]. split; [intros Q; now elim (Np (Ok tt))|]. split; [intros e Q; now elim (Np (Err e))|]. split; [reflexivity|]. intros r Hr. now apply put_two.
  - unfold policies_file. cbn [w_spec w_meta]. rewrite put_one. assert (M : made (Some (Whole v))) by (exists n, reply, text, v; now repeat split). split; [now right; right|]. split; [now intros _|]. split; [discriminate|]. split; [reflexivity|]. intros r Hr. now rewrite !put_two.
Qed.
(** Whatever the file was before, also when it was cut short, a good server gives a whole one. *)
Lemma c90_repair n ns w reply text v : n_get n policies_url = Ok reply -> r_text reply = Ok text -> policies_of loads text v ->
  exists w', run (n :: n :: n :: ns) w update = (w', Return (Ok tt)) /\ policies_file w' = Some (Whole v).
Proof.
  intros Hg Ht Hv. apply policies_iff in Hv. unfold update_policies. cbn [run advance fst snd]. rewrite Hg, Ht, Hv. cbn [run advance fst snd w_dir w_meta w_spec]. rewrite run_return. eexists. split; [reflexivity|]. apply put_one.
Qed.
End Policies.
