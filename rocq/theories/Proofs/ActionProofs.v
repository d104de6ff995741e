(** E2541: the actions of pipelines. *)
From Coq Require Import List String Ascii ZArith Lia Sorting.Sorted.
From Verif.Model Require Import Base Helpers Locate Node Conditions Search Resolve Rules Relationship Limits Parameters Functions ConditionRules PropertyRules SubProps Pipelines.
From Verif.Spec Require Import Paths Branches References Required Walk Values Truth Resolved Groups Nested Pipelines.
From Verif.Proofs Require Import BaseFacts SearchProofs BranchProofs RelationRule SubPropsProofs PropertyRuleProofs Places Says MatchRun StageMain.
Import Verif.Model.Rules.
Import ListNotations.
Local Open Scope string_scope.

(** * One action *)
(** The faults of an action, given the names of the actions before it in the stage and those of the artifacts. *)
Inductive fault_given (N K : string -> Prop) (a : list (string * val)) : path -> string -> Prop :=
| fg_name : forall x, assoc "Name" a = Some (VStr x) -> N x -> fault_given N K a [PKey "Name"] ("All action names within a stage must be unique. (" ++ x ++ ")")
| fg_length : forall s, version_of a s -> ~ (1 <= String.length s <= 9) ->
    fault_given N K a [PKey "ActionTypeId"; PKey "Version"] ("Version string (" ++ s ++ ") must be between 1 and 9 characters in length.")
| fg_letters : forall s, version_of a s -> 1 <= String.length s <= 9 -> ~ version_ok s ->
    fault_given N K a [PKey "ActionTypeId"; PKey "Version"] "Version string must match the pattern [0-9A-Za-z_-]+."
| fg_count : forall key low high count name, wants a key low high -> artifacts a key count -> ~ (low <= count <= high) -> assoc "Name" a = Some (VStr name) ->
    fault_given N K a [PKey key] ("Action """ ++ name ++ """ declares " ++ str_of_Z (Z.of_nat count) ++ " " ++ key ++ " which is not " ++ expected low high)
| fg_input : forall k x, artifact a "InputArtifacts" k x -> ~ K x ->
    fault_given N K a [PKey "InputArtifacts"; PKey "Name"] ("Every input artifact for an action must match the output artifact of an action earlier in the pipeline. (" ++ x ++ ")")
| fg_output : forall k x, artifact a "OutputArtifacts" k x -> (K x \/ exists k', k' < k /\ artifact a "OutputArtifacts" k' x) ->
    fault_given N K a [PKey "OutputArtifacts"; PKey "Name"] ("Every output artifact in the pipeline must have a unique name. (" ++ x ++ ")").
Lemma fault_given_ext N K N' K' a q words : (forall x, N x <-> N' x) -> (forall x, K x <-> K' x) -> fault_given N K a q words -> fault_given N' K' a q words.
Proof.
  intros HN HK F. inversion F as [x H1 H2 E1 E2|s H1 H2 E1 E2|s H1 H2 H3 E1 E2|key low high count name H1 H2 H3 H4 E1 E2|k x H1 H2 E1 E2|k x H1 H2 E1 E2]; subst.
  - apply fg_name; [exact H1 | now apply HN].
  - now apply fg_length.
  - now apply (fg_letters _ _ _ s).
  - now apply fg_count.
  - apply (fg_input _ _ _ k); [exact H1|]. now rewrite <- HK.
  - apply (fg_output _ _ _ k); [exact H1|]. now rewrite <- HK.
Qed.
(** ** Versions *)
Lemma version_char_letter c : version_char c = true <-> version_letter c.
Proof.
  unfold version_char, version_letter, is_alnum, is_upper, is_lower, is_digit, in_range, code, char_eqb. cbv zeta.
  rewrite !orb_true_iff, !andb_true_iff, !Nat.leb_le, !Ascii.eqb_eq. split.
  - intros [[[[H|H]|H]| ->]| ->]; try (cbn; lia).
  - intros [H|[H|[H|[H|H]]]]; auto; [left; right | right]; rewrite <- (ascii_nat_embedding c), H; reflexivity.
Qed.
Lemma version_word_iff t : negb (String.eqb t "") && forallb version_char (list_ascii_of_string t) = true <-> version_word t.
Proof.
  unfold version_word. rewrite andb_true_iff, negb_true_iff, forallb_forall, String.eqb_neq. split; intros [H1 H2]; (split; [exact H1|]); intros a Ha; now apply version_char_letter, H2.
Qed.
Lemma newline_char : newline = ascii_of_nat 10.
Proof. reflexivity. Qed.
Lemma drop_newline_spec s : (drop_last_newline s = s /\ forall w, s <> w ++ String (ascii_of_nat 10) "") \/ s = drop_last_newline s ++ String (ascii_of_nat 10) "".
Proof.
  induction s as [|a s IH]; [left; split; [reflexivity|]; intros [|? ?] [=]|]. destruct s as [|b s].
  - cbn [drop_last_newline]. unfold char_eqb. destruct (Ascii.eqb_spec a newline) as [->|H]; [right; reflexivity|]. left. split; [reflexivity|]. intros [|c [|? w]] [= E]. now apply H.
  - change (drop_last_newline (String a (String b s))) with (String a (drop_last_newline (String b s))). destruct IH as [[-> H]|H].
    + left. split; [reflexivity|]. intros [|c w] [= -> E]. now apply (H w).
    + right. cbn [append]. now rewrite <- H.
Qed.
Lemma word_no_newline w : version_word w -> forall u, w <> u ++ String (ascii_of_nat 10) "".
Proof.
  intros [_ H] u ->. assert (K : In (ascii_of_nat 10) (list_ascii_of_string (u ++ String (ascii_of_nat 10) ""))). { clear. induction u as [|c u IH]; cbn; auto. }
  apply H in K. unfold version_letter in K. rewrite nat_ascii_embedding in K by lia. lia.
Qed.
Lemma append_last_inj u w c : u ++ String c "" = w ++ String c "" -> u = w.
Proof.
  revert w. induction u as [|a u IH]; intros [|b w] E; cbn in E; try reflexivity.
  - injection E as _ E. destruct w; discriminate E.
  - injection E as _ E. destruct u; discriminate E.
  - injection E as -> E. f_equal. now apply IH.
Qed.
Lemma version_matches_iff s : version_matches s = true <-> version_ok s.
Proof.
  unfold version_matches, version_ok. cbv zeta. rewrite version_word_iff. destruct (drop_newline_spec s) as [[-> H]|H].
  - split; [auto|]. intros [K|[w [E _]]]; [exact K | now elim (H w)].
  - split; [intros K; right; eauto|]. intros [K|[w [E K]]]; [now elim (word_no_newline s K _ H)|]. rewrite H in E. apply append_last_inj in E. now rewrite E.
Qed.
Lemma version_says a p : action_shaped a -> says (check_action_version (VDict a) p) (fun m => exists q words, m = mkRM (p ++ q)%list words /\
  ((exists s, version_of a s /\ ~ (1 <= String.length s <= 9) /\ q = [PKey "ActionTypeId"; PKey "Version"] /\ words = ("Version string (" ++ s ++ ") must be between 1 and 9 characters in length.")) \/
   (exists s, version_of a s /\ 1 <= String.length s <= 9 /\ ~ version_ok s /\ q = [PKey "ActionTypeId"; PKey "Version"] /\ words = "Version string must match the pattern [0-9A-Za-z_-]+."))).
Proof.
  intros [_ [[t [Et _]] _]]. unfold check_action_version. cbn [vget_def bind]. rewrite Et. cbn [vget bind].
  assert (Hv : forall s, version_of a s <-> assoc "Version" t = Some (VStr s)). { intros s. split; [intros [t' [E K]]; congruence | intros K; exists t; auto]. }
  assert (Hno : (forall s, assoc "Version" t <> Some (VStr s)) -> forall P Q, says (Ok []) (fun m : rulematch => exists q words, m = mkRM (p ++ q)%list words /\ ((exists s, version_of a s /\ P s q words) \/ (exists s, version_of a s /\ Q s q words)))).
  { intros H P Q. eapply says_ext; [apply says_none|]. intros m. split; [intros []|]. intros [q [words [_ [[s [K _]]|[s [K _]]]]]]; apply Hv in K; now elim (H s). }
  destruct (assoc "Version" t) as [[| | | |s| |]|] eqn:Ev; try (apply Hno; intros s' [=]). clear Hno.
  destruct (Nat.leb 1 (String.length s) && Nat.leb (String.length s) 9) eqn:El; cbn [negb].
  - apply andb_true_iff in El as [E1 E2]. apply Nat.leb_le in E1, E2. destruct (version_matches s) eqn:Em.
    + apply version_matches_iff in Em. eapply says_ext; [apply says_none|]. intros m. split; [intros []|]. intros [q [words [_ [[s' [K [L _]]]|[s' [K [_ [L _]]]]]]]]; apply Hv in K; injection K as <-; [now apply L | now elim L].
    + assert (Hm : ~ version_ok s) by (intros K; apply version_matches_iff in K; congruence). eapply says_ext; [apply says_one|]. intros m. split.
      * intros ->. do 2 eexists. split; [reflexivity|]. right. exists s. rewrite Hv. auto.
      * intros [q [words [-> [[s' [K [L _]]]|[s' [K [_ [L [-> ->]]]]]]]]]; [apply Hv in K; injection K as <-; now elim L | reflexivity].
  - assert (Hl : ~ (1 <= String.length s <= 9)). { intros [K1 K2]. apply Nat.leb_le in K1, K2. rewrite K1, K2 in El. discriminate. }
    eapply says_ext; [apply says_one|]. intros m. split.
    + intros ->. do 2 eexists. split; [reflexivity|]. left. exists s. rewrite Hv. auto.
    + intros [q [words [-> [[s' [K [L [-> ->]]]]|[s' [K [L _]]]]]]]; apply Hv in K; injection K as <-; [reflexivity | contradiction].
Qed.
(** ** Numbers of artifacts *)
Definition bounds (r : range) : nat * nat := match r with exactly n => (n, n) | between a b => (a, b) end.
Lemma constraints_row o c p : constraints_of (VStr o) (VStr c) (VStr p) =
  Ok (match assoc o CONSTRAINTS with Some l => match assoc c l with Some l => assoc p l | None => None end | None => None end).
Proof. unfold constraints_of, row. cbn [hashable bind]. destruct (assoc o CONSTRAINTS) as [l|]; cbn [bind assoc]; [|reflexivity]. now destruct (assoc c l). Qed.
Definition proper (r : range) : Prop := match r with between x y => x <> y | _ => True end.
Lemma constraints_table o c p : exists r, constraints_of (VStr o) (VStr c) (VStr p) = Ok r /\ (forall i u, In (o, c, p, i, u) artifact_table <-> option_map (fun r => (bounds (fst r), bounds (snd r))) r = Some (i, u)) /\
  forall ri ru, r = Some (ri, ru) -> proper ri /\ proper ru.
Proof.
  rewrite constraints_row. eexists. split; [reflexivity|]. split; [intros i u; split|].
  - intros H. unfold artifact_table in H. repeat (destruct H as [[= <- <- <- <- <-]|H]; [reflexivity|]). destruct H.
  - intros H. unfold CONSTRAINTS in H. cbn [assoc] in H.
    repeat match type of H with context [String.eqb o ?k] => destruct (String.eqb_spec o k) as [->|?]; cbv iota in H; cbn [assoc] in H end; try discriminate H;
    repeat match type of H with context [String.eqb c ?k] => destruct (String.eqb_spec c k) as [->|?]; cbv iota in H; cbn [assoc] in H end; try discriminate H;
    repeat match type of H with context [String.eqb p ?k] => destruct (String.eqb_spec p k) as [->|?]; cbv iota in H; cbn [assoc] in H end; try discriminate H;
    cbn in H; injection H as <- <-; cbn; tauto.
  - intros ri ru H. unfold CONSTRAINTS in H. cbn [assoc] in H.
    repeat match type of H with context [String.eqb o ?k] => destruct (String.eqb_spec o k) as [->|?]; cbv iota in H; cbn [assoc] in H end; try discriminate H;
    repeat match type of H with context [String.eqb c ?k] => destruct (String.eqb_spec c k) as [->|?]; cbv iota in H; cbn [assoc] in H end; try discriminate H;
    repeat match type of H with context [String.eqb p ?k] => destruct (String.eqb_spec p k) as [->|?]; cbv iota in H; cbn [assoc] in H end; try discriminate H;
    cbn in H; injection H as <- <-; cbn; split; (exact I || discriminate).
Qed.
Definition key_of (inputs : bool) : string := if inputs then "InputArtifacts" else "OutputArtifacts".
Lemma counts_says show inputs a p : action_shaped a -> says (check_artifact_counts show inputs (VDict a) p) (fun m => exists low high count name, wants a (key_of inputs) low high /\ artifacts a (key_of inputs) count /\
  ~ (low <= count <= high) /\ assoc "Name" a = Some (VStr name) /\
  m = mkRM (p ++ [PKey (key_of inputs)])%list ("Action """ ++ name ++ """ declares " ++ str_of_Z (Z.of_nat count) ++ " " ++ key_of inputs ++ " which is not " ++ expected low high)).
Proof.
  intros [[nm En] [[t [Et Hl]] Ha]]. unfold check_artifact_counts. cbn [vget bind]. rewrite Et. cbn [vget bind].
  assert (Hw : forall low high, wants a (key_of inputs) low high -> exists o c pr i u, assoc "Owner" t = Some (VStr o) /\ assoc "Category" t = Some (VStr c) /\ assoc "Provider" t = Some (VStr pr) /\
      In (o, c, pr, i, u) artifact_table /\ (low, high) = if inputs then i else u).
  { intros low high [t' [o [c [pr [i [u [E [E1 [E2 [E3 [Hi Hk]]]]]]]]]]]. rewrite Et in E. injection E as <-. exists o, c, pr, i, u. split; [exact E1|]. split; [exact E2|]. split; [exact E3|]. split; [exact Hi|].
    destruct inputs, Hk as [[K E]|[K E]]; try exact E; discriminate K. }
  match goal with |- says _ ?P => assert (Hnone : (forall low high, ~ wants a (key_of inputs) low high) -> says (Ok []) P) end.
  { intros K. eapply says_ext; [apply says_none|]. intros m. split; [intros []|]. intros [low [high [c [n [H _]]]]]. now elim (K low high). }
  remember (match assoc "Owner" t with Some x => x | None => VNull end) as owner eqn:Qo. remember (match assoc "Category" t with Some x => x | None => VNull end) as category eqn:Qc. remember (match assoc "Provider" t with Some x => x | None => VNull end) as provider eqn:Qp.
  destruct (is_dict owner || is_dict category || is_dict provider) eqn:Ed.
  { apply Hnone. intros low high K. apply Hw in K as [o [c [pr [i [u [E1 [E2 [E3 _]]]]]]]]. rewrite E1 in Qo. rewrite E2 in Qc. rewrite E3 in Qp. subst. discriminate Ed. }
  apply orb_false_iff in Ed as [Ed D3]. apply orb_false_iff in Ed as [D1 D2].
  assert (Hh : hashable owner = true /\ hashable category = true /\ hashable provider = true).
  { rewrite Qo, Qc, Qp in *. split; [|split].
    - destruct (assoc "Owner" t) as [[| | | | |l|]|] eqn:E; try reflexivity; [now elim (Hl "Owner" l (or_introl eq_refl)) | discriminate D1].
    - destruct (assoc "Category" t) as [[| | | | |l|]|] eqn:E; try reflexivity; [now elim (Hl "Category" l (or_intror (or_introl eq_refl))) | discriminate D2].
    - destruct (assoc "Provider" t) as [[| | | | |l|]|] eqn:E; try reflexivity; [now elim (Hl "Provider" l (or_intror (or_intror (or_introl eq_refl)))) | discriminate D3]. }
  destruct Hh as [H1 [H2 H3]].
  assert (Hcon : exists r, constraints_of owner category provider = Ok r /\ (forall low high, wants a (key_of inputs) low high <-> option_map (fun r => bounds (if inputs then fst r else snd r)) r = Some (low, high)) /\ forall ri ru, r = Some (ri, ru) -> proper ri /\ proper ru).
  { assert (Hfar : (forall o c pr, ~ (owner = VStr o /\ category = VStr c /\ provider = VStr pr)) -> forall low high, wants a (key_of inputs) low high <-> @None (nat * nat) = Some (low, high)).
    { intros K low high. split; [|discriminate]. intros W. apply Hw in W as [o [c [pr [i [u [E1 [E2 [E3 _]]]]]]]]. elim (K o c pr). rewrite Qo, Qc, Qp, E1, E2, E3. auto. }
    destruct owner as [| | | |o| |]; try (exists None; split; [unfold constraints_of, row; rewrite H1, H2; cbn [bind]; rewrite H3; destruct category; cbn [bind assoc]; destruct provider; reflexivity | split; [apply Hfar; intros ? ? ? [[=] _] | intros ? ? [=]]]).
    destruct category as [| | | |c| |]; try (exists None; split; [unfold constraints_of, row; rewrite H1, H2; cbn [bind]; rewrite H3; destruct provider; reflexivity | split; [apply Hfar; intros ? ? ? [_ [[=] _]] | intros ? ? [=]]]).
    destruct provider as [| | | |pr| |]; try (exists None; split; [unfold constraints_of, row; rewrite H1, H2; cbn [bind]; now rewrite H3 | split; [apply Hfar; intros ? ? ? [_ [_ [=]]] | intros ? ? [=]]]).
    destruct (constraints_table o c pr) as [r [E [K Kp]]]. exists r. split; [exact E|]. split; [|exact Kp]. intros low high. split.
    - intros W. apply Hw in W as [o' [c' [pr' [i [u [E1 [E2 [E3 [Hi Hlh]]]]]]]]]. rewrite E1 in Qo. rewrite E2 in Qc. rewrite E3 in Qp. injection Qo as <-. injection Qc as <-. injection Qp as <-.
      apply K in Hi. destruct r as [r|]; [|discriminate Hi]. cbn [option_map] in *. injection Hi as E4 E5. f_equal. rewrite Hlh. destruct inputs; assumption.
    - destruct r as [[ri ru]|]; [|discriminate]. cbn [option_map fst snd] in *. intros [= E4]. assert (Hi : In (o, c, pr, bounds ri, bounds ru) artifact_table) by (apply K; reflexivity).
      exists t, o, c, pr, (bounds ri), (bounds ru). split; [exact Et|]. 
      destruct (assoc "Owner" t) as [xo|]; [|discriminate Qo]. destruct (assoc "Category" t) as [xc|]; [|discriminate Qc]. destruct (assoc "Provider" t) as [xp|]; [|discriminate Qp]. subst.
      split; [reflexivity|]. split; [reflexivity|]. split; [reflexivity|]. split; [exact Hi|]. destruct inputs; [left | right]; auto. }
  destruct Hcon as [r [-> [Hr Hprop]]]. cbn [bind]. destruct r as [both|]; [|apply Hnone; intros low high K; apply Hr in K; discriminate K]. clear Hnone.
  cbn [option_map] in Hr. set (rg := if inputs then fst both else snd both) in *. cbn [vget_def bind]. change (artifacts_of inputs) with (key_of inputs).
  assert (Hc : exists count, py_len (match assoc (key_of inputs) a with Some x => x | None => VList [] end) = Ok (Z.of_nat count) /\ forall n, artifacts a (key_of inputs) n <-> n = count).
  { unfold artifacts. destruct (assoc (key_of inputs) a) as [x|] eqn:Ex.
    - destruct (Ha (key_of inputs) x) as [l [-> _]]; [destruct inputs; cbn; auto | exact Ex|]. exists (List.length l). split; [reflexivity|]. intros n. split; [intros [[[=] _]|[l' [[= <-] <-]]]; reflexivity | intros ->; right; eauto].
    - exists 0. split; [reflexivity|]. intros n. split; [intros [[_ ->]|[l [[=] _]]]; reflexivity | intros ->; now left]. }
  destruct Hc as [count [-> Hc]]. cbn [bind]. assert (Ea : action_name show (VDict a) = Ok nm) by (unfold action_name; now rewrite En). rewrite Ea. cbn [bind].
  assert (Hout : forall words, (forall low high, bounds rg = (low, high) -> words = "Action """ ++ nm ++ """ declares " ++ str_of_Z (Z.of_nat count) ++ " " ++ key_of inputs ++ " which is not " ++ expected low high) ->
     ~ (fst (bounds rg) <= count <= snd (bounds rg)) -> says (Ok [mkRM (p ++ [PKey (key_of inputs)])%list words]) (fun m => exists low high count name, wants a (key_of inputs) low high /\ artifacts a (key_of inputs) count /\
       ~ (low <= count <= high) /\ assoc "Name" a = Some (VStr name) /\ m = mkRM (p ++ [PKey (key_of inputs)])%list ("Action """ ++ name ++ """ declares " ++ str_of_Z (Z.of_nat count) ++ " " ++ key_of inputs ++ " which is not " ++ expected low high))).
  { intros words Hwords Hno. eapply says_ext; [apply says_one|]. intros m. split.
    - intros ->. exists (fst (bounds rg)), (snd (bounds rg)), count, nm. split; [apply Hr; now destruct (bounds rg)|]. split; [now apply Hc|]. split; [exact Hno|]. split; [exact En|]. f_equal. apply Hwords. now destruct (bounds rg).
    - intros [low [high [c [name [W [Hcc [_ [En' ->]]]]]]]]. apply Hr in W. injection W as W. apply Hc in Hcc as ->. rewrite En in En'. injection En' as <-. now rewrite (Hwords low high W). }
  assert (Hin : fst (bounds rg) <= count <= snd (bounds rg) -> says (Ok []) (fun m => exists low high count name, wants a (key_of inputs) low high /\ artifacts a (key_of inputs) count /\
       ~ (low <= count <= high) /\ assoc "Name" a = Some (VStr name) /\ m = mkRM (p ++ [PKey (key_of inputs)])%list ("Action """ ++ name ++ """ declares " ++ str_of_Z (Z.of_nat count) ++ " " ++ key_of inputs ++ " which is not " ++ expected low high))).
  { intros K. eapply says_ext; [apply says_none|]. intros m. split; [intros []|]. intros [low [high [c [name [W [Hcc [Hno _]]]]]]]. apply Hr in W. injection W as W. apply Hc in Hcc as ->. rewrite W in K. now elim Hno. }
  assert (Hrg : match rg with between x y => x <> y | _ => True end).
  { destruct both as [ri ru]. destruct (Hprop ri ru eq_refl) as [P1 P2]. subst rg. destruct inputs; assumption. }
  destruct rg as [x|x y]; cbn [bounds fst snd] in *.
  - destruct (Z.eqb_spec (Z.of_nat count) (Z.of_nat x)) as [E|E]; [apply Hin; lia|]. apply Hout; [|lia]. intros low high [= <- <-]. unfold expected. rewrite Nat.eqb_refl. reflexivity.
  - destruct ((Z.of_nat x <=? Z.of_nat count)%Z && (Z.of_nat count <=? Z.of_nat y)%Z) eqn:E.
    + apply andb_true_iff in E as [E1 E2]. apply Z.leb_le in E1, E2. apply Hin. lia.
    + apply andb_false_iff in E. apply Hout; [|rewrite !Z.leb_gt in E; lia]. intros low high [= <- <-]. unfold expected. apply Nat.eqb_neq in Hrg. rewrite Hrg. reflexivity.
Qed.
(** ** Names *)
Lemma unique_action_says a p names : says (unique_action (VDict a) p names) (fun m => exists x, assoc "Name" a = Some (VStr x) /\ In x names /\ m = mkRM (p ++ [PKey "Name"])%list ("All action names within a stage must be unique. (" ++ x ++ ")")).
Proof.
  unfold unique_action. cbn [vget bind]. destruct (assoc "Name" a) as [[| | | |s| |]|]; try (eapply says_ext; [apply says_none|]; intros m; split; [intros [] | intros [x [[=] _]]]).
  destruct (smem s names) eqn:E.
  - apply smem_iff in E. eapply says_ext; [apply says_one|]. intros m. split; [intros ->; eauto | intros [x [[= <-] [_ ->]]]; reflexivity].
  - eapply says_ext; [apply says_none|]. intros m. split; [intros []|]. intros [x [[= <-] [K _]]]. apply smem_iff in K. congruence.
Qed.
Lemma names_after_in a names x : In x (names_after (VDict a) names) <-> assoc "Name" a = Some (VStr x) \/ In x names.
Proof.
  unfold names_after. cbn [vget]. destruct (assoc "Name" a) as [[| | | |s| |]|]; try (split; [now right | intros [[=]|H]; exact H]).
  cbn [In]. split; (intros [H|H]; [left | now right]); [now subst | now injection H].
Qed.
Lemma inputs_says p known l : (forall y, In y l -> exists d, y = VDict d) -> says (check_inputs p known l) (fun m => exists k d x, nth_error l k = Some (VDict d) /\ assoc "Name" d = Some (VStr x) /\ ~ In x known /\
  m = mkRM (p ++ [PKey "InputArtifacts"; PKey "Name"])%list ("Every input artifact for an action must match the output artifact of an action earlier in the pipeline. (" ++ x ++ ")")).
Proof.
  induction l as [|y l IH]; intros Hl; [eapply says_ext; [apply says_none|]; intros m; split; [intros [] | intros [k [d [x [E _]]]]; destruct k; discriminate E]|].
  cbn [check_inputs]. destruct (Hl y (or_introl eq_refl)) as [d ->]. cbn [vget bind]. destruct (IH (fun z Hz => Hl z (or_intror Hz))) as [ms [-> Hms]]. cbn [bind]. eexists. split; [reflexivity|]. intros m. rewrite in_app_iff, Hms. split.
  - intros [H|[k [d' [x H]]]]; [|exists (S k), d', x; exact H]. destruct (assoc "Name" d) as [[| | | |s| |]|] eqn:En; try destruct H. destruct (smem s known) eqn:E; [destruct H|]. destruct H as [<-|[]]. exists 0, d, s. split; [reflexivity|]. split; [exact En|]. split; [|reflexivity].
    intros K. apply smem_iff in K. congruence.
  - intros [[|k] [d' [x [H1 [H2 [H3 ->]]]]]]; [|right; exists k, d', x; auto]. left. injection H1 as <-. rewrite H2. destruct (smem x known) eqn:E; [apply smem_iff in E; contradiction | now left].
Qed.
Lemma outputs_says p l : (forall y, In y l -> exists d, y = VDict d) -> forall known, exists known' ms, check_outputs p known l = (known', Ok ms) /\
  (forall x, In x known' <-> In x known \/ exists k d, nth_error l k = Some (VDict d) /\ assoc "Name" d = Some (VStr x)) /\
  forall m, In m ms <-> exists k d x, nth_error l k = Some (VDict d) /\ assoc "Name" d = Some (VStr x) /\ (In x known \/ exists k' d', k' < k /\ nth_error l k' = Some (VDict d') /\ assoc "Name" d' = Some (VStr x)) /\
    m = mkRM (p ++ [PKey "OutputArtifacts"; PKey "Name"])%list ("Every output artifact in the pipeline must have a unique name. (" ++ x ++ ")").
Proof.
  induction l as [|y l IH]; intros Hl known.
  - exists known, []. split; [reflexivity|]. split; [intros x; split; [auto | intros [H|[k [d [E _]]]]; [exact H | destruct k; discriminate E]]|]. intros m. split; [intros [] | intros [k [d [x [E _]]]]; destruct k; discriminate E].
  - cbn [check_outputs]. destruct (Hl y (or_introl eq_refl)) as [d ->]. cbn [vget].
    assert (Hskip : (forall x, assoc "Name" d <> Some (VStr x)) -> exists known' ms, check_outputs p known l = (known', Ok ms) /\
      (forall x, In x known' <-> In x known \/ exists k d', nth_error (VDict d :: l) k = Some (VDict d') /\ assoc "Name" d' = Some (VStr x)) /\
      forall m, In m ms <-> exists k d' x, nth_error (VDict d :: l) k = Some (VDict d') /\ assoc "Name" d' = Some (VStr x) /\ (In x known \/ exists k' d'', k' < k /\ nth_error (VDict d :: l) k' = Some (VDict d'') /\ assoc "Name" d'' = Some (VStr x)) /\
        m = mkRM (p ++ [PKey "OutputArtifacts"; PKey "Name"])%list ("Every output artifact in the pipeline must have a unique name. (" ++ x ++ ")")).
    { intros Hno. destruct (IH (fun z Hz => Hl z (or_intror Hz)) known) as [known' [ms [E [H1 H2]]]]. exists known', ms. split; [exact E|]. split.
      - intros x. rewrite H1. split; (intros [H|[k [d' [K1 K2]]]]; [now left | right]); [exists (S k), d'; auto|]. destruct k as [|k]; [injection K1 as <-; now elim (Hno x) | exists k, d'; auto].
      - intros m. rewrite H2. split.
        + intros [k [d' [x [K1 [K2 [K3 ->]]]]]]. exists (S k), d', x. split; [exact K1|]. split; [exact K2|]. split; [|reflexivity]. destruct K3 as [K3|[k' [d'' [L1 [L2 L3]]]]]; [now left|]. right. exists (S k'), d''. split; [lia|]. auto.
        + intros [k [d' [x [K1 [K2 [K3 ->]]]]]]. destruct k as [|k]; [injection K1 as <-; now elim (Hno x)|]. exists k, d', x. split; [exact K1|]. split; [exact K2|]. split; [|reflexivity]. destruct K3 as [K3|[k' [d'' [L1 [L2 L3]]]]]; [now left|].
          destruct k' as [|k']; [injection L2 as <-; now elim (Hno x)|]. right. exists k', d''. split; [lia|]. auto. }
    destruct (assoc "Name" d) as [[| | | |s| |]|] eqn:En; try (apply Hskip; intros x [=]). clear Hskip.
    destruct (IH (fun z Hz => Hl z (or_intror Hz)) (s :: known)) as [known' [ms [E [H1 H2]]]]. rewrite E. cbn [fst snd bind]. do 2 eexists. split; [reflexivity|]. split.
    + intros x. rewrite H1. cbn [In]. split.
      * intros [[<-|H]|[k [d' [K1 K2]]]]; [right; exists 0, d; auto | now left | right; exists (S k), d'; auto].
      * intros [H|[[|k] [d' [K1 K2]]]]; [auto | injection K1 as <-; rewrite En in K2; injection K2 as ->; auto | right; exists k, d'; auto].
    + intros m. rewrite in_app_iff, H2. split.
      * intros [H|[k [d' [x [K1 [K2 [K3 ->]]]]]]].
        -- destruct (smem s known) eqn:Es; [|destruct H]. destruct H as [<-|[]]. apply smem_iff in Es. exists 0, d, s. auto.
        -- exists (S k), d', x. split; [exact K1|]. split; [exact K2|]. split; [|reflexivity]. destruct K3 as [[<-|K3]|[k' [d'' [L1 [L2 L3]]]]]; [right; exists 0, d; split; [lia | auto] | now left|]. right. exists (S k'), d''. split; [lia|]. auto.
      * intros [k [d' [x [K1 [K2 [K3 ->]]]]]]. destruct k as [|k].
        -- left. injection K1 as <-. rewrite En in K2. injection K2 as <-. destruct K3 as [K3|[k' [d'' [L1 _]]]]; [|lia]. apply smem_iff in K3. rewrite K3. now left.
        -- right. exists k, d', x. split; [exact K1|]. split; [exact K2|]. split; [|reflexivity]. destruct K3 as [K3|[k' [d'' [L1 [L2 L3]]]]]; [left; now right|].
           destruct k' as [|k']; [injection L2 as <-; rewrite En in L3; injection L3 as <-; left; now left|]. right. exists k', d''. split; [lia|]. auto.
Qed.
Lemma artifact_names_says a p known : action_shaped a -> exists known' ms, check_artifact_names (VDict a) p known = (known', Ok ms) /\
  (forall x, In x known' <-> In x known \/ exists k, artifact a "OutputArtifacts" k x) /\
  forall m, In m ms <->
    (exists k x, artifact a "InputArtifacts" k x /\ ~ In x known /\ m = mkRM (p ++ [PKey "InputArtifacts"; PKey "Name"])%list ("Every input artifact for an action must match the output artifact of an action earlier in the pipeline. (" ++ x ++ ")")) \/
    (exists k x, artifact a "OutputArtifacts" k x /\ (In x known \/ exists k', k' < k /\ artifact a "OutputArtifacts" k' x) /\ m = mkRM (p ++ [PKey "OutputArtifacts"; PKey "Name"])%list ("Every output artifact in the pipeline must have a unique name. (" ++ x ++ ")")).
Proof.
  intros [_ [_ Ha]]. unfold check_artifact_names. cbn [vget bind].
  assert (Hin : says (match match assoc "InputArtifacts" a with Some x => x | None => VNull end with VList l => check_inputs p known l | _ => Ok [] end)
    (fun m => exists k x, artifact a "InputArtifacts" k x /\ ~ In x known /\ m = mkRM (p ++ [PKey "InputArtifacts"; PKey "Name"])%list ("Every input artifact for an action must match the output artifact of an action earlier in the pipeline. (" ++ x ++ ")"))).
  { unfold artifact. destruct (assoc "InputArtifacts" a) as [x|] eqn:E.
    - destruct (Ha "InputArtifacts" x) as [l [-> Hl]]; [now left | exact E|]. eapply says_ext; [apply inputs_says; exact Hl|]. intros m. cbv beta. split.
      + intros [k [d [x [K1 [K2 [K3 ->]]]]]]. exists k, x. split; [exists l, d; auto | auto].
      + intros [k [x [[l' [d [[= <-] [K1 K2]]]] [K3 ->]]]]. exists k, d, x. auto.
    - eapply says_ext; [apply says_none|]. intros m. split; [intros [] | intros [k [x [[l' [d [[=] _]]] _]]]]. }
  destruct Hin as [ms [-> Hms]]. unfold artifact in *. destruct (assoc "OutputArtifacts" a) as [x|] eqn:E.
  - destruct (Ha "OutputArtifacts" x) as [l [-> Hl]]; [right; now left | exact E|]. destruct (outputs_says p l Hl known) as [known' [ms' [E' [H1 H2]]]]. rewrite E'. cbn [fst snd bind]. do 2 eexists. split; [reflexivity|]. split.
    + intros x. rewrite H1. split; (intros [H|K]; [now left | right]); [destruct K as [k [d [K1 K2]]]; exists k, l, d; auto | destruct K as [k [l' [d [[= <-] [K1 K2]]]]]; exists k, d; auto].
    + intros m. rewrite in_app_iff, Hms, H2. split; (intros [H|H]; [left; exact H | right]).
      * destruct H as [k [d [x [K1 [K2 [K3 ->]]]]]]. exists k, x. split; [exists l, d; auto|]. split; [|reflexivity]. destruct K3 as [K3|[k' [d' [L1 [L2 L3]]]]]; [now left | right; exists k'; split; [exact L1 | exists l, d'; auto]].
      * destruct H as [k [x [[l' [d [[= <-] [K1 K2]]]] [K3 ->]]]]. exists k, d, x. split; [exact K1|]. split; [exact K2|]. split; [|reflexivity]. destruct K3 as [K3|[k' [L1 [l' [d' [[= <-] [L2 L3]]]]]]]; [now left | right; exists k', d'; auto].
  - do 2 eexists. split; [reflexivity|]. split; [intros x; split; [now left | intros [H|[k [l [d [[=] _]]]]]; exact H]|]. intros m. rewrite Hms. split; [now left | intros [H|[k [x [[l [d [[=] _]]] _]]]]; exact H].
Qed.
Lemma action_says show a p names known : action_shaped a -> exists known' ms, check_action show (VDict a) p names known = (known', Ok ms) /\
  (forall x, In x known' <-> In x known \/ exists k, artifact a "OutputArtifacts" k x) /\
  forall m, In m ms <-> exists q words, fault_given (fun x => In x names) (fun x => In x known) a q words /\ m = mkRM (p ++ q)%list words.
Proof.
  intros Hs. unfold check_action. destruct (unique_action_says a p names) as [m1 [-> H1]], (version_says a p Hs) as [m2 [-> H2]], (counts_says show true a p Hs) as [m3 [-> H3]], (counts_says show false a p Hs) as [m4 [-> H4]].
  cbn [forallb is_ok andb]. destruct (artifact_names_says a p known Hs) as [known' [m5 [-> [Hk H5]]]]. cbn [fst snd app tried bind]. exists known'. eexists. split; [reflexivity|]. split; [exact Hk|].
  intros m. rewrite !in_app_iff, H1, H2, H3, H4, H5. split.
  - intros [[x [E [Hx ->]]]|[[q [words [-> [[s [K1 [K2 [-> ->]]]]|[s [K1 [K2 [K3 [-> ->]]]]]]]]]|[[low [high [count [name [K1 [K2 [K3 [K4 ->]]]]]]]]|[[low [high [count [name [K1 [K2 [K3 [K4 ->]]]]]]]]|[[[k [x [K1 [K2 ->]]]]|[k [x [K1 [K2 ->]]]]]|[]]]]]].
    + do 2 eexists. split; [apply fg_name; eassumption | reflexivity].
    + do 2 eexists. split; [apply fg_length; eassumption | reflexivity].
    + do 2 eexists. split; [eapply fg_letters; eassumption | reflexivity].
    + do 2 eexists. split; [eapply fg_count; eassumption | reflexivity].
    + do 2 eexists. split; [eapply fg_count; eassumption | reflexivity].
    + do 2 eexists. split; [eapply fg_input; eassumption | reflexivity].
    + do 2 eexists. split; [eapply fg_output; eassumption | reflexivity].
  - intros [q [words [F ->]]]. inversion F as [x E Hx E1 E2|s K1 K2 E1 E2|s K1 K2 K3 E1 E2|key low high count name K1 K2 K3 K4 E1 E2|k x K1 K2 E1 E2|k x K1 K2 E1 E2]; subst.
    + left. exists x. auto.
    + right; left. do 2 eexists. split; [reflexivity|]. left. exists s. auto.
    + right; left. do 2 eexists. split; [reflexivity|]. right. exists s. auto.
    + assert (Hkey : key = key_of true \/ key = key_of false). { destruct K1 as [t [o [c [pr [i [u [_ [_ [_ [_ [_ [[E _]|[E _]]]]]]]]]]]]]; auto. }
      destruct Hkey as [->| ->]; [right; right; left | right; right; right; left]; exists low, high, count, name; auto.
    + right; right; right; right; left. left. exists k, x. auto.
    + right; right; right; right; left. right. exists k, x. auto.
Qed.

(** * Lists of stages and of actions *)
Fixpoint kept_from (i : nat) (l : list val) : list (nat * list (string * val)) :=
  match l with
  | [] => []
  | x :: l => ((match x with VDict d => if Node.is_novalue x then [] else [(i, clean d)] | _ => [] end) ++ kept_from (S i) l)%list
  end.
Definition kept (l : list val) := kept_from 0 l.
Definition plain_items (l : list val) : Prop := forall x, In x l -> x = no_value \/ exists d, x = VDict d /\ forall y, d <> [("Fn::If", y)].
Lemma filter_all {A} (l : list A) : filter (fun _ => true) l = l.
Proof. induction l as [|x l IH]; cbn; [reflexivity | now rewrite IH]. Qed.
Lemma items_kept l r : plain_items l -> list_items_safe (fun _ => true) l r = map (fun ia => (VDict (snd ia), (r ++ [PIdx (fst ia)])%list)) (kept l).
Proof.
  intros H. unfold list_items_safe. rewrite filter_all. unfold enum, kept. generalize 0. induction l as [|x l IH]; intros i; [reflexivity|]. cbn [enum_from flat_map kept_from fst snd].
  rewrite map_app, <- IH by (intros y Hy; apply H; now right). f_equal. destruct (H x (or_introl eq_refl)) as [->|[d [-> Hd]]]; [reflexivity|].
  rewrite items_safe_leaf; [now destruct (Node.is_novalue (VDict d))|]. intros [y [=]]. now elim (Hd y).
Qed.
Lemma kept_from_in l : forall i j a, In (j, a) (kept_from i l) <-> i <= j /\ exists d, nth_error l (j - i) = Some (VDict d) /\ VDict d <> no_value /\ pruned d a.
Proof.
  induction l as [|x l IH]; intros i j a; [split; [intros [] | intros [_ [d [E _]]]; destruct (j - i); discriminate E]|].
  cbn [kept_from]. rewrite in_app_iff, IH. split.
  - intros [H|[Hi [d [E K]]]].
    + destruct x as [| | | | | |d]; try destruct H. destruct (Node.is_novalue (VDict d)) eqn:En; [destruct H|]. destruct H as [[= <- <-]|[]]. split; [lia|]. exists d. rewrite Nat.sub_diag. split; [reflexivity|]. split; [now apply is_novalue_false in En|]. now apply clean_pruned.
    + split; [lia|]. exists d. replace (j - i) with (S (j - S i)) by lia. auto.
  - intros [Hi [d [E [Hn Hp]]]]. destruct (Nat.eq_dec j i) as [->|Hne].
    + left. rewrite Nat.sub_diag in E. injection E as ->. apply clean_pruned in Hp as <-. apply is_novalue_false in Hn. rewrite Hn. now left.
    + right. split; [lia|]. exists d. replace (j - i) with (S (j - S i)) in E by lia. auto.
Qed.
Lemma kept_in l j a : In (j, a) (kept l) <-> exists d, nth_error l j = Some (VDict d) /\ VDict d <> no_value /\ pruned d a.
Proof. unfold kept. rewrite kept_from_in, Nat.sub_0_r. split; [intros [_ H]; exact H | intros H; split; [lia | exact H]]. Qed.
Lemma kept_ordered l : forall i, StronglySorted (fun x y : nat * list (string * val) => fst x < fst y) (kept_from i l).
Proof.
  induction l as [|x l IH]; intros i; [constructor|]. cbn [kept_from]. destruct x as [| | | | | |d]; try apply IH. destruct (Node.is_novalue (VDict d)); [apply IH|]. cbn [app]. constructor; [apply IH|].
  apply Forall_forall. intros [j a] Hj. apply kept_from_in in Hj as [Hj _]. cbn [fst]. lia.
Qed.
Lemma ordered_split {A} (pre : list (nat * A)) x post : StronglySorted (fun x y : nat * A => fst x < fst y) (pre ++ x :: post) -> forall y, In y pre <-> In y (pre ++ x :: post) /\ fst y < fst x.
Proof.
  induction pre as [|z pre IH]; intros H y; cbn [app] in H |- *; inversion H as [|? ? Hs Hf]; subst; rewrite Forall_forall in Hf.
  - split; [intros []|]. intros [[<-|Hy] K]; [lia|]. apply Hf in Hy. lia.
  - specialize (IH Hs y). cbn [In]. rewrite IH. split.
    + intros [<-|[Hy K]]; [split; [now left|]; apply Hf; apply in_or_app; right; now left | auto].
    + intros [[<-|Hy] K]; auto.
Qed.

(** * The loops *)
Lemma actions_loop_says show p q r items : (forall i a, In (i, a) items -> action_shaped a) -> forall names known, exists ms names' known',
  actions_loop show p q (map (fun ia => (VDict (snd ia), (r ++ [PIdx (fst ia)])%list)) items) names known = Ok (ms, names', known') /\
  (forall x, In x known' <-> In x known \/ exists i a k, In (i, a) items /\ artifact a "OutputArtifacts" k x) /\
  forall m, In m ms <-> exists pre i a post t words, items = (pre ++ (i, a) :: post)%list /\
    fault_given (fun x => In x names \/ exists j b, In (j, b) pre /\ assoc "Name" b = Some (VStr x)) (fun x => In x known \/ exists j b k, In (j, b) pre /\ artifact b "OutputArtifacts" k x) a t words /\
    m = mkRM ((p ++ q ++ r ++ [PIdx i]) ++ t)%list words.
Proof.
  induction items as [|[i a] items IH]; intros Hs names known.
  - exists [], names, known. split; [reflexivity|]. split; [intros x; split; [now left | intros [H|[? [? [? [[] _]]]]]; exact H]|].
    intros m. split; [intros [] | intros [pre [i [a [post [t [words [E _]]]]]]]; destruct pre; discriminate E].
  - cbn [map actions_loop fst snd]. destruct (action_says show a (p ++ q ++ r ++ [PIdx i])%list names known (Hs i a (or_introl eq_refl))) as [known1 [ms1 [E1 [Hk1 Hm1]]]].
    replace (p ++ q ++ r ++ [PIdx i])%list with (p ++ q ++ (r ++ [PIdx i]))%list in E1 by reflexivity. rewrite E1. cbn [fst snd bind].
    destruct (IH (fun j b H => Hs j b (or_intror H)) (names_after (VDict a) names) known1) as [ms [names' [known' [-> [Hk Hm]]]]]. cbn [bind fst snd]. do 3 eexists. split; [reflexivity|]. split.
    + intros x. rewrite Hk, Hk1. split.
      * intros [[H|[k H]]|[j [b [k [H K]]]]]; [now left | right; exists i, a, k; split; [now left | exact H] | right; exists j, b, k; split; [now right | exact K]].
      * intros [H|[j [b [k [[[= <- <-]|H] K]]]]]; [now left; left | left; right; eauto | right; exists j, b, k; auto].
    + intros m. rewrite in_app_iff, Hm1, Hm. split.
      * intros [[t [words [F ->]]]|[pre [j [b [post [t [words [-> [F ->]]]]]]]]].
        -- exists [], i, a, items, t, words. split; [reflexivity|]. split; [|reflexivity]. revert F. apply fault_given_ext; intros x; (split; [now left | intros [H|H]; [exact H|]]); [destruct H as [? [? [[] _]]] | destruct H as [? [? [? [[] _]]]]].
        -- exists ((i, a) :: pre), j, b, post, t, words. split; [reflexivity|]. split; [|reflexivity]. revert F. apply fault_given_ext; intros x.
           ++ rewrite names_after_in. split.
              ** intros [[H|H]|[j' [b' [H K]]]]; [right; exists i, a; split; [now left | exact H] | now left | right; exists j', b'; split; [now right | exact K]].
              ** intros [H|[j' [b' [[[= <- <-]|H] K]]]]; [left; now right | left; now left | right; exists j', b'; auto].
           ++ rewrite Hk1. split.
              ** intros [[H|[k H]]|[j' [b' [k [H K]]]]]; [now left | right; exists i, a, k; split; [now left | exact H] | right; exists j', b', k; split; [now right | exact K]].
              ** intros [H|[j' [b' [k [[[= <- <-]|H] K]]]]]; [left; now left | left; right; eauto | right; exists j', b', k; auto].
      * intros [pre [j [b [post [t [words [E [F ->]]]]]]]]. destruct pre as [|[i' a'] pre]; cbn [app] in E.
        -- left. injection E as <- <- <-. exists t, words. split; [|reflexivity]. revert F. apply fault_given_ext; intros x; (split; [intros [H|H]; [exact H|] | now left]); [destruct H as [? [? [[] _]]] | destruct H as [? [? [? [[] _]]]]].
        -- right. injection E as <- <- ->. exists pre, j, b, post, t, words. split; [reflexivity|]. split; [|reflexivity]. revert F. apply fault_given_ext; intros x.
           ++ rewrite names_after_in. split.
              ** intros [H|[j' [b' [[[= <- <-]|H] K]]]]; [left; now right | left; now left | right; exists j', b'; auto].
              ** intros [[H|H]|[j' [b' [H K]]]]; [right; exists i, a; split; [now left | exact H] | now left | right; exists j', b'; split; [now right | exact K]].
           ++ rewrite Hk1. split.
              ** intros [H|[j' [b' [k [[[= <- <-]|H] K]]]]]; [left; now left | left; right; eauto | right; exists j', b', k; auto].
              ** intros [[H|[k H]]|[j' [b' [k [H K]]]]]; [now left | right; exists i, a, k; split; [now left | exact H] | right; exists j', b', k; split; [now right | exact K]].
Qed.
(** Stages as the loop meets them. *)
Definition stage_shaped (s : list (string * val)) : Prop :=
  exists l, assoc "Actions" s = Some (VList l) /\ plain_items l /\ forall i a, In (i, a) (kept l) -> action_shaped a.
Definition action_of (s : list (string * val)) (i : nat) (a : list (string * val)) : Prop := exists l, assoc "Actions" s = Some (VList l) /\ In (i, a) (kept l).
Lemma listed_stage key s l : assoc key s = Some (VList l) -> listed_in key (VDict s) = Ok [(VList l, [PKey key])].
Proof. intros E. unfold listed_in, get_safe. rewrite E. reflexivity. Qed.
Lemma stages_loop_says show p r items : (forall n s, In (n, s) items -> stage_shaped s) -> forall known, exists ms known',
  stages_loop show p (map (fun ia => (VDict (snd ia), (r ++ [PIdx (fst ia)])%list)) items) known = Ok (ms, known', true) /\
  forall m, In m ms <-> exists pre n s post i a t words, items = (pre ++ (n, s) :: post)%list /\ action_of s i a /\
    fault_given (fun x => exists j b, action_of s j b /\ j < i /\ assoc "Name" b = Some (VStr x))
      (fun x => In x known \/ (exists n' s' j b k, In (n', s') pre /\ action_of s' j b /\ artifact b "OutputArtifacts" k x) \/ exists j b k, action_of s j b /\ j < i /\ artifact b "OutputArtifacts" k x) a t words /\
    m = mkRM (p ++ r ++ [PIdx n; PKey "Actions"; PIdx i] ++ t)%list words.
Proof.
  induction items as [|[n s] items IH]; intros Hs known.
  - exists [], known. split; [reflexivity|]. intros m. split; [intros [] | intros [pre [n [s [post [i [a [t [words [E _]]]]]]]]]; destruct pre; discriminate E].
  - cbn [map stages_loop fst snd]. destruct (Hs n s (or_introl eq_refl)) as [l [El [Hpl Hsh]]]. rewrite (listed_stage "Actions" s l El). cbn [bind actions_sets].
    rewrite (items_kept l [PKey "Actions"] Hpl). destruct (actions_loop_says show p (r ++ [PIdx n])%list [PKey "Actions"] (kept l) Hsh [] known) as [ms1 [names1 [known1 [-> [Hk1 Hm1]]]]]. cbn [bind fst snd]. rewrite app_nil_r.
    destruct (IH (fun n' s' H => Hs n' s' (or_intror H)) known1) as [ms [known' [-> Hm]]]. cbn [bind fst snd]. do 2 eexists. split; [reflexivity|].
    assert (Hof : forall i a, action_of s i a <-> In (i, a) (kept l)). { intros i a. split; [intros [l' [E H]]; rewrite El in E; now injection E as <- | intros H; exists l; auto]. }
    assert (Hpath : forall i t, ((p ++ (r ++ [PIdx n]) ++ [PKey "Actions"] ++ [PIdx i]) ++ t)%list = (p ++ r ++ [PIdx n; PKey "Actions"; PIdx i] ++ t)%list).
    { intros i t. rewrite <- !app_assoc. reflexivity. }
    intros m. rewrite in_app_iff, Hm1, Hm. split.
    + intros [[pre [i [a [post [t [words [E [F ->]]]]]]]]|[pre [n' [s' [post [i [a [t [words [-> [Ha [F ->]]]]]]]]]]]].
      * exists [], n, s, items, i, a, t, words. split; [reflexivity|]. split; [apply Hof; rewrite E; apply in_or_app; right; now left|]. split; [|now rewrite Hpath].
        pose proof (kept_ordered l 0) as Ho. fold (kept l) in Ho. rewrite E in Ho. pose proof (ordered_split _ _ _ Ho) as Hpre. rewrite <- E in Hpre. cbn [fst] in Hpre.
        revert F. apply fault_given_ext; intros x.
        -- split; [intros [[]|[j [b [H K]]]]; apply Hpre in H as [H1 H2]; exists j, b; split; [now apply Hof|]; auto|]. intros [j [b [H1 [H2 H3]]]]. right. exists j, b. split; [apply Hpre; split; [now apply Hof | exact H2] | exact H3].
        -- split.
           ++ intros [H|[j [b [k [H K]]]]]; [now left|]. right; right. apply Hpre in H as [H1 H2]. exists j, b, k. split; [now apply Hof | auto].
           ++ intros [H|[[? [? [? [? [? [[] _]]]]]]|[j [b [k [H1 [H2 H3]]]]]]]; [now left|]. right. exists j, b, k. split; [apply Hpre; split; [now apply Hof | exact H2] | exact H3].
      * exists ((n, s) :: pre), n', s', post, i, a, t, words. split; [reflexivity|]. split; [exact Ha|]. split; [|reflexivity]. revert F. apply fault_given_ext; intros x; [reflexivity|]. rewrite Hk1. split.
        -- intros [[H|[j [b [k [H K]]]]]|[[n1 [s1 [j [b [k [H K]]]]]]|H]]; [now left | right; left; exists n, s, j, b, k; split; [now left | split; [now apply Hof | exact K]] | right; left; exists n1, s1, j, b, k; split; [now right | exact K] | now right; right].
        -- intros [H|[[n1 [s1 [j [b [k [[[= <- <-]|H] [K1 K2]]]]]]]|H]]; [now left; left | left; right; exists j, b, k; split; [now apply Hof | exact K2] | right; left; exists n1, s1, j, b, k; auto | now right; right].
    + intros [pre [n' [s' [post [i [a [t [words [E [Ha [F ->]]]]]]]]]]]. destruct pre as [|[n1 s1] pre]; cbn [app] in E.
      * left. injection E as <- <- <-. apply Hof in Ha. destruct (in_split _ _ Ha) as [pre [post E]]. exists pre, i, a, post, t, words. split; [exact E|]. split; [|now rewrite Hpath].
        pose proof (kept_ordered l 0) as Ho. fold (kept l) in Ho. rewrite E in Ho. pose proof (ordered_split _ _ _ Ho) as Hpre. rewrite <- E in Hpre. cbn [fst] in Hpre.
        revert F. apply fault_given_ext; intros x.
        -- split; [|intros [[]|[j [b [H K]]]]; apply Hpre in H as [H1 H2]; exists j, b; split; [now apply Hof|]; auto]. intros [j [b [H1 [H2 H3]]]]. right. exists j, b. split; [apply Hpre; split; [now apply Hof | exact H2] | exact H3].
        -- split.
           ++ intros [H|[[? [? [? [? [? [[] _]]]]]]|[j [b [k [H1 [H2 H3]]]]]]]; [now left|]. right. exists j, b, k. split; [apply Hpre; split; [now apply Hof | exact H2] | exact H3].
           ++ intros [H|[j [b [k [H K]]]]]; [now left|]. right; right. apply Hpre in H as [H1 H2]. exists j, b, k. split; [now apply Hof | auto].
      * right. injection E as <- <- ->. exists pre, n', s', post, i, a, t, words. split; [reflexivity|]. split; [exact Ha|]. split; [|reflexivity]. revert F. apply fault_given_ext; intros x; [reflexivity|]. rewrite Hk1. split.
        -- intros [H|[[n2 [s2 [j [b [k [[[= <- <-]|H] [K1 K2]]]]]]]|H]]; [now left; left | left; right; exists j, b, k; split; [now apply Hof | exact K2] | right; left; exists n2, s2, j, b, k; auto | now right; right].
        -- intros [[H|[j [b [k [H K]]]]]|[[n2 [s2 [j [b [k [H K]]]]]]|H]]; [now left | right; left; exists n, s, j, b, k; split; [now left | split; [now apply Hof | exact K]] | right; left; exists n2, s2, j, b, k; split; [now right | exact K] | now right; right].
Qed.
