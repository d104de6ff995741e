(** Proofs about placeholders in texts and C26. *)
From Coq Require Import Lia.
From Verif.Model Require Import Base Helpers Rules Search Refs ConditionRules Limits Parameters.
From Verif.Spec Require Import Paths References Limited ConditionUse ParameterUse.
From Verif.Proofs Require Import BaseFacts SearchProofs RelationRule ConditionUseProofs LimitProofs.
Local Open Scope string_scope.

Lemma str_app_assoc (a b c : string) : (a ++ b) ++ c = a ++ b ++ c.
Proof. induction a as [|x a IH]; [reflexivity|]. cbn [append]. now rewrite IH. Qed.
Lemma str_app_nil (a : string) : a ++ "" = a.
Proof. induction a as [|x a IH]; [reflexivity|]. cbn [append]. now rewrite IH. Qed.
Lemma str_app_length (a b : string) : String.length (a ++ b) = String.length a + String.length b.
Proof. induction a as [|x a IH]; [reflexivity|]. cbn [append String.length]. now rewrite IH. Qed.
Lemma chars_app a b : list_ascii_of_string (a ++ b) = (list_ascii_of_string a ++ list_ascii_of_string b)%list.
Proof. induction a as [|x a IH]; [reflexivity|]. cbn. now rewrite IH. Qed.
Lemma tail_cons c s t : (exists a, String c s = a ++ t) <-> t = String c s \/ exists a, s = a ++ t.
Proof.
  split.
  - intros [[|x a] H]; [left; now rewrite H | injection H as <- H; right; eauto].
  - intros [->|[a ->]]; [exists ""; reflexivity | exists (String c a); reflexivity].
Qed.
Definition good (x : string) : Prop :=
  x <> "" /\ forall a, In a (list_ascii_of_string x) -> a <> "$"%char /\ a <> "}"%char /\ a <> "010"%char.
Lemma tail_skip x s t : (forall a, In a (list_ascii_of_string x) -> a <> "$"%char) -> (exists a, x ++ s = a ++ String "$" t) -> exists a, s = a ++ String "$" t.
Proof.
  induction x as [|c x IH]; intros Hx H; [exact H|]. cbn [append] in H. apply (proj1 (tail_cons _ _ _)) in H as [H|H].
  - injection H as H _. exfalso. apply (Hx c); [now left | now rewrite H].
  - apply IH; [|exact H]. intros a Ha. apply Hx. now right.
Qed.
Lemma find_skip p s : find_placeholders (p ++ s) (String.length p) = find_placeholders s 0.
Proof. induction p as [|c p IH]; [reflexivity|]. exact IH. Qed.
Lemma up_to_brace_sound s : forall x, up_to_brace s = Some x -> exists r, s = x ++ "}" ++ r.
Proof.
  induction s as [|a s IH]; intros x H; [discriminate|]. cbn [up_to_brace] in H. destruct (char_eqb a "}") eqn:E.
  - injection H as <-. apply Ascii.eqb_eq in E. subst a. exists s. reflexivity.
  - destruct (char_eqb a newline); [discriminate|]. destruct (up_to_brace s) as [y|] eqn:Ey; [|discriminate]. injection H as <-.
    destruct (IH y eq_refl) as [r ->]. exists r. reflexivity.
Qed.
Lemma up_to_brace_complete x r : (forall a, In a (list_ascii_of_string x) -> a <> "}"%char /\ a <> "010"%char) -> up_to_brace (x ++ "}" ++ r) = Some x.
Proof.
  induction x as [|a x IH]; intros H; [reflexivity|]. cbn [append up_to_brace]. destruct (H a (or_introl eq_refl)) as [H1 H2].
  unfold char_eqb. rewrite (proj2 (Ascii.eqb_neq a "}") H1), (proj2 (Ascii.eqb_neq a newline) H2). cbn [append] in IH.
  rewrite IH; [reflexivity|]. intros b Hb. apply H. now right.
Qed.
Lemma placeholder_sound s x : placeholder_at s = Some x -> exists r, s = "${" ++ x ++ "}" ++ r /\ (forall t, x <> String "!" t) /\ x <> "".
Proof.
  destruct s as [|a [|b [|c s]]]; try discriminate. cbn [placeholder_at]. destruct (char_eqb a "$" && char_eqb b "{" && negb (char_eqb c "!")) eqn:E; [|discriminate].
  apply andb_prop in E as [E Ec]. apply andb_prop in E as [Ea Eb]. apply Ascii.eqb_eq in Ea, Eb. subst a b. intros H.
  destruct (up_to_brace s) as [y|] eqn:Ey; [|discriminate]. injection H as <-. apply up_to_brace_sound in Ey as [r ->]. exists r. split; [reflexivity|].
  split; [|discriminate]. intros t [= -> _]. discriminate.
Qed.
Lemma placeholder_complete x r : good x -> (forall t, x <> String "!" t) -> placeholder_at ("${" ++ x ++ "}" ++ r) = Some x.
Proof.
  intros [Hn Hx] Hb. destruct x as [|c x]; [contradiction|]. cbn [append placeholder_at].
  assert (Ec : char_eqb c "!" = false) by (apply Ascii.eqb_neq; intros ->; now apply (Hb x)). rewrite Ec. cbn [char_eqb Ascii.eqb Bool.eqb negb andb].
  pose proof (up_to_brace_complete x r) as H. cbn [append] in H. rewrite H; [reflexivity|]. intros a Ha. apply Hx. now right.
Qed.
Lemma placeholder_bang x r : placeholder_at ("${" ++ String "!" x ++ r) = None.
Proof. reflexivity. Qed.
Lemma closed_tail a s : closed (a ++ s) -> closed s.
Proof. intros H before rest E. apply (H (a ++ before) rest). now rewrite E, str_app_assoc. Qed.
Lemma find_rest x r : find_placeholders ("{" ++ x ++ "}" ++ r) (2 + String.length x) = find_placeholders r 0.
Proof.
  replace ("{" ++ x ++ "}" ++ r) with (("{" ++ x ++ "}") ++ r) by (cbn [append]; now rewrite str_app_assoc).
  replace (2 + String.length x) with (String.length ("{" ++ x ++ "}")) by (cbn [append String.length]; rewrite str_app_length; cbn; lia).
  apply find_skip.
Qed.
Lemma find_cons a s : find_placeholders (String a s) 0 =
  match placeholder_at (String a s) with Some x => x :: find_placeholders s (2 + String.length x) | None => find_placeholders s 0 end.
Proof. reflexivity. Qed.

(** Every match is the inside of a placeholder. *)
Lemma find_sound x : forall n s, String.length s <= n -> In x (find_placeholders s 0) -> exists a r, s = a ++ "${" ++ x ++ "}" ++ r.
Proof.
  induction n as [|n IH]; intros s Hl H; destruct s as [|c s]; try destruct H as []; [cbn in Hl; lia|].
  rewrite find_cons in H. destruct (placeholder_at (String c s)) as [y|] eqn:E.
  - apply placeholder_sound in E as [r [E _]]. cbn [append] in E. injection E as -> ->. destruct H as [<-|H]; [exists "", r; reflexivity|].
    change (String "{" (y ++ String "}" r)) with ("{" ++ y ++ "}" ++ r) in H. rewrite find_rest in H.
    apply IH in H as [a [r' ->]].
    + exists ("${" ++ y ++ "}" ++ a), r'. cbn [append]. rewrite str_app_assoc. reflexivity.
    + cbn in Hl. rewrite str_app_length in Hl. cbn in Hl. lia.
  - apply IH in H as [a [r ->]]; [exists (String c a), r; reflexivity | cbn in Hl; lia].
Qed.
(** In a closed text every placeholder is a match. *)
Lemma find_complete x : good x -> (forall t, x <> String "!" t) -> forall n s, String.length s <= n -> closed s ->
  (exists a r, s = a ++ "${" ++ x ++ "}" ++ r) -> In x (find_placeholders s 0).
Proof.
  intros Hx Hb. induction n as [|n IH]; intros s Hl Hc [a [r E]].
  { destruct s; [destruct a; discriminate | cbn in Hl; lia]. }
  destruct s as [|c s]; [destruct a; discriminate|]. rewrite find_cons. destruct (placeholder_at (String c s)) as [y|] eqn:Ey.
  - assert (Hy : good y).
    { pose proof (placeholder_sound _ _ Ey) as [r' [E' [Hy1 _]]]. destruct (Hc "" (y ++ "}" ++ r')) as [x' [r'' [E2 [Hn Hg]]]]; [exact E'|].
      assert (Hp : placeholder_at ("${" ++ x' ++ "}" ++ r'') = Some y) by (rewrite <- E2, <- E'; exact Ey).
      destruct x' as [|c' x']; [contradiction|]. destruct (Ascii.eqb_spec c' "!") as [->|Hnb]; [discriminate|].
      rewrite placeholder_complete in Hp; [injection Hp as <-; split; [discriminate | exact Hg] | split; [exact Hn | exact Hg] | intros t [= -> _]; contradiction]. }
    pose proof (placeholder_sound _ _ Ey) as [r' [E' [Hy1 _]]].
    assert (Ht : exists a0, String c s = a0 ++ "${" ++ x ++ "}" ++ r) by (exists a; exact E).
    apply (proj1 (tail_cons _ _ _)) in Ht as [Ht|Ht].
    + rewrite <- Ht in Ey. rewrite placeholder_complete in Ey by assumption. injection Ey as <-. now left.
    + right. cbn [append] in E'. injection E' as -> ->. change (String "{" (y ++ String "}" r')) with ("{" ++ y ++ "}" ++ r'). rewrite find_rest. apply IH.
      * cbn in Hl. rewrite str_app_length in Hl. cbn in Hl. lia.
      * apply (closed_tail ("${" ++ y ++ "}")). cbn [append] in Hc |- *. rewrite str_app_assoc. exact Hc.
      * destruct (tail_skip ("{" ++ y ++ "}") r' ("{" ++ x ++ "}" ++ r)) as [a0 Ea]; [| |exists a0, r; exact Ea].
        -- cbn [append]. intros d [<-|Hd]; [discriminate|]. rewrite chars_app in Hd. apply in_app_iff in Hd as [Hd|[<-|[]]]; [|discriminate]. now apply Hy.
        -- cbn [append] in Ht |- *. rewrite str_app_assoc. exact Ht.
  - assert (Ht : exists a0, String c s = a0 ++ "${" ++ x ++ "}" ++ r) by (exists a; exact E).
    apply (proj1 (tail_cons _ _ _)) in Ht as [Ht|[a0 Ht]].
    + rewrite <- Ht, placeholder_complete in Ey by assumption. discriminate.
    + apply IH; [cbn in Hl; lia | exact (closed_tail (String c "") s Hc) | eauto].
Qed.

(** Stripping. *)
Lemma is_space_spec a : is_space a = true <-> In a (map ascii_of_nat [9; 10; 11; 12; 13; 28; 29; 30; 31; 32]).
Proof.
  assert (E : is_space a = existsb (Ascii.eqb a) (map ascii_of_nat [9; 10; 11; 12; 13; 28; 29; 30; 31; 32])).
  { destruct a as [b0 b1 b2 b3 b4 b5 b6 b7]. destruct b0, b1, b2, b3, b4, b5, b6, b7; vm_compute; reflexivity. }
  rewrite E, existsb_exists. split.
  - intros [x [H1 H2]]. apply Ascii.eqb_eq in H2. now subst x.
  - intros H. exists a. split; [exact H | apply Ascii.eqb_refl].
Qed.
Lemma lstrip_split s : exists w, white w /\ s = w ++ lstrip s.
Proof.
  induction s as [|a s [w [Hw E]]]; [exists ""; split; [intros x [] | reflexivity]|]. cbn [lstrip]. destruct (is_space a) eqn:Ea.
  - exists (String a w). split; [|cbn [append]; now rewrite <- E]. intros x [<-|Hx]; [now apply is_space_spec | now apply Hw].
  - exists "". split; [intros x [] | reflexivity].
Qed.
Lemma rstrip_split s : exists w, white w /\ s = rstrip s ++ w.
Proof.
  induction s as [|a s [w [Hw E]]]; [exists ""; split; [intros x [] | reflexivity]|]. cbn [rstrip]. destruct (rstrip s) as [|b t] eqn:Er.
  - destruct (is_space a) eqn:Ea.
    + exists (String a w). split; [|cbn [append] in E |- *; now rewrite <- E]. intros x [<-|Hx]; [now apply is_space_spec | now apply Hw].
    + exists w. split; [exact Hw | cbn [append] in E |- *; now rewrite <- E].
  - exists w. split; [exact Hw|]. cbn [append] in E |- *. now rewrite <- E.
Qed.
Lemma strip_split s : exists w1 w2, white w1 /\ white w2 /\ s = w1 ++ strip s ++ w2.
Proof.
  destruct (lstrip_split s) as [w1 [H1 E1]]. destruct (rstrip_split (lstrip s)) as [w2 [H2 E2]]. exists w1, w2. split; [exact H1|]. split; [exact H2|].
  unfold strip. rewrite <- E2. exact E1.
Qed.
Definition solid (n : string) : Prop := n <> "" /\ forall a, In a (list_ascii_of_string n) -> is_space a = false.
Lemma strip_padded w1 n w2 : white w1 -> white w2 -> solid n -> strip (w1 ++ n ++ w2) = n.
Proof.
  intros H1 H2 [Hn Hs]. unfold strip.
  assert (E1 : lstrip (w1 ++ n ++ w2) = n ++ w2).
  { induction w1 as [|a w1 IH].
    - destruct n as [|c n]; [contradiction|]. cbn [append lstrip]. now rewrite (Hs c (or_introl eq_refl)).
    - cbn [append lstrip]. rewrite (proj2 (is_space_spec a)); [|apply H1; now left]. apply IH. intros x Hx. apply H1. now right. }
  rewrite E1. assert (E2 : rstrip w2 = "").
  { clear -H2. induction w2 as [|a w2 IH]; [reflexivity|]. cbn [rstrip]. rewrite IH by (intros x Hx; apply H2; now right).
    now rewrite (proj2 (is_space_spec a)) by (apply H2; now left). }
  clear E1 Hn. induction n as [|c n IH]; [exact E2|]. cbn [append rstrip]. rewrite IH by (intros x Hx; apply Hs; now right).
  destruct n; [|reflexivity]. now rewrite (Hs c (or_introl eq_refl)).
Qed.
Lemma alphanumeric_solid n : n <> "" -> alphanumeric n -> solid n.
Proof.
  intros Hn Ha. split; [exact Hn|]. intros a Hi. apply Ha in Hi. clear -Hi. cbn in Hi.
  repeat (destruct Hi as [<-|Hi]; [reflexivity|]). destruct Hi.
Qed.
Lemma alphanumeric_plain n a : alphanumeric n -> In a (list_ascii_of_string n) -> a <> "$"%char /\ a <> "}"%char /\ a <> "010"%char /\ a <> "!"%char.
Proof.
  intros Ha Hi. apply Ha in Hi. clear -Hi. cbn in Hi. repeat (destruct Hi as [<-|Hi]; [repeat split; discriminate|]). destruct Hi.
Qed.
Lemma white_plain w a : white w -> In a (list_ascii_of_string w) -> a <> "$"%char /\ a <> "}"%char /\ a <> "!"%char.
Proof.
  intros Hw Hi. apply Hw in Hi. clear -Hi. cbn in Hi. repeat (destruct Hi as [<-|Hi]; [repeat split; discriminate|]). destruct Hi.
Qed.
Lemma first_brace x y r r' : (forall a, In a (list_ascii_of_string x) -> a <> "}"%char) -> (forall a, In a (list_ascii_of_string y) -> a <> "}"%char) ->
  x ++ "}" ++ r = y ++ "}" ++ r' -> x = y.
Proof.
  revert y. induction x as [|a x IH]; intros y Hx Hy E.
  - destruct y as [|b y]; [reflexivity|]. cbn [append] in E. injection E as <- _. exfalso. now apply (Hy "}"%char (or_introl eq_refl)).
  - destruct y as [|b y]; cbn [append] in E; injection E as E1 E2; [exfalso; now apply (Hx a (or_introl eq_refl))|]. subst b. f_equal. apply IH.
    + intros c Hc. apply Hx. now right.
    + intros c Hc. apply Hy. now right.
    + exact E2.
Qed.
Lemma sub_parameters_sound n s : In n (get_sub_parameters s) -> placeholder_in n s.
Proof.
  intros H. unfold get_sub_parameters in H. apply in_map_iff in H as [x [<- H]]. apply (find_sound x _ s (le_n _)) in H as [a [r ->]].
  destruct (strip_split x) as [w1 [w2 [H1 [H2 E]]]]. exists a, w1, w2, r. split; [exact H1|]. split; [exact H2|]. rewrite E at 1. now rewrite !str_app_assoc.
Qed.
Lemma sub_parameters_spec n s : n <> "" -> alphanumeric n -> closed s -> In n (get_sub_parameters s) <-> placeholder_in n s.
Proof.
  intros Hn Ha Hc. split; [apply sub_parameters_sound|]. intros [a [w1 [w2 [r [H1 [H2 E]]]]]].
  destruct (Hc a (w1 ++ n ++ w2 ++ "}" ++ r) E) as [x [r' [E2 [Hx Hg]]]].
  assert (Ex : w1 ++ n ++ w2 = x).
  { apply (first_brace _ _ r r').
    - intros c Hi. rewrite !chars_app, !in_app_iff in Hi. destruct Hi as [Hi|[Hi|Hi]].
      + now apply (white_plain _ _ H1 Hi).
      + now apply (alphanumeric_plain n c Ha Hi).
      + now apply (white_plain _ _ H2 Hi).
    - intros c Hi. now apply Hg.
    - rewrite <- E2. now rewrite !str_app_assoc. }
  unfold get_sub_parameters. apply in_map_iff. exists x. split; [rewrite <- Ex; apply strip_padded; auto; now apply alphanumeric_solid|].
  apply (find_complete x) with (n := String.length s); [now split | | apply le_n | exact Hc | exists a, r'; now rewrite E, E2].
  intros t Et. assert (Hi : In "!"%char (list_ascii_of_string (w1 ++ n ++ w2))) by (rewrite Ex, Et; now left).
  rewrite !chars_app, !in_app_iff in Hi. destruct Hi as [Hi|[Hi|Hi]].
  - now apply (white_plain _ _ H1 Hi).
  - now apply (alphanumeric_plain n _ Ha Hi).
  - now apply (white_plain _ _ H2 Hi).
Qed.

(** * C26 *)
Lemma wf_empty : wf (VDict []).
Proof. exact (conj (NoDup_nil _) I). Qed.
Definition plain_subs (pre : val) : Prop := forall p v, occurs "Fn::Sub" pre (VDict []) p v -> exists s, sub_text v s /\ closed s.
Lemma c26_all pre template ps : wf pre -> section template "Parameters" ps ->
  (forall n x, In (n, x) ps -> n <> "" /\ alphanumeric n) ->
  (forall p v, occurs "Fn::Sub" pre (VDict []) p v -> exists s, sub_text v s /\ closed s) ->
  exists ms, parameters_used_match pre template = Ok ms /\
  forall m, In m ms <-> exists n x, In (n, x) ps /\ ~ uses_parameter pre n /\ m = mkRM [PKey "Parameters"; PKey n] ("Parameter " ++ n ++ " not used.").
Proof.
  intros Hw [d [-> E]] Hn Hs. unfold parameters_used_match, get_parameters. cbn [vget_def]. rewrite E. cbn [bind].
  assert (Et : (if truthy (VDict ps) then VDict ps else VDict []) = VDict ps) by (destruct ps; reflexivity). rewrite Et. clear Et.
  assert (Hone : forall q v, In (q, v) (search_deep_keys "Fn::Sub" pre (VDict [])) -> exists s, sub_text v s /\ closed s /\ sub_names (q, v) = Ok (get_sub_parameters s)).
  { intros q v Hi. apply in_search_deep in Hi as [p [_ Hi]]; [|exact Hw | exact wf_empty]. destruct (Hs p v Hi) as [s [Ht Hc]]. exists s. split; [exact Ht|]. split; [exact Hc|]. destruct Ht; reflexivity. }
  destruct (concat_res_total sub_names (search_deep_keys "Fn::Sub" pre (VDict []))) as [subs Es].
  { intros [q v] Hi. destruct (Hone q v Hi) as [s [_ [_ H]]]. eauto. }
  rewrite Es. cbn [bind items_of]. eexists. split; [reflexivity|].
  assert (Hu : forall n, n <> "" -> alphanumeric n -> existsb (eq_str n) (map snd (search_deep_keys "Ref" pre (VDict []))) || smem n subs = true <-> uses_parameter pre n).
  { intros n H1 H2. rewrite orb_true_iff. split.
    - intros [H|H].
      + apply existsb_exists in H as [v [Hv Ev]]. apply in_map_iff in Hv as [[q v'] [<- Hv]]. cbn [snd] in Ev. destruct v'; try discriminate.
        apply String.eqb_eq in Ev. subst s. apply in_search_deep in Hv as [p [_ Hv]]; [|exact Hw | exact wf_empty]. exact (up_ref _ _ p Hv).
      + unfold smem in H. apply existsb_exists in H as [y [Hy Ey]]. apply String.eqb_eq in Ey. subst y. apply (concat_res_in _ _ _ n Es) in Hy as [[q v] [ys [Hi [Ey Hy]]]].
        destruct (Hone q v Hi) as [s [Ht [Hc H]]]. rewrite H in Ey. injection Ey as <-. apply in_search_deep in Hi as [p [_ Hi]]; [|exact Hw | exact wf_empty].
        apply (up_sub _ _ p v s Hi Ht). now apply sub_parameters_sound.
    - intros [p Hp|p v s Hp Ht Hl].
      + left. apply existsb_exists. exists (VStr n). split; [|cbn; apply String.eqb_refl]. apply in_map_iff. exists ((p ++ [PKey "Ref"])%list, VStr n). split; [reflexivity|].
        apply in_search_deep; [exact Hw | exact wf_empty | eauto].
      + right. unfold smem. apply existsb_exists. exists n. split; [|apply String.eqb_refl].
        assert (Hi : In ((p ++ [PKey "Fn::Sub"])%list, v) (search_deep_keys "Fn::Sub" pre (VDict []))) by (apply in_search_deep; [exact Hw | exact wf_empty | eauto]).
        destruct (Hone _ _ Hi) as [s' [Ht' [Hc H]]]. assert (s' = s) by (clear -Ht Ht'; destruct Ht; inversion Ht'; reflexivity). subst s'.
        apply (concat_res_in _ _ _ n Es). exists ((p ++ [PKey "Fn::Sub"])%list, v), (get_sub_parameters s). split; [exact Hi|]. split; [exact H|]. now apply sub_parameters_spec. }
  intros m. rewrite in_flat_map. split.
  - intros [[n x] [Hi Hm]]. cbn [fst] in Hm. exists n, x. split; [exact Hi|]. destruct (Hn n x Hi) as [H1 H2].
    destruct (existsb (eq_str n) (map snd (search_deep_keys "Ref" pre (VDict []))) || smem n subs) eqn:Ee; [destruct Hm|]. destruct Hm as [<-|[]].
    split; [|reflexivity]. intros Hu'. apply (Hu n H1 H2) in Hu'. congruence.
  - intros [n [x [Hi [Hu' ->]]]]. exists (n, x). split; [exact Hi|]. cbn [fst]. destruct (Hn n x Hi) as [H1 H2].
    destruct (existsb (eq_str n) (map snd (search_deep_keys "Ref" pre (VDict []))) || smem n subs) eqn:Ee; [exfalso; apply Hu'; now apply (Hu n H1 H2) | now left].
Qed.

(** A decision procedure for [closed], for the witnesses. *)
Fixpoint inside (s : string) : bool :=
  match s with
  | EmptyString => false
  | String a s' => if char_eqb a "}" then true else negb (char_eqb a "$") && negb (char_eqb a newline) && inside s'
  end.
Definition opening (s : string) : bool :=
  match s with
  | String a (String b s') => if char_eqb a "$" && char_eqb b "{" then negb (starts_with "}" s') && inside s' else true
  | _ => true
  end.
Fixpoint closedb (s : string) : bool := opening s && match s with EmptyString => true | String _ s' => closedb s' end.
Lemma inside_sound s : inside s = true -> exists x r, s = x ++ "}" ++ r /\ forall a, In a (list_ascii_of_string x) -> a <> "$"%char /\ a <> "}"%char /\ a <> "010"%char.
Proof.
  induction s as [|a s IH]; intros H; [discriminate|]. cbn [inside] in H. destruct (char_eqb a "}") eqn:E.
  - apply Ascii.eqb_eq in E. subst a. exists "", s. split; [reflexivity | intros a []].
  - apply andb_prop in H as [H H3]. apply andb_prop in H as [H1 H2]. apply negb_true_iff in H1, H2. apply Ascii.eqb_neq in H1, H2, E.
    destruct (IH H3) as [x [r [-> Hx]]]. exists (String a x), r. split; [reflexivity|]. intros b [<-|Hb]; [auto | now apply Hx].
Qed.
Lemma closedb_sound s : closedb s = true -> closed s.
Proof.
  induction s as [|c s IH]; intros H before rest E; [destruct before; discriminate|].
  cbn [closedb] in H. apply andb_prop in H as [H1 H2]. destruct before as [|b before].
  - cbn [append] in E. injection E as -> ->. change (negb (starts_with "}" rest) && inside rest = true) in H1. apply andb_prop in H1 as [H0 H1].
    destruct (inside_sound rest H1) as [x [r [-> Hx]]]. exists x, r. split; [reflexivity|]. split; [|exact Hx]. intros ->. destruct r; discriminate.
  - cbn [append] in E. injection E as _ E. exact (IH H2 before rest E).
Qed.
Definition cell : val :=
  VDict [("Parameters", VDict [("Env", VDict [("Type", VStr "String")]); ("Zone", VDict [("Type", VStr "String")]); ("Idle", VDict [("Type", VStr "String")])]);
         ("Resources", VDict [("Topic", VDict [("Type", VStr "AWS::SNS::Topic");
            ("Properties", VDict [("DisplayName", VDict [("Fn::Sub", VStr "{Idle}-${!Idle}-${ Env }$")]); ("TopicName", VDict [("Ref", VStr "Zone")])])])])].
Definition cell_parameters : list (string * val) := match cell with VDict ((_, VDict ps) :: _) => ps | _ => [] end.
Lemma cell_wf : wf cell.
Proof. cbn. repeat split; try exact I; repeat constructor; cbn; intuition discriminate. Qed.
Lemma cell_section : section cell "Parameters" cell_parameters.
Proof. eexists. split; reflexivity. Qed.
Lemma cell_names : forall n x, In (n, x) cell_parameters -> n <> "" /\ alphanumeric n.
Proof.
  intros n x Hi. cbn in Hi. destruct Hi as [[= <- _]|[[= <- _]|[[= <- _]|[]]]]; (split; [discriminate|]); apply regex_spec; try reflexivity;
    intros t E; repeat (destruct t as [|? t]; [discriminate|]; injection E as _ E); destruct t; discriminate.
Qed.
Lemma cell_subs : forall p v, occurs "Fn::Sub" cell (VDict []) p v -> exists s, sub_text v s /\ closed s.
Proof.
  intros p v Ho. assert (Hi : In ((p ++ [PKey "Fn::Sub"])%list, v) (search_deep_keys "Fn::Sub" cell (VDict []))) by (apply in_search_deep; [exact cell_wf | exact wf_empty | eauto]).
  vm_compute in Hi. destruct Hi as [[= _ <-]|[]]. eexists. split; [constructor | apply closedb_sound; reflexivity].
Qed.
Lemma cell_report : parameters_used_match cell cell = Ok [mkRM [PKey "Parameters"; PKey "Idle"] "Parameter Idle not used."].
Proof. reflexivity. Qed.
Lemma c26_crash : exists pre, wf pre /\ parameters_used_match pre pre = Err EIndex.
Proof. exists (VDict [("Resources", VDict [("Fn::Sub", VList [])])]). split; [|reflexivity]. cbn. repeat split; try exact I; repeat constructor; cbn; intuition discriminate. Qed.
Lemma occurs_search f t p v : wf t -> occurs f t (VDict []) p v -> In v (map snd (search_deep_keys f t (VDict []))).
Proof.
  intros Hw Ho. apply in_map_iff. exists ((p ++ [PKey f])%list, v). split; [reflexivity|]. apply in_search_deep; [exact Hw | exact wf_empty | eauto].
Qed.
Lemma c26_shadowed : exists pre, wf pre /\ section pre "Parameters" [("Env", VDict [("Type", VStr "String")])] /\
  (forall p v, occurs "Fn::Sub" pre (VDict []) p v -> v = VList [VStr "${Env}"; VDict [("Env", VStr "prod")]]) /\
  (forall p v, ~ occurs "Ref" pre (VDict []) p v) /\
  parameters_used_match pre pre = Ok [].
Proof.
  exists (VDict [("Parameters", VDict [("Env", VDict [("Type", VStr "String")])]);
                 ("Outputs", VDict [("O", VDict [("Value", VDict [("Fn::Sub", VList [VStr "${Env}"; VDict [("Env", VStr "prod")]])])])])]).
  match goal with |- wf ?t /\ _ => assert (Hw : wf t) by (cbn; repeat split; try exact I; repeat constructor; cbn; intuition discriminate) end.
  split; [exact Hw|]. split; [eexists; split; reflexivity|]. split; [|split; [|reflexivity]].
  - intros p v Ho. apply (occurs_search _ _ _ _ Hw) in Ho. vm_compute in Ho. destruct Ho as [<-|[]]. reflexivity.
  - intros p v Ho. apply (occurs_search _ _ _ _ Hw) in Ho. exact Ho.
Qed.
