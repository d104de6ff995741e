(** C75: aliases of distributions (E3013) and essential containers (E3042). *)
From Coq Require Import List Lia Ascii.
From Verif.Model Require Import Base Locate Helpers Node Search Rules Refs Relationship Functions PropertyRules SubProps.
From Verif.Spec Require Import Paths Branches References Walk Values Permissions SubProps.
From Verif.Proofs Require Import BaseFacts SearchProofs BranchProofs PropertyRuleProofs DynRefProofs Says PermissionProofs ValueRun MatchRun SubPropsProofs DeviceProofs.
Import Verif.Model.Rules.
Import ListNotations.
Local Open Scope string_scope.

(** * Labels *)
Lemma concat_more sep x l : l <> [] -> String.concat sep (x :: l) = x ++ sep ++ String.concat sep l.
Proof. destruct l; [easy | reflexivity]. Qed.
Lemma concat_both sep l1 l2 : l1 <> [] -> l2 <> [] -> String.concat sep (l1 ++ l2) = String.concat sep l1 ++ sep ++ String.concat sep l2.
Proof.
  intros H1 H2. induction l1 as [|x l1 IH]; [easy|]. destruct l1 as [|y l1].
  - cbn [app]. now rewrite concat_more.
  - cbn [app] in *. rewrite concat_more by discriminate. rewrite IH by discriminate. rewrite (concat_more sep x (y :: l1)) by discriminate. now rewrite !append_assoc.
Qed.
Lemma split_on_both c a b : split_on c (a ++ String c b) = (split_on c a ++ split_on c b)%list.
Proof.
  destruct (split_on_parts c a) as [A1 [A2 A3]], (split_on_parts c b) as [B1 [B2 B3]]. apply split_on_unique.
  - intros K. apply app_eq_nil in K as [K _]. contradiction.
  - intros x Hx. apply in_app_iff in Hx as [Hx|Hx]; auto.
  - rewrite concat_both by assumption. now rewrite <- A3, <- B3.
Qed.
Lemma late_star_iff s : smem "*" (tl (split_on "." s)) = true <-> late_star s.
Proof.
  rewrite smem_iff. split.
  - destruct (split_on_parts "." s) as [H1 [_ H3]]. destruct (split_on "." s) as [|h t]; [easy|]. cbn [tl]. intros Hi. apply in_split in Hi as [t1 [t2 ->]].
    change (h :: t1 ++ "*" :: t2)%list with ((h :: t1) ++ ("*" :: t2))%list in H3. rewrite concat_both in H3 by discriminate. destruct t2 as [|y t2].
    + left. exists (String.concat "." (h :: t1)). exact H3.
    + right. exists (String.concat "." (h :: t1)), (String.concat "." (y :: t2)). rewrite H3, (concat_more "." "*") by discriminate. reflexivity.
  - intros [[b ->]|[b [a ->]]].
    + change (".*") with (String "." "*"). rewrite split_on_both. destruct (split_on_parts "." b) as [H1 _]. destruct (split_on "." b) as [|h t]; [easy|]. cbn [tl app]. apply in_app_iff. right. now left.
    + change (".*." ++ a) with (String "." ("*" ++ String "." a)). rewrite split_on_both, split_on_both. destruct (split_on_parts "." b) as [H1 _]. destruct (split_on "." b) as [|h t]; [easy|]. cbn [tl app]. apply in_app_iff. right. now left.
Qed.
Lemma low_iff a : is_lower_alnum a = true <-> low_letter a.
Proof. unfold is_lower_alnum, low_letter. rewrite orb_true_iff, digit_letter_iff, range_iff by lia. reflexivity. Qed.
Lemma label_chars s : str_forall is_label_char s = true <-> forall a, In a (list_ascii_of_string s) -> low_letter a \/ a = "-"%char.
Proof.
  assert (D : forall a, is_label_char a = true <-> low_letter a \/ a = "-"%char) by (intros a; unfold is_label_char; now rewrite orb_true_iff, low_iff, char_eqb_eq).
  induction s as [|a s IH]; [split; [intros _ a [] | reflexivity]|]. cbn [str_forall list_ascii_of_string]. rewrite andb_true_iff, IH, D. split.
  - intros [H1 H2] b [<-|Hb]; auto.
  - intros H. split; [apply H; now left | intros b Hb; apply H; now right].
Qed.
Lemma last_char_iff s a : last_char s = Some a <-> exists before, s = before ++ String a "".
Proof.
  split.
  - induction s as [|b [|c s] IH]; intros H; [discriminate | injection H as ->; exists ""; reflexivity|]. destruct (IH H) as [before ->]. exists (String b before). reflexivity.
  - intros [before ->]. induction before as [|b before IH]; [reflexivity|]. cbn [append last_char]. destruct (before ++ String a "") eqn:E; [destruct before; discriminate E | exact IH].
Qed.
Lemma ending_iff s : str_forall is_label_char s && opt_test is_lower_alnum (last_char s) = true <-> ending s.
Proof.
  unfold ending. rewrite andb_true_iff, label_chars. assert (E : opt_test is_lower_alnum (last_char s) = true <-> exists before a, s = before ++ String a "" /\ low_letter a).
  - destruct (last_char s) as [a|] eqn:El; cbn [opt_test].
    + rewrite low_iff. split.
      * intros Ha. apply last_char_iff in El as [b E]. eauto.
      * intros [b [a' [E Ha]]]. assert (K : last_char s = Some a') by (apply last_char_iff; eauto). rewrite El in K. injection K as ->. exact Ha.
    + split; [discriminate|]. intros [b [a [E _]]]. assert (K : last_char s = Some a) by (apply last_char_iff; eauto). congruence.
  - now rewrite E.
Qed.
Lemma label_iff s : label_head s = true <-> label s.
Proof.
  unfold label. destruct s as [|a r]; [split; [discriminate | intros [_ [a [r [[=] _]]]]]|]. unfold label_head. rewrite !andb_true_iff, PeanoNat.Nat.leb_le, !orb_true_iff, String.eqb_eq, ending_iff, low_iff, char_eqb_eq. split.
  - intros [[H1 H2] H3]. split; [exact H3|]. exists a, r. auto.
  - intros [H3 [a' [r' [[= <- <-] [H1 H2]]]]]. auto.
Qed.
Lemma last_label_iff s : label_last s = true <-> last_label s.
Proof.
  unfold last_label. destruct s as [|a r]; [split; [discriminate | intros [_ [a [r [[=] _]]]]]|]. unfold label_last. rewrite <- (andb_assoc (is_lower_alnum a)), !andb_true_iff, PeanoNat.Nat.leb_le, <- andb_true_iff, ending_iff, low_iff. split.
  - intros [[H1 H2] H3]. split; [exact H3|]. exists a, r. auto.
  - intros [H3 [a' [r' [[= <- <-] [H1 H2]]]]]. auto.
Qed.
Lemma low_not a c : low_letter a -> is_lower_alnum c = false -> a <> c.
Proof. intros H Hc ->. apply low_iff in H. congruence. Qed.
Lemma ending_without c s : is_lower_alnum c = false -> c <> "-"%char -> ending s -> without c s.
Proof. intros Hc Hd [H _] Hi. apply H in Hi as [Hi|Hi]; [now apply (low_not _ _ Hi Hc) | contradiction]. Qed.
Lemma label_without c s : is_lower_alnum c = false -> c <> "-"%char -> c <> "*"%char -> label s -> without c s.
Proof.
  intros Hc Hd Hs [_ [a [r [-> [Ha Hr]]]]] [K|K].
  - destruct Ha as [Ha|Ha]; [now apply (low_not _ _ Ha Hc) | congruence].
  - destruct Hr as [->|Hr]; [destruct K | exact (ending_without c r Hc Hd Hr K)].
Qed.
Lemma last_label_without c s : is_lower_alnum c = false -> c <> "-"%char -> last_label s -> without c s.
Proof. intros Hc Hd [_ [a [r [-> [Ha Hr]]]]] [K|K]; [now apply (low_not _ _ Ha Hc) | exact (ending_without c r Hc Hd Hr K)]. Qed.
Lemma without_app c a b : without c (a ++ b) <-> without c a /\ without c b.
Proof. rewrite <- !without_iff, has_char_app, orb_false_iff. reflexivity. Qed.
Lemma concat_without c sep l : without c sep -> (forall x, In x l -> without c x) -> without c (String.concat sep l).
Proof.
  intros Hs. induction l as [|x l IH]; intros H; [intros []|]. destruct l as [|y l]; [apply H; now left|]. rewrite concat_more by discriminate. apply without_app. split; [apply H; now left|].
  apply without_app. split; [exact Hs|]. apply IH. intros z Hz. apply H. now right.
Qed.
Lemma domain_iff s : valid_domain s = true <-> domain_name s.
Proof.
  unfold valid_domain, domain_name. split.
  - intros H. destruct (split_on_parts "." (drop_last_newline s)) as [P1 [P2 P3]]. set (ls := split_on "." (drop_last_newline s)) in *.
    destruct ls as [|h [|h' t]] eqn:El; try discriminate H. unfold domain_labels in H. rewrite <- El in H, P3. apply andb_prop in H as [H1 H2].
    assert (Hne : ls <> []) by congruence. pose proof (app_removelast_last "" Hne) as Ea. exists (removelast ls), (List.last ls ""). split; [|split; [|split; [now apply last_label_iff|]]].
    + rewrite El. discriminate.
    + intros x Hx. apply label_iff. rewrite forallb_forall in H1. auto.
    + rewrite <- Ea. apply drop_exact; [|exact P3]. apply concat_without; [apply without_iff; reflexivity|]. intros x Hx. rewrite Ea in Hx. apply in_app_iff in Hx as [Hx|[<-|[]]].
      * rewrite forallb_forall in H1. apply (label_without newline_char); [reflexivity | discriminate | discriminate | apply label_iff; auto].
      * apply last_label_without; [reflexivity | discriminate | now apply last_label_iff].
  - intros [l [z [Hl [Hx [Hz E]]]]].
    assert (Hall : forall c x, is_lower_alnum c = false -> c <> "-"%char -> c <> "*"%char -> In x (l ++ [z])%list -> without c x).
    { intros c x H1 H2 H3 Hi. apply in_app_iff in Hi as [Hi|[<-|[]]]; [apply label_without; auto | apply last_label_without; auto]. }
    apply drop_exact in E; [|apply concat_without; [apply without_iff; reflexivity|]; intros x Hi; apply Hall; [reflexivity | discriminate | discriminate | exact Hi]].
    rewrite E. rewrite (split_on_unique "." _ (l ++ [z])); [|intros K; apply app_eq_nil in K as [_ [=]] | intros x Hi; apply Hall; [reflexivity | discriminate | discriminate | exact Hi] | reflexivity].
    assert (Hd : domain_labels (l ++ [z])%list = forallb label_head (removelast (l ++ [z])%list) && label_last (List.last (l ++ [z])%list "")).
    { destruct l as [|x [|y l]]; [easy | reflexivity | reflexivity]. }
    rewrite Hd, removelast_last, last_last. apply andb_true_iff. split; [apply forallb_forall; intros x Hi; apply label_iff; auto | now apply last_label_iff].
Qed.

(** * Aliases *)
Section Aliases.
Variable reformat : string -> res string.
Definition alias_words (p : path) (x : val) (m : rulematch) : Prop := exists s words, x = VStr s /\ alias_fault s words /\ m = mkRM (p ++ [PKey "Aliases"])%list words.
Lemma format_plain m : without "{" m -> without "}" m -> format_again reformat m = Ok m.
Proof. intros H1 H2. apply without_iff in H1, H2. unfold format_again. now rewrite H1, H2. Qed.
Lemma alias_says p x : (forall s, x = VStr s -> ~ In s FUNCTIONS /\ without "{" s /\ without "}" s) -> says (check_alias reformat p x) (alias_words p x).
Proof.
  intros H. destruct x as [|x1|x2|x3|s|x5|x6]; try (eapply says_ext; [apply says_none|]; intros m; split; [intros [] | intros [s [w [[=] _]]]]).
  destruct (H s eq_refl) as [Hf [Ho Hc]]. cbn [check_alias].
  assert (Ef : smem s FUNCTIONS = false) by (destruct (smem s FUNCTIONS) eqn:E; [apply smem_iff in E; contradiction | reflexivity]). rewrite Ef.
  rewrite !format_plain by (apply without_app; split; [apply without_iff; reflexivity | assumption]). cbn [bind].
  eapply says_ext; [apply says_app with (P1 := fun m => late_star s /\ m = mkRM (p ++ [PKey "Aliases"])%list ("Invalid use of wildcards: " ++ s)) (P2 := fun m => ~ domain_name s /\ m = mkRM (p ++ [PKey "Aliases"])%list ("Invalid alias found: " ++ s))|].
  - destruct (smem "*" (tl (split_on "." s))) eqn:E.
    + apply late_star_iff in E. eapply says_ext; [apply says_one|]. tauto.
    + eapply says_ext; [apply says_none|]. intros m. split; [intros []|]. intros [K _]. apply late_star_iff in K. congruence.
  - destruct (valid_domain s) eqn:E.
    + apply domain_iff in E. eapply says_ext; [apply says_none|]. tauto.
    + assert (~ domain_name s) by (intros K; apply domain_iff in K; congruence). eapply says_ext; [apply says_one|]. tauto.
  - intros m. split.
    + intros [[K ->]|[K ->]]; do 2 eexists; (split; [reflexivity|]; split; [|reflexivity]); now constructor.
    + intros [s' [w [[= <-] [[K|K] ->]]]]; auto.
Qed.
Lemma c75_aliases t : wf t -> unlisted t "AWS::CloudFront::Distribution" -> aliases_shaped t ->
  exists ms, aliases_match reformat t = Ok ms /\
    forall m, In m ms <-> exists d q l s words, property_at t "AWS::CloudFront::Distribution" "DistributionConfig" (VDict d) q /\ assoc "Aliases" d = Some (VList l) /\ In (VStr s) l /\
      alias_fault s words /\ m = mkRM (q ++ [PKey "Aliases"])%list words.
Proof.
  intros Hw Hu Hs. unfold aliases_match. destruct (props_found _ "DistributionConfig" t Hw Hu) as [ps [-> Hps]]. cbn [bind].
  destruct (says_concat (check_aliases reformat) ps (fun qx m => exists d l x, snd qx = VDict d /\ assoc "Aliases" d = Some (VList l) /\ In x l /\ alias_words (fst qx) x m)) as [ms [E Hm]].
  - intros [q x] Hq. apply Hps in Hq. cbn [fst snd] in *. destruct (Hs x q Hq) as [d [-> Hd]]. unfold check_aliases. cbn [fst snd vget].
    assert (Hno : (forall l, assoc "Aliases" d = Some (VList l) -> l = []) -> says (Ok []) (fun m => exists d0 l x, VDict d = VDict d0 /\ assoc "Aliases" d0 = Some (VList l) /\ In x l /\ alias_words q x m)).
    { intros K. eapply says_ext; [apply says_none|]. intros m. split; [intros []|]. intros [d0 [l [x [[= <-] [Ha [Hx _]]]]]]. apply K in Ha. subst l. destruct Hx. }
    destruct (assoc "Aliases" d) as [a|] eqn:Ea; cbn [bind]; [|apply Hno; discriminate].
    destruct (Hd a eq_refl) as [->|[[fn [arg [-> Hfn]]]|[l [-> Hl]]]].
    + apply Hno. discriminate.
    + cbn [truthy keys map iterated bind concat_res check_alias fst]. apply smem_iff in Hfn. rewrite Hfn. cbn [bind app]. apply Hno. discriminate.
    + destruct l as [|y l]; [apply Hno; intros l [= <-]; reflexivity|]. change (truthy (VList (y :: l))) with true. cbv iota. cbn [iterated bind].
      eapply says_ext; [apply says_concat; intros x Hx; apply alias_says; intros s ->; exact (Hl s Hx)|]. intros m. split.
      * intros [x [Hx H]]. exists d, (y :: l), x. auto.
      * intros [d0 [l0 [x [[= <-] [K [Hx H]]]]]]. rewrite Ea in K. injection K as <-. exists x. auto.
  - exists ms. split; [exact E|]. intros m. rewrite Hm. split.
    + intros [[q x] [Hq [d [l [y [Ex [Ha [Hy [s [words [-> [H1 H2]]]]]]]]]]]]. cbn [fst snd] in *. subst x. apply Hps in Hq. exists d, q, l, s, words. auto.
    + intros [d [q [l [s [words [Hp [Ha [Hi [H1 H2]]]]]]]]]. exists (q, VDict d). split; [now apply Hps|]. exists d, l, (VStr s). split; [reflexivity|]. split; [exact Ha|]. split; [exact Hi|]. exists s, words. auto.
Qed.
Lemma c75_aliases_run sp k c raw m0 d0 d q l s words :
  snd (coll_run sp k c) = Ok raw -> In (aliases_rule reformat) (k_all k) -> enabled (k_set k) (aliases_rule reformat) = true -> c_tmpl c = MDict m0 d0 -> wf (template c) ->
  unlisted (template c) "AWS::CloudFront::Distribution" -> aliases_shaped (template c) ->
  property_at (template c) "AWS::CloudFront::Distribution" "DistributionConfig" (VDict d) q -> assoc "Aliases" d = Some (VList l) -> In (VStr s) l -> alias_fault s words ->
  exists f, locate_match c "E3013" (mkRM (q ++ [PKey "Aliases"])%list words) = Ok f /\ In f raw.
Proof.
  intros Hrun Hr He Hc Hw Hu Hs Hp Ha Hi Hf. destruct (c75_aliases (template c) Hw Hu Hs) as [ms [Eo Ho]].
  apply (reported_match_at sp k c raw (aliases_rule reformat) _ ms _ m0 d0 Hrun Hr He eq_refl Hc Eo).
  - intros m Hm. apply Ho in Hm as [d' [q' [l' [s' [words' [Hp' [Ha' [_ [_ ->]]]]]]]]]. cbn [rm_path]. split; [intros K; apply app_eq_nil in K as [_ [=]]|].
    apply (property_place _ _ _ _ _ Hw) in Hp'. rewrite at_path_app, Hp'. cbn [at_path]. rewrite Ha'. cbn [at_path]. eauto.
  - apply Ho. exists d, q, l, s, words. auto.
Qed.
End Aliases.

(** * Containers *)
Lemma essential_says l : (forall y, In y l -> exists d, y = VDict d /\ forall e, assoc "Essential" d = Some e -> is_call e \/ exists b, e = VBool b) ->
  exists b, any_essential l = Ok b /\ (b = false <-> none_essential l).
Proof.
  unfold none_essential. induction l as [|y l IH]; intros H.
  - exists false. split; [reflexivity|]. split; [intros _ y d [] | reflexivity].
  - destruct IH as [b [Eb Hb]]; [intros z Hz; apply H; now right|]. destruct (H y (or_introl eq_refl)) as [d [-> Hd]]. cbn [any_essential is_essential bind]. rewrite Eb. cbn [bind].
    assert (X : (match assoc "Essential" d with Some x => truthy x | None => true end) = false <-> assoc "Essential" d = Some (VBool false)).
    { destruct (assoc "Essential" d) as [e|] eqn:E; [|split; discriminate]. destruct (Hd e eq_refl) as [[fn [arg [-> _]]]|[b' ->]]; [split; discriminate|]. destruct b'; split; discriminate || reflexivity. }
    eexists. split; [reflexivity|]. rewrite orb_false_iff, X, Hb. split.
    + intros [H1 H2] z d' [<-|Hz] E; [now injection E as <- | eauto].
    + intros H1. split; [apply (H1 (VDict d) d); [now left | reflexivity]|]. intros z d' Hz E. apply (H1 z d'); [now right | exact E].
Qed.
Lemma no_essential_function fn : In fn FUNCTIONS -> contains_text "Essential" fn = false.
Proof. intros H. cbn [In FUNCTIONS] in H. decompose [or] H; subst; reflexivity || contradiction. Qed.
Lemma c75_containers t : wf t -> unlisted t "AWS::ECS::TaskDefinition" -> containers_shaped t ->
  exists ms, containers_match t = Ok ms /\
    forall m, In m ms <-> exists l q, property_at t "AWS::ECS::TaskDefinition" "ContainerDefinitions" (VList l) q /\ none_essential l /\ m = mkRM q ("No essential containers defined for " ++ path_text q).
Proof.
  intros Hw Hu Hs. unfold containers_match. destruct (props_found _ "ContainerDefinitions" t Hw Hu) as [ps [-> Hps]]. cbn [bind].
  destruct (says_concat check_containers ps (fun qx m => exists l, snd qx = VList l /\ none_essential l /\ m = mkRM (fst qx) ("No essential containers defined for " ++ path_text (fst qx)))) as [ms [E Hm]].
  - intros [q x] Hq. apply Hps in Hq. cbn [fst snd] in *. unfold check_containers. cbn [fst snd]. destruct (Hs x q Hq) as [[fn [arg [-> Hfn]]]|[l [-> Hl]]].
    + cbn [iterated keys map fst bind any_essential is_essential]. rewrite (no_essential_function _ Hfn). cbn [bind orb]. eapply says_ext; [apply says_none|]. intros m. split; [intros [] | intros [l [[=] _]]].
    + cbn [iterated bind]. destruct (essential_says l Hl) as [b [-> Hb]]. cbn [bind]. destruct b.
      * eapply says_ext; [apply says_none|]. intros m. split; [intros []|]. intros [l0 [[= <-] [K _]]]. apply Hb in K. discriminate.
      * eapply says_ext; [apply says_one|]. intros m. split; [intros ->; exists l; split; [reflexivity|]; split; [now apply Hb | reflexivity] | intros [l0 [_ [_ H]]]; exact H].
  - exists ms. split; [exact E|]. intros m. rewrite Hm. split.
    + intros [[q x] [Hq [l [Ex [H1 H2]]]]]. cbn [fst snd] in *. subst x. apply Hps in Hq. exists l, q. auto.
    + intros [l [q [Hp [H1 H2]]]]. exists (q, VList l). split; [now apply Hps|]. exists l. auto.
Qed.
Lemma c75_containers_run sp k c raw m0 d0 l q :
  snd (coll_run sp k c) = Ok raw -> In containers_rule (k_all k) -> enabled (k_set k) containers_rule = true -> c_tmpl c = MDict m0 d0 -> wf (template c) ->
  unlisted (template c) "AWS::ECS::TaskDefinition" -> containers_shaped (template c) ->
  property_at (template c) "AWS::ECS::TaskDefinition" "ContainerDefinitions" (VList l) q -> none_essential l ->
  exists f, locate_match c "E3042" (mkRM q ("No essential containers defined for " ++ path_text q)) = Ok f /\ In f raw.
Proof.
  intros Hrun Hr He Hc Hw Hu Hs Hp Hn. destruct (c75_containers (template c) Hw Hu Hs) as [ms [Eo Ho]].
  apply (reported_match_at sp k c raw containers_rule _ ms _ m0 d0 Hrun Hr He eq_refl Hc Eo).
  - intros m Hm. apply Ho in Hm as [l' [q' [Hp' [_ ->]]]]. cbn [rm_path]. split; [|exists (VList l'); exact (property_place _ _ _ _ _ Hw Hp')].
    destruct Hp' as [n [a [pd [_ [_ [_ ->]]]]]]. discriminate.
  - apply Ho. exists l, q. auto.
Qed.
