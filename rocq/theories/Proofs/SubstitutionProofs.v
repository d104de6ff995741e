(** C67: variables that nothing substitutes. *)
From Coq Require Import List Lia Ascii.
Import ListNotations.
From Verif.Model Require Import Base Helpers Locate Node Conditions Search Rules Refs Relationship SubNeeded.
Import Verif.Model.Rules.
From Verif.Spec Require Import Paths Substitution.
From Verif.Proofs Require Import BaseFacts SearchProofs RelationRule MatchRun.
Local Open Scope string_scope.

Lemma variable_char_iff a : variable_char a = true <-> In a (list_ascii_of_string name_letters).
Proof.
  split.
  - destruct a as [[] [] [] [] [] [] [] []]; cbv; intros H; try discriminate H; tauto.
  - cbn. intros H. repeat (destruct H as [<-|H]; [reflexivity|]). destruct H.
Qed.
Lemma close_variable_iff s n : close_variable s = Some n <->
  (forall a, In a (list_ascii_of_string n) -> In a (list_ascii_of_string name_letters)) /\ exists after, s = n ++ "}" ++ after.
Proof.
  revert n. induction s as [|a s IH]; intros n; cbn [close_variable].
  - split; [discriminate|]. intros [_ [t E]]. destruct n; discriminate E.
  - destruct (char_eqb a "}") eqn:Ea.
    + apply char_eqb_eq in Ea as ->. split.
      * intros [= <-]. split; [intros a []|]. now exists s.
      * intros [Hn [t E]]. destruct n as [|b n]; [reflexivity|]. injection E as <- _.
        specialize (Hn "}"%char (or_introl eq_refl)). apply variable_char_iff in Hn. discriminate Hn.
    + destruct (variable_char a) eqn:Ev.
      * destruct (close_variable s) as [m|] eqn:Em.
        -- split.
           ++ intros [= <-]. destruct (proj1 (IH m) eq_refl) as [Hm [t ->]]. split.
              ** intros b [<-|Hb]; [now apply variable_char_iff | now apply Hm].
              ** now exists t.
           ++ intros [Hn [t E]]. destruct n as [|b n]; [injection E as -> _; discriminate Ea|].
              injection E as <- Es. f_equal. f_equal.
              assert (H : Some m = Some n); [|now injection H].
              apply (IH n). split; [intros b Hb; apply Hn; now right | now exists t].
        -- split; [discriminate|]. intros [Hn [t E]]. destruct n as [|b n]; [injection E as -> _; discriminate Ea|].
           injection E as <- Es. assert (H : None = Some n); [|discriminate H].
           apply (IH n). split; [intros b Hb; apply Hn; now right | now exists t].
      * split; [discriminate|]. intros [Hn [t E]]. destruct n as [|b n]; [injection E as -> _; discriminate Ea|].
        injection E as <- Es. specialize (Hn a (or_introl eq_refl)). apply variable_char_iff in Hn. congruence.
Qed.
Lemma leading_variable_iff s n : leading_variable s = Some n <-> variable_name n /\ exists after, s = "${" ++ n ++ "}" ++ after.
Proof.
  unfold leading_variable, variable_name. destruct s as [|a [|b s]].
  - split; [discriminate | intros [_ [t E]]; discriminate E].
  - split; [discriminate | intros [_ [t E]]; discriminate E].
  - destruct (char_eqb a "$" && char_eqb b "{") eqn:E.
    + apply andb_prop in E as [Ea Eb]. apply char_eqb_eq in Ea as ->. apply char_eqb_eq in Eb as ->.
      destruct (close_variable s) as [m|] eqn:Em.
      * destruct (proj1 (close_variable_iff s m) Em) as [Hm [t Es]]. split.
        -- intros H. destruct m as [|c m]; [discriminate H|]. injection H as <-. subst s. split; [split; [discriminate | exact Hm]|].
           now exists t.
        -- intros [[Hn Hc] [t' E]].
           assert (Ec : close_variable s = Some n). { apply close_variable_iff. split; [exact Hc|]. exists t'. now injection E. }
           rewrite Em in Ec. injection Ec as ->. destruct n; [now elim Hn | reflexivity].
      * split; [discriminate|]. intros [[Hn Hc] [t' E]].
        assert (Ec : close_variable s = Some n). { apply close_variable_iff. split; [exact Hc|]. exists t'. now injection E. }
        congruence.
    + split; [discriminate|]. intros [_ [t E']]. injection E' as -> -> _. discriminate E.
Qed.
Lemma variables_iff s n : In n (variables s) <-> has_variable s n.
Proof.
  unfold has_variable. induction s as [|a s IH].
  - split; [intros [] | intros [_ [b [t E]]]; destruct b; discriminate E].
  - cbn [variables]. rewrite in_app_iff, IH. split.
    + intros [H|[Hv [b [t E]]]].
      * destruct (leading_variable (String a s)) as [m|] eqn:E; [|destruct H]. destruct H as [<-|[]].
        apply leading_variable_iff in E as [Hv [t E]]. split; [exact Hv|]. exists "", t. exact E.
      * split; [exact Hv|]. exists (String a b), t. cbn [append]. now rewrite E.
    + intros [Hv [b [t E]]]. destruct b as [|c b].
      * left. rewrite (proj2 (leading_variable_iff (String a s) n)); [now left|]. split; [exact Hv|]. now exists t.
      * right. split; [exact Hv|]. exists b, t. now injection E.
Qed.

(** * Where the texts are *)
Lemma match_values_iff v : forall p, wf v -> forall q n,
  In (q, n) (match_values v p) <-> exists r s, q = (p ++ r)%list /\ at_path r v = Some (VStr s) /\ has_variable s n.
Proof.
  induction v as [v IH] using vsize_ind. intros p Hw q n. destruct v as [|b0|z0|f0|s|l|d].
  1-4: split; [intros [] | intros [r [s' [_ [E _]]]]; destruct r as [|[k|i] r]; discriminate E].
  - cbn [match_values]. rewrite in_map_iff. split.
    + intros [m [[= <- <-] Hm]]. exists [], s. rewrite app_nil_r. split; [reflexivity|]. split; [reflexivity|]. now apply variables_iff.
    + intros [r [s' [-> [E Hs]]]]. destruct r as [|[k|i] r]; try discriminate E. injection E as <-. exists n. rewrite app_nil_r.
      split; [reflexivity | now apply variables_iff].
  - pose proof (wf_list _ Hw) as Hl.
    assert (G : forall j (l' : list val), (forall x, In x l' -> In x l) ->
      (In (q, n) ((fix gol (i : nat) (l : list val) : list (path * string) :=
         match l with [] => [] | x :: r => (match_values x (p ++ [PIdx i]) ++ gol (S i) r)%list end) j l') <->
       exists i x r s, nth_error l' i = Some x /\ q = (p ++ PIdx (j + i) :: r)%list /\ at_path r x = Some (VStr s) /\ has_variable s n)).
    { intros j l'. revert j. induction l' as [|x l' IHl]; intros j Hin.
      - split; [intros [] | intros [i [x [r [s [E _]]]]]; destruct i; discriminate E].
      - rewrite in_app_iff, IHl by (intros y Hy; apply Hin; now right).
        rewrite (IH x (vsize_list_In l x (Hin x (or_introl eq_refl))) (p ++ [PIdx j])%list (Hl x (Hin x (or_introl eq_refl))) q n). split.
        + intros [[r [s [-> H]]]|[i [y [r [s [E [-> H]]]]]]].
          * exists 0, x, r, s. rewrite Nat.add_0_r, <- app_assoc. split; [reflexivity|]. split; [reflexivity | exact H].
          * exists (S i), y, r, s. rewrite Nat.add_succ_r. split; [exact E|]. split; [reflexivity | exact H].
        + intros [i [y [r [s [E [-> H]]]]]]. destruct i as [|i].
          * injection E as ->. left. exists r, s. rewrite Nat.add_0_r, <- app_assoc. split; [reflexivity | exact H].
          * right. exists i, y, r, s. rewrite Nat.add_succ_r. split; [exact E|]. split; [reflexivity | exact H]. }
    cbn [match_values]. rewrite (G 0 l (fun x H => H)). clear G. split.
    + intros [i [x [r [s [E [-> [Ea H]]]]]]]. exists (PIdx i :: r), s. split; [reflexivity|]. cbn [at_path]. rewrite E. split; [exact Ea | exact H].
    + intros [r [s [-> [Ea H]]]]. destruct r as [|[k|i] r]; try discriminate Ea. cbn [at_path] in Ea.
      destruct (nth_error l i) as [x|] eqn:E; [|discriminate Ea]. exists i, x, r, s. split; [exact E|]. split; [reflexivity|]. split; [exact Ea | exact H].
  - apply wf_dict in Hw as [Hn Hd].
    assert (G : forall d' : list (string * val), (forall kx, In kx d' -> In kx d) ->
      (In (q, n) ((fix god (d : list (string * val)) : list (path * string) :=
         match d with [] => [] | (k, x) :: r => (match_values x (p ++ [PKey k]) ++ god r)%list end) d') <->
       exists k x r s, In (k, x) d' /\ q = (p ++ PKey k :: r)%list /\ at_path r x = Some (VStr s) /\ has_variable s n)).
    { induction d' as [|[k x] d' IHd]; intros Hin.
      - split; [intros [] | intros [k [x [r [s [[] _]]]]]].
      - rewrite in_app_iff, IHd by (intros y Hy; apply Hin; now right).
        pose proof (Hin _ (or_introl eq_refl)) as Hx.
        rewrite (IH x (vsize_dict_In d k x Hx) (p ++ [PKey k])%list (Hd k x Hx) q n). split.
        + intros [[r [s [-> H]]]|[k' [y [r [s [E [-> H]]]]]]].
          * exists k, x, r, s. rewrite <- app_assoc. split; [now left|]. split; [reflexivity | exact H].
          * exists k', y, r, s. split; [now right|]. split; [reflexivity | exact H].
        + intros [k' [y [r [s [[E|E] [-> H]]]]]].
          * injection E as -> ->. left. exists r, s. rewrite <- app_assoc. split; [reflexivity | exact H].
          * right. exists k', y, r, s. split; [exact E|]. split; [reflexivity | exact H]. }
    cbn [match_values]. rewrite (G d (fun x H => H)). clear G. split.
    + intros [k [x [r [s [E [-> [Ea H]]]]]]]. exists (PKey k :: r), s. split; [reflexivity|]. cbn [at_path].
      rewrite (assoc_NoDup k x d Hn E). split; [exact Ea | exact H].
    + intros [r [s [-> [Ea H]]]]. destruct r as [|[k|i] r]; try discriminate Ea. cbn [at_path] in Ea.
      destruct (assoc k d) as [x|] eqn:E; [|discriminate Ea]. exists k, x, r, s. split; [now apply assoc_In|]. split; [reflexivity|]. split; [exact Ea | exact H].
Qed.
Lemma all_variables_iff d : wf (VDict d) -> exists l, all_variables (VDict d) = Ok l /\
  forall q n, In (q, n) l <-> exists s, text_seen (VDict d) q s /\ has_variable s n.
Proof.
  intros Hw. unfold all_variables. cbn [vget_def bind].
  assert (Hg : wf (match assoc "Globals" d with Some g => g | None => VDict [] end)).
  { destruct (assoc "Globals" d) as [g|] eqn:E; [|split; [constructor | exact I]].
    apply wf_dict in Hw as [_ Hw]. apply (Hw "Globals" g), assoc_In, E. }
  exists (match_values (VDict d) [] ++ match_values (match assoc "Globals" d with Some g => g | None => VDict [] end) [])%list.
  split; [now destruct (assoc "Globals" d)|].
  intros q n. rewrite in_app_iff, (match_values_iff _ [] Hw), (match_values_iff _ [] Hg). unfold text_seen. split.
  - intros [[r [s [-> [E H]]]]|[r [s [-> [E H]]]]]; exists s; split; try exact H; [now left|]. right. cbn [at_path app].
    destruct (assoc "Globals" d); [exact E|]. destruct r as [|[k|i] r]; discriminate E.
  - intros [s [[E|E] H]]; [left; exists q, s; split; [reflexivity|]; split; assumption|]. right. exists q, s. split; [reflexivity|].
    split; [|exact H]. cbn [at_path] in E. destruct (assoc "Globals" d); [exact E | discriminate E].
Qed.

(** * Which are reported *)
Lemma on_path_iff k p : on_path k p = true <-> below k p.
Proof.
  unfold on_path, below. rewrite existsb_exists. split.
  - intros [e [He E]]. apply pelem_eqb_eq in E. now subst.
  - intros H. exists (PKey k). split; [exact H | now apply pelem_eqb_eq].
Qed.
Lemma cut_definition_iff p a b : cut_definition p = Some (a, b) <-> first_definition p a b.
Proof.
  unfold first_definition, below. revert a b. induction p as [|e p IH]; intros a b; cbn [cut_definition].
  - split; [discriminate | intros [E _]; destruct a; discriminate E].
  - destruct (pelem_eqb (PKey "DefinitionString") e) eqn:Ee.
    + apply pelem_eqb_eq in Ee as <-. split.
      * intros [= <- <-]. split; [reflexivity | intros []].
      * intros [E H]. destruct a as [|x a]; [now injection E as ->|]. injection E as <- _. elim H. now left.
    + assert (Hne : PKey "DefinitionString" <> e). { intros He. apply pelem_eqb_eq in He. congruence. }
      destruct (cut_definition p) as [[a' b']|] eqn:Ec.
      * destruct (proj1 (IH a' b') eq_refl) as [Ep Hn]. split.
        -- intros [= <- <-]. split; [cbn; now rewrite Ep|]. intros [H|H]; [now elim Hne | now elim Hn].
        -- intros [E H]. destruct a as [|x a]; [cbn in E; exfalso; injection E; intros; congruence|]. injection E as <- E.
           assert (G : Some (a', b') = Some (a, b)). { apply IH. split; [exact E|]. intros Hc. apply H. now right. }
           now injection G as -> ->.
      * split; [discriminate|]. intros [E H]. destruct a as [|x a]; [cbn in E; exfalso; injection E; intros; congruence|]. injection E as <- E.
        assert (G : None = Some (a, b)). { apply IH. split; [exact E|]. intros Hc. apply H. now right. }
        discriminate G.
Qed.
Lemma cut_definition_none p : cut_definition p = None <-> ~ below "DefinitionString" p.
Proof.
  unfold below. induction p as [|e p IH]; cbn [cut_definition]; [split; [intros _ [] | reflexivity]|].
  destruct (pelem_eqb (PKey "DefinitionString") e) eqn:Ee.
  - apply pelem_eqb_eq in Ee as <-. split; [discriminate | intros H; elim H; now left].
  - assert (Hne : e <> PKey "DefinitionString"). { intros He. symmetry in He. apply pelem_eqb_eq in He. congruence. }
    destruct (cut_definition p) as [[a b]|].
    + split; [discriminate|]. intros H. assert (G : Some (a, b) = None); [|discriminate G]. apply IH. intros Hc. apply H. now right.
    + split; [|reflexivity]. intros _ [H|H]; [now elim Hne | now apply (proj1 IH eq_refl)].
Qed.
Lemma follow_nothing p x : follow p (VDict []) = Ok x -> x = VDict [].
Proof. induction p as [|[k|i] p IH]; cbn; [now intros [= <-] | exact IH | exact IH]. Qed.
Lemma follow_iff p : forall v x, follow p v = Ok x -> at_path p v = Some x \/ at_path p v = None /\ x = VDict [].
Proof.
  induction p as [|[k|i] p IH]; intros v x; cbn [follow].
  - intros [= <-]. now left.
  - destruct v as [|b0|z0|f0|s|l|d]; cbn [vget_def bind]; try discriminate.
    cbn [at_path]. destruct (assoc k d) as [y|] eqn:E; cbn [bind]; [apply IH|]. intros H. right. split; [reflexivity | now apply follow_nothing in H].
  - destruct v as [|b0|z0|f0|s|l|d]; cbn [vget_def bind]; try discriminate.
    intros H. right. split; [reflexivity | now apply follow_nothing in H].
Qed.
Lemma definition_string_iff template p n b q : definition_string template p n = Ok (b, q) ->
  reported_at p q /\ (b = true <-> defined_beside template p n).
Proof.
  unfold definition_string. destruct (cut_definition p) as [[a r]|] eqn:E.
  - apply cut_definition_iff in E. destruct (follow _ template) as [x|e] eqn:F; cbn [bind]; [|discriminate].
    intros [= <- <-]. split; [now apply ra_definition|]. apply follow_iff in F. split.
    + intros Hx. destruct F as [F|[_ ->]]; [|discriminate Hx]. now exists a, r, x.
    + intros [a' [r' [y [Hf [Hy Ht]]]]]. apply cut_definition_iff in E, Hf. rewrite E in Hf. injection Hf as <- <-.
      destruct F as [F|[F _]]; congruence.
  - intros [= <- <-]. apply cut_definition_none in E. split; [now apply ra_same|]. split; [discriminate|].
    intros [a [r [y [Hf _]]]]. elim E. destruct Hf as [-> _]. unfold below. rewrite in_app_iff. right. now left.
Qed.
Lemma reported_below p q k : reported_at p q -> k <> "DefinitionString" -> k <> "DefinitionSubstitutions" -> (below k q <-> below k p).
Proof.
  intros H H1 H2. destruct H as [p _|p a b [-> _]]; [reflexivity|]. unfold below. rewrite !in_app_iff. cbn.
  split; (intros [H|[H|H]]; [now left | exfalso; congruence | right; now right]).
Qed.
Lemma stage_variable_iff n : stage_variable n = true <-> exists r, n = "stageVariables." ++ r.
Proof. apply prefix_iff. Qed.
Lemma step_excuses_iff p q n : reported_at p q -> (existsb (step_excuses n) q = true <->
  below "Fn::Sub" p \/ (exists k, In k free_text /\ below k p) \/ (exists k r, In k api_keys /\ below k p /\ n = "stageVariables." ++ r)).
Proof.
  intros Hr. rewrite existsb_exists. split.
  - intros [e [He E]]. destruct e as [k|i]; [|discriminate E]. cbn [step_excuses] in E.
    assert (Hb : forall k', k' = k -> k' <> "DefinitionString" -> k' <> "DefinitionSubstitutions" -> below k' p).
    { intros k' -> H1 H2. now apply (reported_below p q k Hr H1 H2). }
    destruct (smem k api_excludes) eqn:Ea.
    + apply smem_iff in Ea. apply stage_variable_iff in E as [r ->]. right. right. exists k, r. split; [exact Ea|]. split; [|reflexivity].
      apply Hb; [reflexivity | |]; intros ->; cbn in Ea; destruct Ea as [H|[H|[H|[]]]]; discriminate H.
    + apply orb_prop in E as [E|E].
      * apply String.eqb_eq in E as ->. left. apply Hb; [reflexivity | discriminate | discriminate].
      * apply smem_iff in E. right. left. exists k. split; [exact E|].
        apply Hb; [reflexivity | |]; intros ->; cbn in E; repeat (destruct E as [H|E]; [discriminate H|]); destruct E.
  - intros [H|[[k [Hk H]]|[k [r [Hk [H ->]]]]]].
    + exists (PKey "Fn::Sub"). split; [|reflexivity]. apply (reported_below p q "Fn::Sub" Hr); [discriminate | discriminate | exact H].
    + exists (PKey k). assert (Hd : k <> "DefinitionString" /\ k <> "DefinitionSubstitutions" /\ smem k api_excludes = false /\ smem k excludes = true).
      { cbn in Hk. repeat (destruct Hk as [<-|Hk]; [split; [discriminate|]; split; [discriminate|]; split; reflexivity|]). destruct Hk. }
      destruct Hd as [H1 [H2 [H3 H4]]]. split; [now apply (reported_below p q k Hr)|]. cbn [step_excuses]. rewrite H3, H4. apply Bool.orb_true_r.
    + exists (PKey k). assert (Hd : k <> "DefinitionString" /\ k <> "DefinitionSubstitutions").
      { cbn in Hk. repeat (destruct Hk as [<-|Hk]; [split; discriminate|]). destruct Hk. }
      destruct Hd as [H1 H2]. split; [now apply (reported_below p q k Hr)|]. cbn [step_excuses].
      change api_keys with api_excludes in Hk. rewrite (proj2 (smem_iff _ _) Hk). apply stage_variable_iff. now exists r.
Qed.
Lemma is_excluded_iff p n : variable_name n -> (is_excluded p n = true <->
  (exists r, p = PKey "Parameters" :: r) \/ (below "Resource" p \/ below "NotResource" p) /\ In n policy_variables
  \/ below "Condition" p /\ n = "redshift:DbUser").
Proof.
  intros Hn. unfold is_excluded. rewrite !orb_true_iff, !andb_true_iff, !on_path_iff, !smem_iff.
  assert (Hp : In n resource_excludes <-> In n policy_variables).
  { split.
    - intros H. change resource_excludes with (policy_variables ++ ["cognito-identity.amazonaws.com:aud"; "cognito-identity.amazonaws.com:sub"; "cognito-identity.amazonaws.com:amr"])%list in H.
      apply in_app_iff in H as [H|H]; [exact H|]. exfalso. destruct Hn as [_ Hn].
      assert (Hm : In "-"%char (list_ascii_of_string n)).
      { destruct H as [<-|[<-|[<-|[]]]]; do 7 right; now left. }
      apply Hn, variable_char_iff in Hm. discriminate Hm.
    - intros H. change resource_excludes with (policy_variables ++ ["cognito-identity.amazonaws.com:aud"; "cognito-identity.amazonaws.com:sub"; "cognito-identity.amazonaws.com:amr"])%list.
      apply in_app_iff. now left. }
  assert (Hq : (match p with PKey k :: _ => String.eqb k "Parameters" | _ => false end) = true <-> exists r, p = PKey "Parameters" :: r).
  { destruct p as [|[k|i] p]; try (split; [discriminate | intros [r E]; discriminate E]). rewrite String.eqb_eq. split; [intros ->; now exists p | intros [r E]; now injection E]. }
  assert (Hd : In n condition_excludes <-> n = "redshift:DbUser").
  { cbn. split; [intros [H|[]]; now symmetry | intros ->; now left]. }
  rewrite Hp, Hq, Hd. clear. tauto.
Qed.
Lemma excused_iff template p q n b : variable_name n -> definition_string template p n = Ok (b, q) ->
  (is_excluded p n || b || existsb (step_excuses n) q = true <-> excused template p n).
Proof.
  intros Hn Hd. apply definition_string_iff in Hd as [Hr Hb].
  rewrite !orb_true_iff, (is_excluded_iff p n Hn), Hb, (step_excuses_iff p q n Hr). split.
  - intros [[[[r H]|[[H H']|[H H']]]|H]|[H|[[k [H H']]|[k [r [H [H' H'']]]]]]].
    + now apply ex_parameters with r.
    + now apply ex_policy.
    + apply (ex_free _ _ _ "Condition"); [do 2 right; now left | exact H].
    + now apply ex_definition.
    + now apply ex_sub.
    + now apply ex_free with k.
    + now apply ex_stage with k r.
  - intros [H|r H|k H H'|H H'|k r H H' H''|H].
    + right. now left.
    + left. left. left. now exists r.
    + right. right. left. now exists k.
    + left. left. right. left. now split.
    + right. right. right. now exists k, r.
    + left. now right.
Qed.

Lemma custom_excluded_iff matches cfg r n : assoc "custom_excludes" cfg = Some (VStr r) ->
  exists b, custom_excluded matches cfg n = Ok b /\ (b = true <-> spared matches r n).
Proof.
  intros E. unfold custom_excluded, spared. change ("${" ++ n ++ "}") with (braced n). rewrite E. cbn [truthy]. destruct (String.eqb r "") eqn:Er; cbn [negb].
  - apply String.eqb_eq in Er as ->. exists false. split; [reflexivity|]. split; [discriminate | intros [H _]; now elim H].
  - apply String.eqb_neq in Er. exists (matches r (braced n)). split; [reflexivity|]. split; [now split | intros [_ H]; exact H].
Qed.
Lemma variable_check_iff template matches cfg r p n ms : assoc "custom_excludes" cfg = Some (VStr r) -> variable_name n ->
  variable_check template matches cfg (p, n) = Ok ms ->
  forall m, In m ms <-> exists q, reported_at p q /\ ~ excused template p n /\ ~ spared matches r n /\ m = needed_match q n.
Proof.
  intros Hc Hn. unfold variable_check. cbn [fst snd]. destruct (custom_excluded_iff matches cfg r n Hc) as [b [Eb Hb]].
  destruct (is_excluded p n) eqn:Ex.
  - intros [= <-] m. split; [intros []|]. intros [q [_ [He _]]]. apply is_excluded_iff in Ex; [|exact Hn]. elim He.
    destruct Ex as [[x H]|[[H H']|[H H']]]; [now apply ex_parameters with x | now apply ex_policy|].
    apply (ex_free _ _ _ "Condition"); [do 2 right; now left | exact H].
  - destruct (definition_string template p n) as [[d q]|e] eqn:Ed; cbn [bind fst snd]; [|discriminate].
    pose proof (excused_iff template p q n d Hn Ed) as Hx. rewrite Ex in Hx. cbn [orb] in Hx.
    assert (Hu : forall q', reported_at p q' -> q' = q).
    { apply definition_string_iff in Ed as [Hr _]. clear -Hr. intros q' Hr'.
      destruct Hr' as [p Hp|p a b Hf], Hr as [p Hp'|p a' b' Hf']; try reflexivity.
      - elim Hp. destruct Hf' as [-> _]. unfold below. rewrite in_app_iff. right. now left.
      - elim Hp'. destruct Hf as [-> _]. unfold below. rewrite in_app_iff. right. now left.
      - apply cut_definition_iff in Hf, Hf'. rewrite Hf in Hf'. now injection Hf' as -> ->. }
    apply definition_string_iff in Ed as [Hr _].
    destruct d.
    + intros [= <-] m. split; [intros []|]. intros [q' [_ [He _]]]. elim He. now apply Hx.
    + rewrite Eb. cbn [bind orb] in *. intros [= <-] m. destruct b; cbn [orb].
      * split; [intros []|]. intros [q' [_ [_ [Hs _]]]]. elim Hs. now apply Hb.
      * destruct (existsb (step_excuses n) q).
        -- split; [intros []|]. intros [q' [_ [He _]]]. elim He. now apply Hx.
        -- split.
           ++ intros [<-|[]]. exists q. split; [exact Hr|]. split; [intros H; now apply Hx in H|]. split; [intros H; now apply Hb in H | reflexivity].
           ++ intros [q' [Hr' [_ [_ ->]]]]. left. now rewrite (Hu q' Hr').
Qed.

Lemma c67_exact template matches cfg r d ms : template = VDict d -> wf template -> assoc "custom_excludes" cfg = Some (VStr r) ->
  sub_needed_match template matches cfg = Ok ms ->
  forall m, In m ms <-> exists p s n q, text_seen template p s /\ has_variable s n /\ ~ excused template p n /\ ~ spared matches r n /\
    reported_at p q /\ m = unsubstituted_at q n.
Proof.
  intros -> Hw Hc. unfold sub_needed_match. destruct (all_variables_iff d Hw) as [l [El Hl]]. rewrite El. cbn [bind]. intros H m.
  apply concat_res_inv in H as [g [Hg ->]]. rewrite in_flat_map. split.
  - intros [[p n] [Hp Hm]]. destruct (proj1 (Hl p n) Hp) as [s [Hs Hv]].
    destruct (proj1 (variable_check_iff _ _ _ _ _ _ _ Hc (proj1 Hv) (Hg _ Hp) m) Hm) as [q [Hr [He [Hx ->]]]].
    exists p, s, n, q. repeat (split; [assumption|]). reflexivity.
  - intros [p [s [n [q [Hs [Hv [He [Hx [Hr ->]]]]]]]]].
    assert (Hp : In (p, n) l). { apply Hl. now exists s. }
    exists (p, n). split; [exact Hp|]. apply (variable_check_iff _ _ _ _ _ _ _ Hc (proj1 Hv) (Hg _ Hp)). exists q. repeat (split; [assumption|]). reflexivity.
Qed.

Lemma at_path_app p q : forall v, at_path (p ++ q)%list v = match at_path p v with Some x => at_path q x | None => None end.
Proof.
  induction p as [|[k|i] p IH]; intros v; [reflexivity| |]; destruct v as [|b0|z0|f0|s|l|d]; cbn [app at_path]; try reflexivity.
  - destruct (assoc k d); [apply IH | reflexivity].
  - destruct (nth_error l i); [apply IH | reflexivity].
Qed.
Lemma follow_keys p q : (forall e, In e p -> exists k, e = PKey k) -> forall v x, at_path p v = Some x -> follow (p ++ q)%list v = follow q x.
Proof.
  induction p as [|e p IH]; intros Hk v x; [now intros [= <-]|]. destruct (Hk e (or_introl eq_refl)) as [k ->].
  destruct v as [|b0|z0|f0|s|l|d]; cbn [at_path]; try discriminate. destruct (assoc k d) as [y|] eqn:E; [|discriminate]. intros H.
  cbn [app follow vget_def]. rewrite E. cbn [bind]. apply IH; [intros e He; apply Hk; now right | exact H].
Qed.
Lemma definition_string_total template p n s : readable_definitions template -> at_path p template = Some (VStr s) ->
  exists b q, definition_string template p n = Ok (b, q).
Proof.
  intros Hd Hp. unfold definition_string. destruct (cut_definition p) as [[a r]|] eqn:E; [|now exists false, p].
  apply cut_definition_iff in E as [-> _]. rewrite at_path_app in Hp. destruct (at_path a template) as [v|] eqn:Ea; [|discriminate Hp].
  destruct v as [|b0|z0|f0|t|l|o]; try discriminate Hp. cbn [at_path] in Hp.
  destruct (assoc "DefinitionString" o) as [x|] eqn:Eo; [|discriminate Hp]. destruct (Hd a o x Ea Eo) as [Hk Hs].
  rewrite (follow_keys a _ Hk template _ Ea). cbn [follow vget_def].
  destruct (assoc "DefinitionSubstitutions" o) as [y|] eqn:Ey; cbn [bind].
  - destruct (Hs y eq_refl) as [m ->]. cbn [vget_def]. destruct (assoc n m); cbn [bind]; eauto.
  - cbn [vget_def assoc]. cbn [bind]. eauto.
Qed.
Lemma c67_total template matches cfg r d : template = VDict d -> wf template -> assoc "custom_excludes" cfg = Some (VStr r) ->
  assoc "Globals" d = None -> readable_definitions template ->
  exists ms, sub_needed_match template matches cfg = Ok ms.
Proof.
  intros -> Hw Hc Hg Hd. unfold sub_needed_match. destruct (all_variables_iff d Hw) as [l [El Hl]]. rewrite El. cbn [bind].
  apply concat_res_total. intros [p n] Hp. destruct (proj1 (Hl p n) Hp) as [s [[Hs|Hs] Hv]]; [|cbn [at_path] in Hs; rewrite Hg in Hs; discriminate Hs].
  unfold variable_check. cbn [fst snd]. destruct (is_excluded p n); [eauto|].
  destruct (definition_string_total _ p n s Hd Hs) as [b [q ->]]. cbn [bind fst snd]. destruct b; [eauto|].
  destruct (custom_excluded_iff matches cfg r n Hc) as [b [-> _]]. cbn [bind]. eauto.
Qed.

Lemma definition_string_plain template p n : ~ below "DefinitionString" p -> definition_string template p n = Ok (false, p).
Proof. intros H. unfold definition_string. now rewrite (proj2 (cut_definition_none p) H). Qed.
Lemma c67_plain template matches cfg r d : template = VDict d -> wf template -> assoc "custom_excludes" cfg = Some (VStr r) ->
  assoc "Globals" d = None -> plain_definitions template ->
  exists ms, sub_needed_match template matches cfg = Ok ms.
Proof.
  intros -> Hw Hc Hg Hd. unfold sub_needed_match. destruct (all_variables_iff d Hw) as [l [El Hl]]. rewrite El. cbn [bind].
  apply concat_res_total. intros [p n] Hp. destruct (proj1 (Hl p n) Hp) as [s [[Hs|Hs] Hv]]; [|cbn [at_path] in Hs; rewrite Hg in Hs; discriminate Hs].
  unfold variable_check. cbn [fst snd]. destruct (is_excluded p n); [eauto|].
  rewrite (definition_string_plain _ p n (Hd p s n Hs Hv)). cbn [bind fst snd].
  destruct (custom_excluded_iff matches cfg r n Hc) as [b [-> _]]. cbn [bind]. eauto.
Qed.
Lemma c67_run matches cfg r sp k c raw m0 d0 d p s n :
  snd (coll_run sp k c) = Ok raw -> In (sub_needed_rule matches cfg) (k_all k) -> enabled (k_set k) (sub_needed_rule matches cfg) = true ->
  c_tmpl c = MDict m0 d0 -> template c = VDict d -> wf (template c) -> assoc "custom_excludes" cfg = Some (VStr r) ->
  assoc "Globals" d = None -> plain_definitions (template c) ->
  at_path p (template c) = Some (VStr s) -> has_variable s n -> ~ excused (template c) p n -> ~ spared matches r n ->
  exists fi, locate_match c "E1029" (unsubstituted_at p n) = Ok fi /\ In fi raw.
Proof.
  intros Hrun Hr He Hc Hd Hw Hcfg Hg Hp Hs Hv Hx Hy. destruct (c67_plain _ matches cfg r d Hd Hw Hcfg Hg Hp) as [ms Hms].
  pose proof (c67_exact _ matches cfg r d ms Hd Hw Hcfg Hms) as Hin.
  apply (reported_match_at sp k c raw (sub_needed_rule matches cfg) (fun cfg c => sub_needed_match (template c) matches cfg) ms _ m0 d0 Hrun Hr He eq_refl Hc Hms).
  - intros m Hm. destruct (proj1 (Hin m) Hm) as [p' [s' [n' [q [[Hs'|Hs'] [Hv' [_ [_ [Hr' ->]]]]]]]]]; [|rewrite Hd in Hs'; cbn [at_path] in Hs'; rewrite Hg in Hs'; discriminate Hs'].
    specialize (Hp p' s' n' Hs' Hv'). destruct Hr' as [p' _|p' a b [-> _]]; [|elim Hp; unfold below; rewrite in_app_iff; right; now left].
    cbn [unsubstituted_at rm_path]. split; [|now exists (VStr s')]. intros ->. rewrite Hd in Hs'. discriminate Hs'.
  - apply Hin. exists p, s, n, p. split; [now left|]. split; [exact Hv|]. split; [exact Hx|]. split; [exact Hy|]. split; [|reflexivity].
    apply ra_same. exact (Hp p s n Hs Hv).
Qed.
