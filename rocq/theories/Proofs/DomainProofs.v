(** C78: names and the domains above them. *)
From Coq Require Import List String Ascii Lia Permutation.
From Verif.Model Require Import Base Locate Helpers Node Conditions Search Resolve Rules Refs Relationship PropertyRules SubProps Route53 Domains.
From Verif.Spec Require Import Paths Branches Required Walk Values Truth Resolved Groups Domains.
From Verif.Proofs Require Import BaseFacts SearchProofs ConditionUseProofs SizeProofs PropertyRuleProofs ValueRun Says AliasProofs EventProofs RecordTexts SetProofs GroupProofs ScenarioRule.
Import Verif.Model.Rules.
Import ListNotations.
Local Open Scope string_scope.

(** * Texts *)
Lemma chop_iff s u : undotted s u <-> u = chop s.
Proof.
  unfold undotted, chop. destruct (cut_end "." s) as [v|] eqn:E.
  - apply cut_iff in E. split; [intros [K|[_ K]]; [|now elim (K v)] | intros ->; now left]. subst s. apply append_cancel_r in K. now symmetry.
  - rewrite cut_none in E. split; [intros [K|[K _]]; [now elim (E u) | now symmetry] | intros ->; now right].
Qed.
Lemma substring_zero s : forall n, String.length s <= n -> substring 0 n s = s.
Proof. induction s as [|a s IH]; intros [|n] H; cbn in *; [reflexivity | reflexivity | lia|]. now rewrite IH by lia. Qed.
Lemma substring_cut s : forall n, n <= String.length s -> s = substring 0 n s ++ substring n (String.length s - n) s.
Proof.
  induction s as [|a s IH]; intros [|n] H; cbn [String.length] in *; [reflexivity | lia | cbn [Nat.sub substring append]; now rewrite substring_zero|].
  cbn [substring append Nat.sub]. f_equal. apply IH. lia.
Qed.
Lemma last_iff z n : z <> "" -> (z = last_n (String.length z) n <-> exists t, n = t ++ z).
Proof.
  intros Hz. assert (E : last_n (String.length z) n = substring (String.length n - String.length z) (String.length z) n) by (destruct z; [contradiction | reflexivity]). rewrite E. clear E. split.
  - intros E. destruct (Nat.le_gt_cases (String.length z) (String.length n)) as [H|H].
    + exists (substring 0 (String.length n - String.length z) n). rewrite E at 2. rewrite (substring_cut n (String.length n - String.length z)) at 1 by lia. f_equal. f_equal. lia.
    + replace (String.length n - String.length z) with 0 in E by lia. rewrite substring_zero in E by lia. subst z. lia.
  - intros [t ->]. rewrite length_app. replace (String.length t + String.length z - String.length z) with (String.length t) by lia. rewrite substring_skip. symmetry. apply substring_zero. lia.
Qed.
Lemma zone_ok z n : (String.eqb z n || String.eqb z (last_n (String.length z) n) = false <-> (forall t, n <> t ++ z) \/ (z = "" /\ n <> "")).
Proof.
  rewrite Bool.orb_false_iff, !String.eqb_neq. destruct (string_dec z "") as [->|Hz].
  - cbn [String.length last_n]. split; [intros [H _]; right; split; [reflexivity | congruence] | intros [H|[_ H]]; [exfalso; apply (H n); now rewrite append_nil_r | split; congruence]].
  - rewrite (last_iff z n Hz). split.
    + intros [_ H]. left. intros t E. apply H. eauto.
    + intros [H|[H _]]; [|contradiction]. split; [intros ->; now apply (H "") | intros [t E]; now apply (H t)].
Qed.
Lemma below_iff v n : below_domain v n <-> String.eqb n v = true \/ exists t, cut_end ("." ++ v) n = Some t.
Proof. unfold below_domain. rewrite String.eqb_eq. split; (intros [H|[t H]]; [now left | right; exists t; now apply cut_iff]). Qed.

(** * The checks of one object *)
Definition zone_part : list string := ["Name"; "HostedZoneName"].
Lemma zone_says p sc d : zone_shaped d -> says (zone_of_set p (sc, VDict d)) (fun m => exists a, zone_fault d (fst a) (snd a) /\ m = domain_match p sc (fst a) (snd a)).
Proof.
  intros Hs. unfold zone_of_set. cbn [snd fst vget bind].
  assert (N : (forall n z, assoc "Name" d = Some (VStr n) -> assoc "HostedZoneName" d = Some (VStr z) -> False) -> says (@Ok (list rulematch) []) (fun m => exists a, zone_fault d (fst a) (snd a) /\ m = domain_match p sc (fst a) (snd a))).
  { intros Hn. eapply says_ext; [apply says_none|]. intros m. split; [intros []|]. intros [a [K _]]. destruct K as [n z H1 H2 _|n z n' z' H1 H2 _ _ _]; exact (Hn n z H1 H2). }
  destruct (assoc "Name" d) as [nv|] eqn:En; [|apply N; congruence].
  destruct nv as [| | | |n| |]; try (apply N; congruence).
  destruct (assoc "HostedZoneName" d) as [zv|] eqn:Ez; [|apply N; congruence].
  destruct zv as [| | | |z| |]; try (apply N; congruence). clear N.
  destruct (Hs n z En Ez) as [Hn Hz].
  assert (L : forall s, s <> "" -> exists a, last_char s = Some a /\ exists t, s = t ++ String a "").
  { intros s Hne. induction s as [|s a _] using snoc_ind; [contradiction|]. exists a. split; [apply last_char_iff; eauto | eauto]. }
  destruct (L z Hz) as [a [-> [tz Etz]]]. destruct (L n Hn) as [b [-> _]].
  assert (D : char_eqb a "." = false <-> forall t, z <> t ++ ".").
  { destruct (char_eqb a ".") eqn:E.
    - apply char_eqb_eq in E. subst a. split; [discriminate | intros K; now elim (K tz)].
    - split; [|reflexivity]. intros _ t K. rewrite Etz in K. revert K. apply ends_snoc_neq. intros ->. revert E. now vm_compute. }
  set (g := String.eqb (chop z) (chop n) || String.eqb (chop z) (last_n (String.length (chop z)) (chop n))).
  pose proof (zone_ok (chop z) (chop n)) as G. fold g in G. eexists. split; [reflexivity|]. intros m. rewrite in_app_iff. split.
  - intros [H|H].
    + destruct (char_eqb a "."); [destruct H|]. destruct H as [<-|[]]. eexists (_, _). split; [|reflexivity]. cbn [fst snd]. apply (zf_dot d n z En Ez). now apply D.
    + destruct g; [destruct H|]. destruct H as [<-|[]]. eexists (_, _). split; [|reflexivity]. cbn [fst snd]. apply (zf_name d n z (chop n) (chop z) En Ez); [now apply chop_iff | now apply chop_iff | now apply G].
  - intros [[key words] [K ->]]. cbn [fst snd] in *. destruct K as [n1 z1 E1 E2 Hd|n1 z1 n' z' E1 E2 U1 U2 Hd]; rewrite En in E1; injection E1 as <-; rewrite Ez in E2; injection E2 as <-.
    + left. apply D in Hd. rewrite Hd. now left.
    + right. apply chop_iff in U1, U2. subst n' z'. apply G in Hd. rewrite Hd. now left.
Qed.
Lemma option_says p sc d : says (option_check p (sc, VDict d)) (fun m => exists a, option_fault d (fst a) (snd a) /\ m = domain_match p sc (fst a) (snd a)).
Proof.
  unfold option_check. cbn [snd fst vget bind].
  assert (N : (forall n z, assoc "DomainName" d = Some (VStr n) -> assoc "ValidationDomain" d = Some (VStr z) -> below_domain z n) -> says (@Ok (list rulematch) []) (fun m => exists a, option_fault d (fst a) (snd a) /\ m = domain_match p sc (fst a) (snd a))).
  { intros Hn. eapply says_ext; [apply says_none|]. intros m. split; [intros []|]. intros [a [K _]]. destruct K as [n z H1 H2 K]. exact (K (Hn n z H1 H2)). }
  destruct (assoc "DomainName" d) as [nv|] eqn:En; [|apply N; congruence].
  destruct nv as [| | | |n| |]; try (apply N; congruence).
  destruct (assoc "ValidationDomain" d) as [zv|] eqn:Ez; [|apply N; congruence].
  destruct zv as [| | | |z| |]; try (apply N; congruence).
  pose proof (below_iff z n) as B. destruct (String.eqb n z).
  { apply N. intros n1 z1 [= <-] [= <-]. apply B. now left. }
  destruct (cut_end ("." ++ z) n) as [u|].
  { apply N. intros n1 z1 [= <-] [= <-]. apply B. right. eauto. }
  eapply says_ext; [apply says_one|]. intros m. split.
  - intros ->. eexists (_, _). split; [|reflexivity]. apply (of_domain d n z En Ez). rewrite B. intros [K|[u K]]; discriminate K.
  - intros [[key words] [K ->]]. cbn [fst snd] in *. destruct K. reflexivity.
Qed.
Lemma zone_ext d e : (forall k, in_part zone_part k -> assoc k d = assoc k e) -> forall a : string * string, zone_fault d (fst a) (snd a) -> zone_fault e (fst a) (snd a).
Proof.
  intros H a K. assert (H1 : assoc "Name" d = assoc "Name" e) by (apply H; right; now left). assert (H2 : assoc "HostedZoneName" d = assoc "HostedZoneName" e) by (apply H; right; right; now left).
  destruct K as [n z E1 E2 Hd|n z n' z' E1 E2 U1 U2 Hd]; [apply (zf_dot e n z) | apply (zf_name e n z n' z')]; congruence || assumption.
Qed.
Lemma zone_shape_ext d e : (forall k, in_part zone_part k -> assoc k d = assoc k e) -> zone_shaped d -> zone_shaped e.
Proof.
  intros H K n z E1 E2. apply K; [rewrite (H "Name"); [exact E1 | right; now left] | rewrite (H "HostedZoneName"); [exact E2 | right; right; now left]].
Qed.
Lemma option_ext d e : (forall k, in_part [] k -> assoc k d = assoc k e) -> forall a : string * string, option_fault d (fst a) (snd a) -> option_fault e (fst a) (snd a).
Proof. intros H a K. destruct K as [n v E1 E2 Hd]. apply (of_domain e n v); [rewrite <- H; [exact E1 | now left] | rewrite <- H; [exact E2 | now left] | exact Hd]. Qed.
Lemma zone_none (a : string * string) : ~ zone_fault [] (fst a) (snd a).
Proof. intros K. destruct K; discriminate. Qed.
Lemma option_none (a : string * string) : ~ option_fault [] (fst a) (snd a).
Proof. intros K. destruct K; discriminate. Qed.
Lemma zone_part_if : ~ In "Fn::If" zone_part.
Proof. cbn. intuition discriminate. Qed.

(** * E3041 *)
Lemma c78_zone order c d p : (forall l, Permutation (order l) l) -> plain_object d -> VDict d <> no_value -> (forall n, ~ group_looks_at d ["Name"; "HostedZoneName"] n) -> zone_shaped d ->
  exists ms, zones_match order c (VDict d) p = Ok ms /\
    forall m, In m ms <-> exists key words, zone_fault d key words /\ m = mkRM (p ++ [PKey key])%list (words ++ path_text p).
Proof.
  intros Ho Hd Hnv Hn Hs.
  destruct (scen_plain zone_part zone_part_if (zone_of_set p) (fun d a => zone_fault d (fst a) (snd a)) zone_shaped (fun sc a => domain_match p sc (fst a) (snd a)) (zone_says p) order Ho c d) as [ms [E H]]; auto.
  { intros n K. apply part_group in K; [exact (Hn n K) | discriminate]. }
  exists ms. split; [exact E|]. intros m. rewrite H. unfold domain_match. rewrite append_nil_r. split; [intros [[k w] K]; exists k, w; exact K | intros [k [w K]]; exists (k, w); exact K].
Qed.
Lemma c78_zone_conditional order hash template defs parameters d names w0 b0 p :
  (forall v, digest (hash v)) -> (forall l, Permutation (order l) l) ->
  section_of "Conditions" template defs -> section_of "Parameters" template parameters ->
  NoDup (keys defs) -> (forall n v, In (n, v) defs -> well_formed defs v) ->
  NoDup (keys parameters) -> (forall n p, In (n, p) parameters -> plain_parameter p) -> told_apart hash parameters ->
  plain_object d -> NoDup names -> names <> [] -> (forall n, In n names <-> group_looks_at d ["Name"; "HostedZoneName"] n) -> (forall n, In n names -> In n (keys defs)) ->
  (List.length names <= 4 \/ some_related defs names) -> deployment hash parameters w0 -> gives defs w0 names b0 ->
  (forall b d', deployed b d d' -> zone_shaped d') ->
  exists limit, forall fuel, limit <= fuel ->
  exists ms, zones_match order (load hash fuel template) (VDict d) p = Ok ms /\
    (forall w b d' key words, deployment hash parameters w -> gives defs w names b -> deployed b d d' -> zone_fault d' key words ->
       exists sc, Permutation sc (scenario_of names b) /\ In (mkRM (p ++ [PKey key])%list (words ++ path_text p ++ " " ++ scenario_text sc)) ms) /\
    (forall m, In m ms -> exists b sc key words, Permutation sc (scenario_of names b) /\ (forall d', deployed b d d' -> zone_fault d' key words) /\
       m = mkRM (p ++ [PKey key])%list (words ++ path_text p ++ " " ++ scenario_text sc) /\
       ((some_related defs names \/ forall n, In n names -> exists w, deployment hash parameters w /\ gives defs w [n] b) ->
        exists w, deployment hash parameters w /\ gives defs w names b)).
Proof.
  intros Hh Ho Hc Hp Hcn Hcw Hpan Hpp Hta Hd Hnd Hne Hn Hdef Hsz Hw0 Hg0 Hsh.
  destruct (scen_both zone_part zone_part_if (zone_of_set p) (fun d a => zone_fault d (fst a) (snd a)) zone_shaped (fun sc a => domain_match p sc (fst a) (snd a)) zone_ext zone_shape_ext zone_none (zone_says p) order Ho
    hash template defs parameters d names w0 b0) as [limit H]; auto.
  { intros n. rewrite part_group by discriminate. apply Hn. }
  exists limit. intros fuel Hf. destruct (H fuel Hf) as [ms [E [H1 H2]]]. exists ms. split; [exact E|]. split.
  - intros w b d' key words K1 K2 K3 K4. exact (H1 w b d' (key, words) K1 K2 K3 K4).
  - intros m Hm. destruct (H2 m Hm) as [b [sc [[key words] K]]]. exists b, sc, key, words. exact K.
Qed.
Lemma fault_key d key words : zone_fault d key words \/ option_fault d key words -> exists x, assoc key d = Some x.
Proof. intros [K|K]; destruct K; eauto. Qed.
Lemma c78_zone_run hash order fuel sp k c raw name attrs pd m0 d0 key words :
  (forall l, Permutation (order l) l) ->
  snd (coll_run sp k c) = Ok raw -> In (zone_rule hash order fuel) (k_all k) -> enabled (k_set k) (zone_rule hash order fuel) = true ->
  wf (template c) -> c_tmpl c = MDict m0 d0 -> resource_of (template c) name "AWS::Route53::RecordSet" attrs -> assoc "Properties" attrs = Some (VDict pd) ->
  plain_object pd -> VDict pd <> no_value -> (forall n, ~ group_looks_at pd ["Name"; "HostedZoneName"] n) -> zone_shaped pd ->
  zone_fault pd key words ->
  exists f, locate_match c "E3041" (mkRM (props_path name ++ [PKey key])%list (words ++ path_text (props_path name))) = Ok f /\ In f raw.
Proof.
  intros Ho Hrun Hr He Hw Hc Hres Hp Hd Hnv Hn Hs Hf. destruct (c78_zone order (load hash fuel (template c)) pd (props_path name) Ho Hd Hnv Hn Hs) as [ms [E Hms]].
  refine (reported_props sp k c raw _ _ name _ attrs pd ms _ m0 d0 Hrun Hr He eq_refl _ Hc Hres Hp E _ _).
  - now left.
  - intros m Hm. apply Hms in Hm as [key' [words' [K ->]]]. cbn [rm_path]. split; [discriminate|]. destruct (fault_key pd key' words' (or_introl K)) as [x Hx]. exists x.
    rewrite at_path_app, (resource_at c name _ attrs pd Hw Hres Hp). cbn [at_path]. now rewrite Hx.
  - apply Hms. exists key, words. auto.
Qed.

(** * E3503 *)
Lemma c78_option order c pd p :
  (forall l, Permutation (order l) l) ->
  (forall x, assoc "DomainValidationOptions" pd = Some x -> (forall q, ~ alternative x (p ++ [PKey "DomainValidationOptions"])%list VNull q) /\
     forall e q, single x (p ++ [PKey "DomainValidationOptions"])%list (VDict e) q -> ~ is_call (VDict e) -> plain_object e /\ forall n, ~ members_look_at e n) ->
  exists ms, options_match order c (VDict pd) p = Ok ms /\
    forall m, In m ms <-> exists x e q key words, assoc "DomainValidationOptions" pd = Some x /\ single x (p ++ [PKey "DomainValidationOptions"])%list (VDict e) q /\ ~ is_call (VDict e) /\
      option_fault e key words /\ m = mkRM (q ++ [PKey key])%list (words ++ path_text q).
Proof.
  intros Ho H. destruct (value_says (check_option order c) "DomainValidationOptions" pd p (fun w r m => exists e key words, w = VDict e /\ option_fault e key words /\ m = mkRM (r ++ [PKey key])%list (words ++ path_text r))) as [ms [E Hms]].
  { intros x Hx. destruct (H x Hx) as [H1 H2]. split; [exact H1|]. intros w r Hs Hc. unfold check_option. destruct w as [| | | | | |e]; cbn [is_dict]; try (eapply says_ext; [apply says_none|]; intros m; split; [intros [] | intros [e [k [ws [K _]]]]; discriminate K]).
    destruct (H2 e r Hs Hc) as [H3 H4].
    eapply says_ext; [apply (scen_plain [] (fun K => K) (option_check r) (fun d a => option_fault d (fst a) (snd a)) (fun _ => True) (fun sc a => domain_match r sc (fst a) (snd a)) (fun sc d _ => option_says r sc d) order Ho c e)|]; auto.
    - intros n K. apply part_all in K. exact (H4 n K).
    - intros [= ->]. apply Hc. exists "Ref", (VStr "AWS::NoValue"). split; [reflexivity|]. apply smem_iff. reflexivity.
    - intros m. unfold domain_match. rewrite append_nil_r. split; [intros [[k w] K]; exists e, k, w; split; [reflexivity | exact K] | intros [e' [k [w [[= <-] K]]]]; exists (k, w); exact K]. }
  exists ms. split; [exact E|]. intros m. rewrite Hms. split.
  - intros [x [w [r [K1 [K2 [K3 [e [key [words [-> [K4 K5]]]]]]]]]]]. exists x, e, r, key, words. auto.
  - intros [x [e [q [key [words [K1 [K2 [K3 [K4 K5]]]]]]]]]. exists x, (VDict e), q. split; [exact K1|]. split; [exact K2|]. split; [exact K3|]. exists e, key, words. auto.
Qed.
Lemma c78_option_conditional order hash template defs parameters d names w0 b0 p :
  (forall v, digest (hash v)) -> (forall l, Permutation (order l) l) ->
  section_of "Conditions" template defs -> section_of "Parameters" template parameters ->
  NoDup (keys defs) -> (forall n v, In (n, v) defs -> well_formed defs v) ->
  NoDup (keys parameters) -> (forall n p, In (n, p) parameters -> plain_parameter p) -> told_apart hash parameters ->
  plain_object d -> NoDup names -> names <> [] -> (forall n, In n names <-> members_look_at d n) -> (forall n, In n names -> In n (keys defs)) ->
  (List.length names <= 4 \/ some_related defs names) -> deployment hash parameters w0 -> gives defs w0 names b0 ->
  exists limit, forall fuel, limit <= fuel ->
  exists ms, check_option order (load hash fuel template) (VDict d) p = Ok ms /\
    (forall w b d' key words, deployment hash parameters w -> gives defs w names b -> deployed b d d' -> option_fault d' key words ->
       exists sc, Permutation sc (scenario_of names b) /\ In (mkRM (p ++ [PKey key])%list (words ++ path_text p ++ " " ++ scenario_text sc)) ms) /\
    (forall m, In m ms -> exists b sc key words, Permutation sc (scenario_of names b) /\ (forall d', deployed b d d' -> option_fault d' key words) /\
       m = mkRM (p ++ [PKey key])%list (words ++ path_text p ++ " " ++ scenario_text sc) /\
       ((some_related defs names \/ forall n, In n names -> exists w, deployment hash parameters w /\ gives defs w [n] b) ->
        exists w, deployment hash parameters w /\ gives defs w names b)).
Proof.
  intros Hh Ho Hc Hp Hcn Hcw Hpan Hpp Hta Hd Hnd Hne Hn Hdef Hsz Hw0 Hg0.
  destruct (scen_both [] (fun K => K) (option_check p) (fun d a => option_fault d (fst a) (snd a)) (fun _ => True) (fun sc a => domain_match p sc (fst a) (snd a)) option_ext (fun _ _ _ K => K) option_none (fun sc d _ => option_says p sc d) order Ho
    hash template defs parameters d names w0 b0) as [limit H]; auto.
  { intros n. rewrite part_all. apply Hn. }
  exists limit. intros fuel Hf. destruct (H fuel Hf) as [ms [E [H1 H2]]]. exists ms. split; [exact E|]. split.
  - intros w b d' key words K1 K2 K3 K4. exact (H1 w b d' (key, words) K1 K2 K3 K4).
  - intros m Hm. destruct (H2 m Hm) as [b [sc [[key words] K]]]. exists b, sc, key, words. exact K.
Qed.
Lemma c78_option_run hash order fuel sp k c raw name attrs pd m0 d0 x e q key words :
  (forall l, Permutation (order l) l) ->
  snd (coll_run sp k c) = Ok raw -> In (option_rule hash order fuel) (k_all k) -> enabled (k_set k) (option_rule hash order fuel) = true ->
  wf (template c) -> c_tmpl c = MDict m0 d0 -> resource_of (template c) name "AWS::CertificateManager::Certificate" attrs -> assoc "Properties" attrs = Some (VDict pd) ->
  (forall x, assoc "DomainValidationOptions" pd = Some x -> (forall q, ~ alternative x (props_path name ++ [PKey "DomainValidationOptions"])%list VNull q) /\
     forall e q, single x (props_path name ++ [PKey "DomainValidationOptions"])%list (VDict e) q -> ~ is_call (VDict e) -> plain_object e /\ forall n, ~ members_look_at e n) ->
  assoc "DomainValidationOptions" pd = Some x -> single x (props_path name ++ [PKey "DomainValidationOptions"])%list (VDict e) q -> ~ is_call (VDict e) -> option_fault e key words ->
  exists f, locate_match c "E3503" (mkRM (q ++ [PKey key])%list (words ++ path_text q)) = Ok f /\ In f raw.
Proof.
  intros Ho Hrun Hr He Hw Hc Hres Hp H Hx Hs Hcall Hf. destruct (c78_option order (load hash fuel (template c)) pd (props_path name) Ho H) as [ms [E Hms]].
  refine (reported_props sp k c raw _ _ name _ attrs pd ms _ m0 d0 Hrun Hr He eq_refl _ Hc Hres Hp E _ _).
  - now left.
  - intros m Hm. apply Hms in Hm as [x' [e' [q' [key' [words' [K1 [K2 [_ [K ->]]]]]]]]]. cbn [rm_path]. split; [now destruct q'|]. destruct (fault_key e' key' words' (or_intror K)) as [y Hy]. exists y.
    rewrite at_path_app. assert (Hq : at_path (props_path name ++ [PKey "DomainValidationOptions"])%list (template c) = Some x') by (rewrite at_path_app, (resource_at c name _ attrs pd Hw Hres Hp); cbn [at_path]; now rewrite K1).
    rewrite (single_at _ _ _ _ _ K2 Hq). cbn [at_path]. now rewrite Hy.
  - apply Hms. exists x, e, q, key, words. auto.
Qed.
