(** E3000 and the schemas it reads (C87). *)
From Coq Require Import List String Ascii QArith Lia Bool.
From Verif.Model Require Import Base Helpers Locate Node Search Rules Refs Parameters Functions ValueRules Runner Config Core Registry.
From Verif.Spec Require Import Paths Values Registry.
From Verif.Proofs Require Import BaseFacts SearchProofs PlaceholderProofs PropertyRuleProofs DynRefProofs CidrProofs RelationRule TargetProofs MatchRun PipelineProofs RunProofs RegistryProofs.
Import Verif.Model.Rules.
Import ListNotations.
Local Open Scope string_scope.
Local Open Scope nat_scope.

(** * Properties that are left alone *)
Lemma chars_app q a b : chars_repr q (a ++ b) = chars_repr q a ++ chars_repr q b.
Proof. induction a as [|x a IH]; [reflexivity|]. cbn [append chars_repr]. now rewrite IH, str_app_assoc. Qed.
Lemma has_app c a b : has_char c (a ++ b) = has_char c a || has_char c b.
Proof. induction a as [|x a IH]; [reflexivity|]. cbn [append has_char]. now rewrite IH, orb_assoc. Qed.
Lemma newline_chars q s : q = single_quote \/ q = double_quote -> has_char newline (chars_repr q s) = false.
Proof.
  intros Hq. induction s as [|a s IH]; [reflexivity|]. cbn [chars_repr]. rewrite has_app, IH, orb_false_r. destruct (char_repr_cases q a Hq) as [[E _]|[t [E [Ht _]]]].
  - rewrite E. cbn [has_char]. rewrite orb_false_r. apply Ascii.eqb_neq. intros ->. destruct Hq as [->| ->]; vm_compute in E; discriminate.
  - rewrite E. destruct (has_char newline (String "\" t)) eqn:K; [|reflexivity]. cbn [has_char] in K. cbn [char_eqb] in K. apply orb_true_iff in K as [K|K]; [vm_compute in K; discriminate|]. pose proof (all_has _ _ _ Ht K) as K'. vm_compute in K'. discriminate.
Qed.
Lemma newline_text s : has_char newline (text_repr s) = false.
Proof.
  unfold text_repr. cbv zeta. cbn [has_char]. rewrite has_app, (newline_chars _ s (quote_cases s)). cbn [has_char]. destruct (quote_cases s) as [->| ->]; reflexivity.
Qed.
Lemma newline_join l : (forall x, In x l -> has_char newline x = false) -> has_char newline (join_str ", " l) = false.
Proof.
  induction l as [|x [|y l] IH]; intros H; [reflexivity | cbn [join_str]; apply H; now left|]. change (join_str ", " (x :: y :: l)) with (x ++ ", " ++ join_str ", " (y :: l)). rewrite !has_app, H by now left. apply IH. intros z Hz. apply H. now right.
Qed.
Section Float.
Variable float_text : Q -> string.
Hypothesis Hf : plain_float float_text.
Lemma newline_repr v : has_char newline (py_repr float_text v) = false.
Proof using Hf.
  induction v as [v IH] using vsize_ind. destruct v as [|[]|z|q|s|l|d]; try reflexivity.
  - now apply number_free.
  - destruct (has_char newline (py_repr float_text (VFloat q))) eqn:E; [|reflexivity]. apply has_in, Hf in E. apply has_in in E. vm_compute in E. discriminate.
  - apply newline_text.
  - cbn [py_repr]. rewrite !has_app, newline_join; [reflexivity|]. intros x Hx. apply in_map_iff in Hx as [y [<- Hy]]. apply IH. now apply vsize_list_In.
  - cbn [py_repr]. rewrite !has_app, newline_join; [reflexivity|]. intros x Hx. apply in_map_iff in Hx as [[k y] [<- Hy]]. cbn [fst snd]. rewrite !has_app, newline_text. rewrite (IH y (vsize_dict_In d k y Hy)). reflexivity.
Qed.
Lemma join_around sep l x : In x l -> exists a b, join_str sep l = a ++ x ++ b.
Proof.
  induction l as [|y [|z l] IH]; [intros []|intros [->|[]]; exists "", ""; cbn [join_str append]; now rewrite str_app_nil|]. change (join_str sep (y :: z :: l)) with (y ++ sep ++ join_str sep (z :: l)). intros [->|H].
  - exists "", (sep ++ join_str sep (z :: l)). reflexivity.
  - destruct (IH H) as [a [b ->]]. exists (y ++ sep ++ a), b. now rewrite !str_app_assoc.
Qed.
Lemma text_around s : exists a b, text_repr s = a ++ chars_repr (quote_of s) s ++ b.
Proof. exists (String (quote_of s) ""), (String (quote_of s) ""). reflexivity. Qed.
Lemma repr_around v s : holds_text v s -> exists a b, py_repr float_text v = a ++ chars_repr (quote_of s) s ++ b.
Proof.
  induction 1 as [s|l x s Hx H IH|d k x Hx|d k x s Hx H IH].
  - apply text_around.
  - destruct IH as [a [b E]]. destruct (join_around ", " (map (py_repr float_text) l) (py_repr float_text x)) as [a' [b' E']]; [now apply in_map|]. cbn [py_repr]. rewrite E', E. exists ("[" ++ a' ++ a), (b ++ b' ++ "]"). now rewrite !str_app_assoc.
  - destruct (join_around ", " (map (fun kv => text_repr (fst kv) ++ ": " ++ py_repr float_text (snd kv)) d) (text_repr k ++ ": " ++ py_repr float_text x)) as [a' [b' E']]; [apply in_map_iff; exists (k, x); auto|].
    destruct (text_around k) as [a [b E]]. cbn [py_repr]. rewrite E', E. exists ("{" ++ a' ++ a), (b ++ ": " ++ py_repr float_text x ++ b' ++ "}"). now rewrite !str_app_assoc.
  - destruct (join_around ", " (map (fun kv => text_repr (fst kv) ++ ": " ++ py_repr float_text (snd kv)) d) (text_repr k ++ ": " ++ py_repr float_text x)) as [a' [b' E']]; [apply in_map_iff; exists (k, x); auto|].
    destruct IH as [a [b E]]. cbn [py_repr]. rewrite E', E. exists ("{" ++ a' ++ text_repr k ++ ": " ++ a), (b ++ b' ++ "}"). now rewrite !str_app_assoc.
Qed.
Lemma words_ok : forallb needle_ok ("{{resolve:" :: syntax_words) = true.
Proof. vm_compute. reflexivity. Qed.
Lemma word_held w v : In w ("{{resolve:" :: syntax_words) -> contains_text w (py_repr float_text v) = true <-> exists s, holds_text v s /\ part_of w s.
Proof using Hf.
  intros Hw. pose proof (proj1 (forallb_forall _ _) words_ok w Hw) as Hn. destruct w as [|h w]; [discriminate|]. rewrite (repr_contains h w Hn float_text Hf). unfold part_of.
  split; intros [s [H1 H2]]; exists s; (split; [exact H1|]); now apply contains_text_iff.
Qed.
Lemma syntax_iff v : existsb (fun x => contains_text x (py_repr float_text v)) (PSEUDOPARAMS ++ UNCONVERTED_SUFFIXES)%list || contains_text FN_PREFIX (py_repr float_text v) = true <-> with_syntax v.
Proof using Hf.
  assert (E : existsb (fun x => contains_text x (py_repr float_text v)) (PSEUDOPARAMS ++ UNCONVERTED_SUFFIXES)%list || contains_text FN_PREFIX (py_repr float_text v) = existsb (fun x => contains_text x (py_repr float_text v)) syntax_words).
  { change syntax_words with ((PSEUDOPARAMS ++ UNCONVERTED_SUFFIXES) ++ [FN_PREFIX])%list. rewrite !existsb_app. cbn [existsb]. now rewrite orb_false_r. }
  rewrite E, existsb_exists. unfold with_syntax. split.
  - intros [w [Hw H]]. apply word_held in H as [s H]; [|now right]. exists w, s. tauto.
  - intros [w [s [Hw H]]]. exists w. split; [exact Hw|]. apply word_held; [now right|]. eauto.
Qed.
Lemma raw_text q s : q = single_quote \/ q = double_quote -> all_chars raw_char s = true -> chars_repr q s = s.
Proof. intros Hq. induction s as [|a s IH]; [reflexivity|]. cbn [all_chars chars_repr]. rewrite andb_true_iff. intros [H1 H2]. rewrite (raw_repr q a Hq H1), (IH H2). reflexivity. Qed.
Lemma chars_nonempty q s : q = single_quote \/ q = double_quote -> s <> "" -> chars_repr q s <> "".
Proof. intros Hq. destruct s as [|a s]; [now intros []|]. intros _. cbn [chars_repr]. destruct (char_repr_cases q a Hq) as [[E _]|[t [E _]]]; rewrite E; discriminate. Qed.
Lemma dynamic_iff v : closed_references v -> dyn_ref (py_repr float_text v) = true <-> with_dynamic v.
Proof using Hf.
  intros Hc. rewrite dyn_ref_iff. unfold dynamic_reference, single_line. split.
  - intros [line [a [b [c [[Hl _] [E _]]]]]].
    assert (K : contains_text "{{resolve:" (py_repr float_text v) = true).
    { apply contains_text_iff. destruct Hl as [->| ->]; rewrite E; [exists a, (b ++ "}}" ++ c); reflexivity|]. exists a, (b ++ "}}" ++ c ++ String newline_char ""). now rewrite !str_app_assoc. }
    apply word_held in K as [s [Hs K]]; [|now left]. exists s. auto.
  - intros [s [Hs [a [b [c [Hb E]]]]]]. destruct (repr_around v s Hs) as [x [y Er]]. pose proof (quote_cases s) as Hq. remember (quote_of s) as q eqn:Eq. clear Eq. rewrite E, !chars_app in Er. rewrite (raw_text q "{{resolve:" Hq) in Er by (vm_compute; reflexivity). rewrite (raw_text q "}}" Hq) in Er by (vm_compute; reflexivity).
    exists (py_repr float_text v), (x ++ chars_repr q a), (chars_repr q b), (chars_repr q c ++ y). split; [split; [now left|]|].
    + intros K. apply has_in in K. change newline_char with newline in K. rewrite newline_repr in K. discriminate.
    + split; [|now apply chars_nonempty]. rewrite Er. now rewrite !str_app_assoc.
Qed.
Lemma skipped_iff v : is_str v = false -> closed_references v -> skipped_text (py_show float_text v) = true <-> with_dynamic v \/ with_syntax v.
Proof using Hf.
  intros Hs Hc. assert (E : py_show float_text v = py_repr float_text v) by (destruct v; try reflexivity; discriminate). rewrite E. unfold skipped_text. rewrite <- orb_assoc, orb_true_iff. now rewrite (dynamic_iff v Hc), syntax_iff.
Qed.

(** * The check *)
Variable validate : val -> val -> res (option string).
Lemma resources_with_iff ty tmpl d : tmpl = VDict d -> exists rs, resources_with (VStr ty) tmpl = Ok rs /\ (forall name attrs, In (name, attrs) rs -> exists props, vget_def "Properties" (VDict []) attrs = Ok props) /\ forall name props, (exists attrs, In (name, attrs) rs /\ vget_def "Properties" (VDict []) attrs = Ok props) <-> typed_resource tmpl name ty props.
Proof.
  intros ->. unfold resources_with. cbn [vget_def bind]. destruct (assoc "Resources" d) as [r|] eqn:E.
  2:{ exists []. split; [reflexivity|]. split; [intros name attrs []|]. intros name props. split; [intros [attrs [[] _]]|]. intros [d' [rs [attrs [[= <-] [K _]]]]]. congruence. }
  assert (Hno : (forall rs, r <> VDict rs) -> exists rs0, Ok [] = Ok rs0 /\ (forall name attrs, In (name, attrs) rs0 -> exists props, vget_def "Properties" (VDict []) attrs = Ok props) /\ forall name props, (exists attrs, In (name, attrs) rs0 /\ vget_def "Properties" (VDict []) attrs = Ok props) <-> typed_resource (VDict d) name ty props).
  { intros H. exists []. split; [reflexivity|]. split; [intros name attrs []|]. intros name props. split; [intros [attrs [[] _]]|]. intros [d' [rs [attrs [[= <-] [K _]]]]]. rewrite E in K. injection K as ->. now elim (H rs). }
  destruct r as [| | | | | |rs]; try (apply Hno; discriminate). clear Hno.
  eexists. split; [reflexivity|]. split.
  { intros name attrs Hin. apply filter_In in Hin as [_ Hk]. cbn [snd] in Hk. destruct attrs; try discriminate. eexists. reflexivity. }
  intros name props. split.
  - intros [attrs [Hin Hp]]. apply filter_In in Hin as [Hin Hk]. cbn [snd] in Hk. destruct attrs as [| | | | | |a]; try discriminate. cbn [vget_def] in Hp. injection Hp as <-. unfold py_in in Hk. cbn [existsb] in Hk. rewrite orb_false_r in Hk.
    exists d, rs, a. split; [reflexivity|]. split; [exact E|]. split; [exact Hin|]. split; [|reflexivity]. destruct (assoc "Type" a) as [x|]; [|discriminate]. destruct x as [|b|z|q|s|l|a0]; try discriminate; [destruct b; discriminate|]. cbn [py_eq] in Hk. apply String.eqb_eq in Hk as ->. reflexivity.
  - intros [d' [rs' [a [[= <-] [K [Hin [Ht ->]]]]]]]. rewrite E in K. injection K as <-. exists (VDict a). split; [|reflexivity]. apply filter_In. split; [exact Hin|]. cbn [snd]. rewrite Ht. unfold py_in. cbn [existsb py_eq]. now rewrite String.eqb_refl.
Qed.
Lemma schema_resource_spec schema name attrs props : vget_def "Properties" (VDict []) attrs = Ok props -> is_str props = false -> closed_references props ->
  (with_dynamic props \/ with_syntax props \/ exists r, validate props schema = Ok r) ->
  exists ms, schema_resource float_text validate schema (name, attrs) = Ok ms /\
    forall m, In m ms <-> exists msg, ~ with_syntax props /\ ~ with_dynamic props /\ validate props schema = Ok (Some msg) /\ m = mkRM [PKey "Resources"; PKey name; PKey "Properties"] msg.
Proof using Hf.
  intros Hp Hs Hc Hv. unfold schema_resource. cbn [snd fst]. rewrite Hp. cbn [bind]. pose proof (skipped_iff props Hs Hc) as K. destruct (skipped_text (py_show float_text props)).
  - exists []. split; [reflexivity|]. intros m. split; [intros []|]. intros [msg [H1 [H2 _]]]. destruct (proj1 K eq_refl); contradiction.
  - assert (N : ~ (with_dynamic props \/ with_syntax props)) by (intros H; apply K in H; discriminate). destruct Hv as [H|[H|[r Er]]]; [elim N; auto | elim N; auto|]. rewrite Er. cbn [bind]. eexists. split; [reflexivity|]. intros m. destruct r as [msg|]; split.
    + intros [<-|[]]. exists msg. tauto.
    + intros [msg' [_ [_ [[= <-] ->]]]]. now left.
    + intros [].
    + intros [msg' [_ [_ [[=] _]]]].
Qed.
Lemma c87 registry tmpl d : tmpl = VDict d -> (forall schema, In schema registry -> exists ty, schema_of schema ty) ->
  (forall schema ty name props, In schema registry -> schema_of schema ty -> typed_resource tmpl name ty props ->
     is_str props = false /\ closed_references props /\ (with_dynamic props \/ with_syntax props \/ exists r, validate props schema = Ok r)) ->
  exists ms, schema_match float_text validate registry tmpl = Ok ms /\
    forall m, In m ms <-> exists schema ty name props msg, In schema registry /\ schema_of schema ty /\ typed_resource tmpl name ty props /\ ~ with_syntax props /\ ~ with_dynamic props /\
      validate props schema = Ok (Some msg) /\ m = mkRM [PKey "Resources"; PKey name; PKey "Properties"] msg.
Proof using Hf.
  intros Ht Hr Hv.
  assert (Hone : forall schema, In schema registry -> exists ty ms, schema_of schema ty /\ (do t <- type_name schema; do rs <- resources_with t tmpl; concat_res (schema_resource float_text validate schema) rs) = Ok ms /\
    forall m, In m ms <-> exists name props msg, typed_resource tmpl name ty props /\ ~ with_syntax props /\ ~ with_dynamic props /\ validate props schema = Ok (Some msg) /\ m = mkRM [PKey "Resources"; PKey name; PKey "Properties"] msg).
  { intros schema Hin. destruct (Hr schema Hin) as [ty Hty]. exists ty. pose proof Hty as [sd [-> Ety]]. unfold type_name. rewrite Ety. cbn [bind]. destruct (resources_with_iff ty tmpl d Ht) as [rs [-> [Hp Hrs]]]. cbn [bind].
    assert (Hres : forall name attrs, In (name, attrs) rs -> exists props ms, vget_def "Properties" (VDict []) attrs = Ok props /\ schema_resource float_text validate (VDict sd) (name, attrs) = Ok ms /\
      forall m, In m ms <-> exists msg, ~ with_syntax props /\ ~ with_dynamic props /\ validate props (VDict sd) = Ok (Some msg) /\ m = mkRM [PKey "Resources"; PKey name; PKey "Properties"] msg).
    { intros name attrs Hna. destruct (Hp name attrs Hna) as [props Ep]. destruct (Hv (VDict sd) ty name props Hin Hty) as [H1 [H2 H3]]; [apply Hrs; eauto|]. destruct (schema_resource_spec (VDict sd) name attrs props Ep H1 H2 H3) as [ms [E H]]. exists props, ms. auto. }
    destruct (concat_res_total (schema_resource float_text validate (VDict sd)) rs) as [ms Ems]. { intros [name attrs] Hna. destruct (Hres name attrs Hna) as [props [ms [_ [E _]]]]. eauto. }
    exists ms. split; [exact Hty|]. split; [exact Ems|]. intros m. rewrite (concat_res_ok_iff _ _ _ Ems). split.
    - intros [[name attrs] [o [Hna [Eo Hm]]]]. destruct (Hres name attrs Hna) as [props [ms' [Ep [E H]]]]. rewrite Eo in E. injection E as <-. destruct (proj1 (H m) Hm) as [msg K]. exists name, props, msg. split; [apply Hrs; eauto | exact K].
    - intros [name [props [msg [Htr K]]]]. apply Hrs in Htr as [attrs [Hna Ep]]. destruct (Hres name attrs Hna) as [props' [ms' [Ep' [E H]]]]. rewrite Ep in Ep'. injection Ep' as <-. exists (name, attrs), ms'. split; [exact Hna|]. split; [exact E|]. apply H. eauto. }
  unfold schema_match. match goal with |- context [concat_res ?g registry] => set (f := g) end.
  destruct (concat_res_total f registry) as [ms Ems]. { intros schema Hin. destruct (Hone schema Hin) as [ty [ms [_ [E _]]]]. eauto. }
  exists ms. split; [exact Ems|]. intros m. rewrite (concat_res_ok_iff _ _ _ Ems). split.
  - intros [schema [o [Hin [Eo Hm]]]]. destruct (Hone schema Hin) as [ty [ms' [Hty [E H]]]]. unfold f in Eo. rewrite Eo in E. injection E as <-. destruct (proj1 (H m) Hm) as [name [props [msg K]]]. exists schema, ty, name, props, msg. tauto.
  - intros [schema [ty [name [props [msg [Hin [Hty K]]]]]]]. destruct (Hone schema Hin) as [ty' [ms' [Hty' [E H]]]]. assert (ty' = ty) as -> by (destruct Hty as [sd [-> E1]], Hty' as [sd' [[= <-] E2]]; congruence). exists schema, ms'. split; [exact Hin|]. split; [exact E|]. apply H. eauto.
Qed.
End Float.
Lemma c87_run float_text validate registry sp k c raw m0 d0 schema ty name props msg : plain_float float_text ->
  snd (coll_run sp k c) = Ok raw -> In (schema_rule float_text validate registry) (k_all k) -> enabled (k_set k) (schema_rule float_text validate registry) = true -> c_tmpl c = MDict m0 d0 ->
  (forall schema, In schema registry -> exists ty, schema_of schema ty) ->
  (forall schema ty name props, In schema registry -> schema_of schema ty -> typed_resource (template c) name ty props ->
     is_str props = false /\ closed_references props /\ (with_dynamic props \/ with_syntax props \/ exists r, validate props schema = Ok r)) ->
  In schema registry -> schema_of schema ty -> typed_resource (template c) name ty props -> ~ with_syntax props -> ~ with_dynamic props -> validate props schema = Ok (Some msg) ->
  exists f, locate_match c "E3000" (mkRM [PKey "Resources"; PKey name; PKey "Properties"] msg) = Ok f /\ In f raw.
Proof.
  intros Hf Hrun Hr He Hc Hreg Hv Hin Hty Htr Hs Hd Hval. assert (Ht : exists d, template c = VDict d) by (unfold template; rewrite Hc; eexists; reflexivity). destruct Ht as [d Ht].
  destruct (c87 float_text Hf validate registry (template c) d Ht Hreg Hv) as [ms [E Hms]].
  refine (reported_match sp k c raw _ _ ms _ m0 d0 Hrun Hr He eq_refl Hc E _ _).
  - intros m Hm. apply Hms in Hm as [sc' [ty' [n' [p' [msg' [_ [_ [_ [_ [_ [_ ->]]]]]]]]]]]. cbn [rm_path]. split; [discriminate|]. intros before i after x Eb _. exfalso. destruct before as [|b0 [|b1 [|b2 [|b3 before]]]]; discriminate.
  - apply Hms. exists schema, ty, name, props, msg. auto 10.
Qed.

(** * Schemas that are read again *)
Lemma filter_two man ds a b acc : filter_matches man ds (a ++ b) acc = filter_matches man ds b (filter_matches man ds a acc).
Proof. revert acc. induction a as [|m a IH]; intros acc; [reflexivity|]. cbn [List.app filter_matches]. destruct (existsb (fun u => finding_eqb m u) acc); [apply IH|]. destruct (kept man ds m); apply IH. Qed.
Definition settled man ds acc (m : finding) : Prop := existsb (fun u => finding_eqb m u) acc = true \/ kept man ds m = false.
Lemma filter_grows man ds a acc m : existsb (fun u => finding_eqb m u) acc = true -> existsb (fun u => finding_eqb m u) (filter_matches man ds a acc) = true.
Proof. revert acc. induction a as [|x a IH]; intros acc H; [exact H|]. cbn [filter_matches]. destruct (existsb (fun u => finding_eqb x u) acc); [now apply IH|]. destruct (kept man ds x); apply IH; [|exact H]. rewrite existsb_app, H. reflexivity. Qed.
Lemma finding_refl m : finding_eqb m m = true.
Proof. unfold finding_eqb. now rewrite !Z.eqb_refl, !String.eqb_refl. Qed.
Lemma filter_settled man ds a acc m : In m a -> settled man ds (filter_matches man ds a acc) m.
Proof.
  revert acc. induction a as [|x a IH]; intros acc; [intros []|]. intros [->|H].
  - cbn [filter_matches]. destruct (existsb (fun u => finding_eqb m u) acc) eqn:E; [left; now apply filter_grows|]. destruct (kept man ds m) eqn:K; [|now right]. left. apply filter_grows. rewrite existsb_app. cbn [existsb]. rewrite finding_refl. now rewrite orb_true_r.
  - cbn [filter_matches]. destruct (existsb (fun u => finding_eqb x u) acc); [now apply IH|]. destruct (kept man ds x); now apply IH.
Qed.
Lemma filter_none man ds a acc : (forall m, In m a -> settled man ds acc m) -> filter_matches man ds a acc = acc.
Proof.
  induction a as [|x a IH]; intros H; [reflexivity|]. cbn [filter_matches]. destruct (H x (or_introl eq_refl)) as [-> | K]; [apply IH; intros m Hm; apply H; now right|]. destruct (existsb (fun u => finding_eqb x u) acc); [apply IH; intros m Hm; apply H; now right|]. rewrite K. apply IH. intros m Hm. apply H. now right.
Qed.
Lemma filter_again man ds a acc : filter_matches man ds a (filter_matches man ds a acc) = filter_matches man ds a acc.
Proof. apply filter_none. intros m. apply filter_settled. Qed.
(** Two results that lead to the same report. *)
Definition same_report (a b : res (list finding)) : Prop :=
  match a, b with
  | Ok x, Ok y => forall man ds acc, filter_matches man ds x acc = filter_matches man ds y acc
  | Err e, Err e' => e = e'
  | _, _ => False
  end.
Lemma same_refl a : same_report a a.
Proof. destruct a; cbn; auto. Qed.
Lemma same_app a a' b b' : same_report a a' -> same_report b b' -> same_report (do x <- a; do y <- b; Ok (x ++ y)%list) (do x <- a'; do y <- b'; Ok (x ++ y)%list).
Proof. destruct a as [a|], a' as [a'|], b as [b|], b' as [b'|]; cbn [same_report bind]; try tauto; try congruence. intros H K man ds acc. now rewrite !filter_two, H, K. Qed.
Lemma repeated_matches {A} (f : A -> res finding) l n : same_report (map_res f (List.concat (repeat l (S n)))) (map_res f l).
Proof.
  assert (Happ : forall a b, map_res f (a ++ b) = do x <- map_res f a; do y <- map_res f b; Ok (x ++ y)%list).
  { induction a as [|x a IH]; intros b; [cbn [List.app map_res bind]; destruct (map_res f b); reflexivity|]. cbn [List.app map_res]. rewrite IH. destruct (f x); [|reflexivity]. cbn [bind]. destruct (map_res f a); [|reflexivity]. cbn [bind]. destruct (map_res f b); reflexivity. }
  induction n as [|n IH]; [cbn [repeat List.concat]; rewrite app_nil_r; apply same_refl|].
  change (repeat l (S (S n))) with (l :: repeat l (S n)). change (List.concat (l :: repeat l (S n))) with (l ++ List.concat (repeat l (S n)))%list. rewrite Happ.
  destruct (map_res f l) as [x|e] eqn:El; [|reflexivity]. destruct (map_res f (List.concat (repeat l (S n)))) as [y|e']; [|destruct IH]. cbn [bind same_report] in *. intros man ds acc. rewrite filter_two, IH. apply filter_again.
Qed.
Lemma concat_repeated {A B} (f : A -> res (list B)) l n : concat_res f (List.concat (repeat l (S n))) = rmap (fun x => List.concat (repeat x (S n))) (concat_res f l).
Proof.
  induction n as [|n IH]; [cbn [repeat List.concat]; rewrite app_nil_r; destruct (concat_res f l) as [x|]; [unfold rmap; cbn [bind repeat List.concat]; now rewrite app_nil_r | reflexivity]|].
  change (repeat l (S (S n))) with (l :: repeat l (S n)). change (List.concat (l :: repeat l (S n))) with (l ++ List.concat (repeat l (S n)))%list. rewrite concat_res_app, IH. destruct (concat_res f l); reflexivity.
Qed.
Lemma registry_grows expanduser folder load_file folders schemas n : registry_at expanduser folder load_file folders 0 = Ok schemas -> registry_at expanduser folder load_file folders n = Ok (List.concat (repeat schemas (S n))).
Proof.
  intros H0. assert (E : concat_res (read_folder expanduser folder load_file) folders = Ok schemas).
  { cbn [registry_at] in H0. unfold add_schemas in H0. destruct (concat_res _ folders); [|discriminate]. exact H0. }
  induction n as [|n IH]; [rewrite H0; cbn [repeat List.concat]; now rewrite app_nil_r|]. cbn [registry_at]. rewrite IH. cbn [bind]. unfold add_schemas. rewrite E. cbn [bind]. f_equal. clear. induction n as [|n IH]; [cbn [repeat List.concat]; now rewrite app_nil_r|].
  change (repeat schemas (S (S n))) with (schemas :: repeat schemas (S n)). change (repeat schemas (S (S (S n)))) with (schemas :: repeat schemas (S (S n))). cbn [List.concat]. rewrite <- app_assoc. f_equal. exact IH.
Qed.
Lemma c87_history float_text validate expanduser folder load_file folders schemas n registry sp before after set mandatory c :
  registry_at expanduser folder load_file folders 0 = Ok schemas -> registry_at expanduser folder load_file folders n = Ok registry ->
  snd (runner_run sp (mkColl (before ++ schema_rule float_text validate registry :: after)%list set) mandatory c) =
  snd (runner_run sp (mkColl (before ++ schema_rule float_text validate schemas :: after)%list set) mandatory c).
Proof.
  intros H0 Hn. rewrite (registry_grows _ _ _ _ schemas n H0) in Hn. assert (Er : registry = List.concat (repeat schemas (S n))) by congruence. clear Hn. subst registry. set (reg := List.concat (repeat schemas (S n))).
  set (ks := fun r => initialize_all (mkColl (before ++ schema_rule float_text validate r :: after)%list set) c).
  assert (Hrules : forall r, exists b a, rules (ks r) = (b ++ (if enabled set (schema_rule float_text validate schemas) then [schema_rule float_text validate r] else []) ++ a)%list /\
     b = filter (enabled set) (map (fun r => if enabled set r then add_types r (fst (r_init r c)) (snd (r_init r c)) else r) before) /\ a = filter (enabled set) (map (fun r => if enabled set r then add_types r (fst (r_init r c)) (snd (r_init r c)) else r) after)).
  { intros r. do 2 eexists. split; [|split; reflexivity]. unfold rules, ks, initialize_all. cbn [k_all k_set]. rewrite map_app, filter_app. f_equal. cbn [map filter]. change (enabled set (schema_rule float_text validate r)) with (enabled set (schema_rule float_text validate schemas)).
    destruct (enabled set (schema_rule float_text validate schemas)) eqn:E; [|change (enabled set (schema_rule float_text validate r)) with (enabled set (schema_rule float_text validate schemas)); rewrite E; reflexivity]. change (enabled set (add_types (schema_rule float_text validate r) (fst (r_init (schema_rule float_text validate r) c)) (snd (r_init (schema_rule float_text validate r) c)))) with (enabled set (schema_rule float_text validate schemas)). rewrite E. reflexivity. }
  assert (Hsame : forall g, (forall r, g (schema_rule float_text validate r) = g (schema_rule float_text validate schemas)) -> same_report (concat_res g (rules (ks reg))) (concat_res g (rules (ks schemas)))).
  { intros g Hg. destruct (Hrules reg) as [b [a [-> [Eb Ea]]]], (Hrules schemas) as [b' [a' [-> [Eb' Ea']]]]. rewrite <- Eb in Eb'. rewrite <- Ea in Ea'. subst b' a'. rewrite !concat_res_app. destruct (enabled set (schema_rule float_text validate schemas)); [|apply same_refl]. cbn [concat_res]. rewrite Hg. apply same_refl. }
  assert (K : same_report (run_body sp (ks reg) c) (run_body sp (ks schemas) c)).
  { refine (run_body_rel same_report (same_refl _) same_app sp (ks reg) (ks schemas) c c _ _ _ _ eq_refl).
    - intros props name p. unfold sub_checks. apply Hsame. reflexivity.
    - intros. right. reflexivity.
    - intros props rt p. apply Hsame. reflexivity.
    - destruct (Hrules reg) as [b [a [-> [Eb Ea]]]], (Hrules schemas) as [b' [a' [-> [Eb' Ea']]]]. rewrite <- Eb in Eb'. rewrite <- Ea in Ea'. subst b' a'. rewrite !concat_res_app. apply same_app; [apply same_refl|]. apply same_app; [|apply same_refl]. destruct (enabled set (schema_rule float_text validate schemas)); [|apply same_refl]. cbn [concat_res]. apply same_app; [|apply same_refl].
      unfold matchall. cbn [schema_rule r_match r_id r_config k_set]. unfold schema_match, reg. rewrite concat_repeated. match goal with |- context [concat_res ?g schemas] => destruct (concat_res g schemas) as [ms|e]; [|apply same_refl] end. cbn [rmap bind].
      pose proof (repeated_matches (locate_match c "E3000") ms n) as R. destruct (map_res (locate_match c "E3000") ms) as [x|e], (map_res (locate_match c "E3000") (List.concat (repeat ms (S n)))) as [y|e']; try destruct R; [exact R | apply same_refl]. }
  assert (E : forall r, snd (runner_run sp (mkColl (before ++ schema_rule float_text validate r :: after)%list set) mandatory c) =
    do ms <- run_body sp (ks r) c; do ds <- get_directives (c_tmpl c); Ok (filter_matches mandatory ds ms [])) by reflexivity.
  rewrite (E reg), (E schemas). clearbody reg. destruct (run_body sp (ks reg) c) as [x|], (run_body sp (ks schemas) c) as [y|]; cbn [same_report] in K; cbn [bind]; try contradiction; try congruence.
  destruct (get_directives (c_tmpl c)); [|reflexivity]. cbn [bind]. now rewrite K.
Qed.
