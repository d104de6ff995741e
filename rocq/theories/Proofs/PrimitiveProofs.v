(** C59, C60: primitive types and secure references. *)
From Coq Require Import Lia.
From Verif.Model Require Import Base Locate Helpers Node Conditions Search Resolve Rules Refs Relationship Limits Parameters JsonDump PropertyRules Functions ValueRules.
From Verif.Spec Require Import Paths Branches Required Values.
From Verif.Proofs Require Import BaseFacts BranchProofs SearchProofs PropertyRuleProofs GroupProofs SizeProofs ValueProofs.
Import Verif.Model.Rules.
Import ListNotations.
Local Open Scope string_scope.

Lemma primitive_of_iff ps t : has_primitive ps t <-> t <> "" /\ primitive_of ps = t.
Proof.
  unfold has_primitive, primitive_of. destruct (ps_primitive ps) as [a|].
  - destruct (String.eqb a "") eqn:Ea.
    + apply String.eqb_eq in Ea. subst a. destruct (ps_primitive_item ps) as [b|]; (split; [intros [H [E|[_ E]]]; split; congruence | intros [H E]; split; [exact H|]; subst]).
      * right. split; [now right | reflexivity].
      * now destruct H.
    + apply String.eqb_neq in Ea. split; [intros [H [E|[[E|E] _]]]; split; congruence | intros [H <-]; split; [exact H | now left]].
  - destruct (ps_primitive_item ps) as [b|]; (split; [intros [H [E|[_ E]]]; split; congruence | intros [H E]; split; [exact H|]; subst]).
    + right. split; [now left | reflexivity].
    + now destruct H.
Qed.
Lemma per_primitive_spec props specs (f : string -> pspec -> string -> res (list rulematch)) :
  (forall prop x ps t, assoc prop props = Some x -> assoc prop specs = Some ps -> has_primitive ps t -> exists o, f prop ps t = Ok o) ->
  exists ms, per_primitive (VDict props) specs f = Ok ms /\
    forall m, In m ms <-> exists prop x ps t o, assoc prop props = Some x /\ assoc prop specs = Some ps /\ has_primitive ps t /\ f prop ps t = Ok o /\ In m o.
Proof.
  intros H. unfold per_primitive. cbn [iter_val bind].
  match goal with |- exists ms, concat_res ?g ?l = Ok ms /\ _ => destruct (concat_res_total g l) as [ms E] end.
  { intros k Hk. apply in_map_iff in Hk as [prop [<- Hk]]. apply assoc_Some_key in Hk as [x Hx]. destruct (assoc prop specs) as [ps|] eqn:Es; [|eauto].
    destruct (String.eqb (primitive_of ps) "") eqn:Et; [eauto|]. apply String.eqb_neq in Et. apply (H prop x ps); auto. apply primitive_of_iff. auto. }
  exists ms. split; [exact E|]. intros m. rewrite (concat_res_ok_iff _ _ _ E). split.
  - intros [k [o [Hk [Ef Hm]]]]. apply in_map_iff in Hk as [prop [<- Hk]]. apply assoc_Some_key in Hk as [x Hx]. destruct (assoc prop specs) as [ps|] eqn:Es; [|injection Ef as <-; destruct Hm].
    destruct (String.eqb (primitive_of ps) "") eqn:Et; [injection Ef as <-; destruct Hm|]. apply String.eqb_neq in Et. exists prop, x, ps, (primitive_of ps), o.
    split; [exact Hx|]. split; [exact Es|]. split; [apply primitive_of_iff; auto|]. auto.
  - intros [prop [x [ps [t [o [Hx [Hs [Ht [Ef Hm]]]]]]]]]. exists (VStr prop), o. split; [apply in_map, assoc_Some_key; eauto|]. apply primitive_of_iff in Ht as [Ht <-]. rewrite Hs.
    apply String.eqb_neq in Ht. rewrite Ht. auto.
Qed.
Lemma per_primitive_values props specs p f handlers (skip : string -> bool) :
  (forall prop x q, assoc prop props = Some x -> ~ alternative x (p ++ [PKey prop])%list VNull q) ->
  (forall prop x ps t w r, assoc prop props = Some x -> assoc prop specs = Some ps -> has_primitive ps t -> skip prop = false -> single x (p ++ [PKey prop])%list w r ->
     handles (f prop ps t) handlers w r) ->
  exists ms, per_primitive (VDict props) specs (fun prop ps t => if skip prop then Ok [] else check_value (VDict props) prop p (f prop ps t) handlers) = Ok ms /\
    forall m, In m ms <-> exists prop x ps t w r, assoc prop props = Some x /\ assoc prop specs = Some ps /\ has_primitive ps t /\ skip prop = false /\
      single x (p ++ [PKey prop])%list w r /\ handled (f prop ps t) handlers w r m.
Proof.
  intros Hn Ht.
  assert (K : forall prop x ps t, assoc prop props = Some x -> assoc prop specs = Some ps -> has_primitive ps t ->
    exists o, (if skip prop then Ok [] else check_value (VDict props) prop p (f prop ps t) handlers) = Ok o /\
      forall m, In m o <-> skip prop = false /\ exists w r, single x (p ++ [PKey prop])%list w r /\ handled (f prop ps t) handlers w r m).
  { intros prop x ps t Hx Hs Hp. destruct (skip prop) eqn:Ek.
    - exists []. split; [reflexivity|]. intros m. split; [intros [] | intros [[=] _]].
    - destruct (check_value_calls (f prop ps t) handlers props prop x p Hx (fun q => Hn prop x q Hx)) as [o [Eo Hin]].
      { intros w r Hw. now apply (Ht prop x ps t w r). }
      exists o. split; [exact Eo|]. intros m. rewrite Hin. split; [auto | intros [_ H]; exact H]. }
  destruct (per_primitive_spec props specs (fun prop ps t => if skip prop then Ok [] else check_value (VDict props) prop p (f prop ps t) handlers)) as [ms [E Hms]].
  { intros prop x ps t Hx Hs Hp. destruct (K prop x ps t Hx Hs Hp) as [o [Eo _]]. eauto. }
  exists ms. split; [exact E|]. intros m. rewrite Hms. split.
  - intros [prop [x [ps [t [o [Hx [Hs [Hp [Ef Hm]]]]]]]]]. destruct (K prop x ps t Hx Hs Hp) as [o' [Eo Hin]]. rewrite Ef in Eo. injection Eo as <-.
    destruct (proj1 (Hin m) Hm) as [Hk [w [r [Hw Hh]]]]. exists prop, x, ps, t, w, r. auto 10.
  - intros [prop [x [ps [t [w [r [Hx [Hs [Hp [Hk [Hw Hh]]]]]]]]]]]. destruct (K prop x ps t Hx Hs Hp) as [o [Eo Hin]]. exists prop, x, ps, t, o.
    split; [exact Hx|]. split; [exact Hs|]. split; [exact Hp|]. split; [exact Eo|]. apply Hin. split; [exact Hk|]. eauto.
Qed.

(** * E3012 *)
Section Types.
Variable int_ok float_ok : string -> bool.
Variable strict : bool.
Definition type_words (t : string) (r : path) : string :=
  if smem t basic_types then "Property " ++ path_text r ++ " should be of type " ++ t else "Property should be of type " ++ t ++ " at " ++ path_text r.
Lemma type_dec (t : string) : t = "String" \/ t = "Boolean" \/ t = "Double" \/ t = "Integer" \/ t = "Long" \/ ~ In t basic_types.
Proof.
  destruct (in_dec string_dec t basic_types) as [H|H]; [|tauto]. cbn in H. intuition auto.
Qed.
Ltac no_type := let H := fresh in intros H; inversion H; subst; try discriminate; try congruence;
  match goal with K : ~ In _ basic_types |- _ => apply K; cbn; tauto | _ => idtac end.
Definition lax_answer (t : string) (v : val) (p : path) (m : rulematch) : Prop := (strict = true \/ lax_fault int_ok float_ok t v = true) /\ m = primitive_match t p.
Lemma lax_check_in t v p m : In m (lax_check int_ok float_ok strict t v p) <-> lax_answer t v p m.
Proof.
  unfold lax_check, lax_answer. destruct (strict || lax_fault int_ok float_ok t v)%bool eqn:E.
  - apply orb_true_iff in E. split; [intros [<-|[]]; auto | intros [_ ->]; now left].
  - apply orb_false_iff in E as [E1 E2]. split; [intros [] | intros [[H|H] _]; congruence].
Qed.
Lemma answer_in (P : Prop) t v p m : smem t basic_types = true -> (strict = true \/ lax_fault int_ok float_ok t v = true <-> ~ P) ->
  (In m (lax_check int_ok float_ok strict t v p) <-> ~ P /\ m = mkRM p (type_words t p)).
Proof. intros Ht H. rewrite lax_check_in. unfold lax_answer, type_words, primitive_match. rewrite Ht, H. reflexivity. Qed.
Lemma primitive_in_iff t v p m : is_dict v = false ->
  (In m (check_primitive int_ok float_ok strict t v p) <-> ~ of_type int_ok float_ok strict t v /\ m = mkRM p (type_words t p)).
Proof.
  intros Hd. unfold check_primitive. rewrite Hd. cbn [andb].
  assert (Hok : of_type int_ok float_ok strict t v -> (In m [] <-> ~ of_type int_ok float_ok strict t v /\ m = mkRM p (type_words t p))) by (intros H; split; [intros [] | intros [N _]; contradiction]).
  destruct (type_dec t) as [-> | [-> | [-> | [-> | [-> | Ht]]]]]; cbn [String.eqb Ascii.eqb Bool.eqb].
  - destruct v; try discriminate Hd; cbn [is_str]; try (apply Hok; constructor);
      (apply answer_in; [reflexivity|]; cbn; split; [intros [H|[=]] K; inversion K; subst; try congruence; match goal with N : ~ In _ basic_types |- _ => apply N; cbn; tauto end | intros N; destruct strict eqn:Es; [now left|]; exfalso; apply N; apply ot_any_string; congruence]).
  - destruct v; try discriminate Hd; cbn [is_bool]; try (apply Hok; constructor); (apply answer_in; [reflexivity|]).
    1-3,5: split; [intros _; no_type | intros _; right; reflexivity].
    cbn [lax_fault String.eqb Ascii.eqb Bool.eqb]. set (e := existsb (fun s0 => eq_str s0 (VStr s)) ["True"; "true"; "False"; "false"]).
    assert (Ee : e = true <-> In s ["True"; "true"; "False"; "false"]).
    { unfold e. rewrite existsb_exists. split; [intros [y [Hy E]]; change (String.eqb y s = true) in E; apply String.eqb_eq in E; now subst | intros H; exists s; split; [exact H|]; apply String.eqb_refl]. }
    destruct strict eqn:Es.
    + split; [intros _; no_type | now left].
    + split; [intros [[=]|H] K | intros N; right; apply negb_true_iff, not_true_iff_false; rewrite Ee; intros H; apply N; now apply ot_boolean_text].
      apply negb_true_iff in H. inversion K; subst; try congruence; [match goal with N : ~ In _ basic_types |- _ => apply N; cbn; tauto end|]. assert (e = true) by (apply Ee; assumption). congruence.
  - destruct v; try discriminate Hd; cbn [is_int is_float is_bool orb]; try (apply Hok; constructor); (apply answer_in; [reflexivity|]); cbn [lax_fault String.eqb Ascii.eqb Bool.eqb is_bool].
    1,3: split; [intros _; no_type | intros _; right; reflexivity].
    destruct strict eqn:Es; [split; [intros _; no_type | now left]|]. split; [intros [[=]|H]; apply negb_true_iff in H; no_type | intros N; right; apply negb_true_iff, not_true_iff_false; intros H; apply N; now apply ot_double_text].
  - destruct v; try discriminate Hd; cbn [is_int is_bool orb]; try (apply Hok; constructor); (apply answer_in; [reflexivity|]); cbn [lax_fault String.eqb Ascii.eqb Bool.eqb is_bool].
    1,4: split; [intros _; no_type | intros _; right; reflexivity].
    + destruct strict eqn:Es; [split; [intros _; no_type | now left]|]. split; [intros [[=]|[=]] | intros N; exfalso; apply N; now apply ot_integer_float].
    + destruct strict eqn:Es; [split; [intros _; no_type | now left]|]. split; [intros [[=]|H]; apply negb_true_iff in H; no_type | intros N; right; apply negb_true_iff, not_true_iff_false; intros H; apply N; now apply ot_integer_text].
  - destruct v; try discriminate Hd; cbn [is_int is_bool orb]; try (apply Hok; constructor); (apply answer_in; [reflexivity|]); cbn [lax_fault String.eqb Ascii.eqb Bool.eqb is_bool].
    1,2,4: split; [intros _; no_type | intros _; right; reflexivity].
    destruct strict eqn:Es; [split; [intros _; no_type | now left]|]. split; [intros [[=]|H]; apply negb_true_iff in H; no_type | intros N; right; apply negb_true_iff, not_true_iff_false; intros H; apply N; now apply ot_long_text].
  - assert (Hb : forall s, In s basic_types -> String.eqb t s = false) by (intros s Hs; apply String.eqb_neq; intros ->; contradiction).
    rewrite !Hb by (cbn; tauto). unfold type_words. assert (Es : smem t basic_types = false) by (apply not_true_iff_false; rewrite smem_iff; exact Ht). rewrite Es.
    destruct (is_list v) eqn:El.
    + split; [intros [<-|[]]; split; [|reflexivity] | intros [_ ->]; now left]. intros K. inversion K; subst; try (apply Ht; cbn; tauto); try discriminate. congruence.
    + split; [intros [] | intros [N _]; exfalso; apply N; now apply ot_other].
Qed.
End Types.
Lemma map_values_in (f : val -> path -> list rulematch) v p m : In m (map_values f v p) <-> exists d k y, v = VDict d /\ In (k, y) d /\ is_dict y = false /\ In m (f y (p ++ [PKey k])%list).
Proof.
  unfold map_values. destruct v as [| | | | | |d]; try (split; [intros [] | intros [d [k [y [[=] _]]]]]). rewrite in_flat_map. split.
  - intros [[k y] [Hi Hm]]. cbn [fst snd] in Hm. destruct (is_dict y) eqn:E; [destruct Hm|]. exists d, k, y. auto.
  - intros [d' [k [y [[= <-] [Hi [Hd Hm]]]]]]. exists (k, y). split; [exact Hi|]. cbn [fst snd]. now rewrite Hd.
Qed.
Lemma in_table_lax t prop : in_table t prop strict_exceptions = true <-> lax_place t prop.
Proof.
  unfold in_table, lax_place. cbn [strict_exceptions assoc]. destruct (String.eqb t "AWS::CloudFormation::Stack") eqn:E1.
  - apply String.eqb_eq in E1. subst t. rewrite smem_iff. cbn. split; [intros [<-|[]]; auto | intros [[_ ->]|[[=] _]]; now left].
  - apply String.eqb_neq in E1. destruct (String.eqb t "AWS::Lambda::Function.Environment") eqn:E2.
    + apply String.eqb_eq in E2. subst t. rewrite smem_iff. cbn. split; [intros [<-|[]]; auto | intros [[[=] _]|[_ ->]]; now left].
    + apply String.eqb_neq in E2. split; [discriminate | intros [[K _]|[K _]]; congruence].
Qed.
Lemma c59_types int_ok float_ok strict type props specs p :
  (forall prop x q, assoc prop props = Some x -> ~ alternative x (p ++ [PKey prop])%list VNull q) ->
  exists ms, primitive_check int_ok float_ok strict type (VDict props) specs p = Ok ms /\
    forall m, In m ms <-> exists prop x ps t b w r y s, assoc prop props = Some x /\ assoc prop specs = Some ps /\ has_primitive ps t /\ strict_at strict type prop b /\
      single x (p ++ [PKey prop])%list w r /\ primitive_in ps w r y s /\ ~ of_type int_ok float_ok b t y /\
      m = mkRM s (if smem t ["String"; "Boolean"; "Double"; "Integer"; "Long"] then "Property " ++ path_text s ++ " should be of type " ++ t else "Property should be of type " ++ t ++ " at " ++ path_text s).
Proof.
  intros Hn. unfold primitive_check.
  set (f := fun prop ps t => primitive_value int_ok float_ok (opt_eqb (ps_type ps) "Map") (strict && negb (in_table type prop strict_exceptions)) t).
  assert (Hsk : forall prop b, strict_at strict type prop b <-> b = (strict && negb (in_table type prop strict_exceptions))%bool).
  { intros prop b. unfold strict_at. rewrite <- in_table_lax, not_true_iff_false, <- negb_true_iff, <- andb_true_iff. destruct b, (strict && negb (in_table type prop strict_exceptions))%bool; intuition congruence. }
  destruct (per_primitive_values props specs p f [] (fun _ => false) Hn) as [ms [E Hms]].
  { intros prop x ps t w r _ _ _ _ _. apply handles_plain. unfold f, primitive_value. eauto. }
  exists ms. split; [exact E|]. intros m. rewrite Hms. split.
  - intros [prop [x [ps [t [w [r [Hx [Hs [Ht [_ [Hw Hh]]]]]]]]]]]. apply handled_plain in Hh as [Hc [o [Eo Hm]]]. unfold f, primitive_value in Eo. set (b := (strict && negb (in_table type prop strict_exceptions))%bool) in *. injection Eo as <-.
    assert (K : exists y s, primitive_in ps w r y s /\ ~ of_type int_ok float_ok b t y /\ m = mkRM s (type_words t s)).
    { destruct (opt_eqb (ps_type ps) "Map") eqn:Em.
      - apply opt_eqb_some in Em. apply map_values_in in Hm as [d [k [y [-> [Hi [Hd Hm]]]]]]. apply primitive_in_iff in Hm as [H1 H2]; [|exact Hd]. exists y, (r ++ [PKey k])%list. split; [now apply pi_member|]. auto.
      - destruct (is_dict w) eqn:Ed; [destruct Hm|]. apply primitive_in_iff in Hm as [H1 H2]; [|exact Ed]. exists w, r. split; [apply pi_value; [rewrite <- opt_eqb_some; congruence | exact Ed]|]. auto. }
    destruct K as [y [s [K1 [K2 ->]]]]. exists prop, x, ps, t, b, w, r, y, s. split; [exact Hx|]. split; [exact Hs|]. split; [exact Ht|]. split; [now apply Hsk|]. auto.
  - intros [prop [x [ps [t [b [w [r [y [s [Hx [Hs [Ht [Hb [Hw [Hp [Ho ->]]]]]]]]]]]]]]]]. apply Hsk in Hb. exists prop, x, ps, t, w, r. split; [exact Hx|]. split; [exact Hs|]. split; [exact Ht|]. split; [reflexivity|]. split; [exact Hw|].
    apply handled_plain. unfold f, primitive_value. rewrite <- Hb. inversion Hp; subst.
    + split; [intros [k [z [-> _]]]; discriminate|]. eexists. split; [reflexivity|]. assert (Em : opt_eqb (ps_type ps) "Map" = false) by (apply not_true_iff_false; rewrite opt_eqb_some; assumption).
      match goal with K : is_dict y = false |- _ => rewrite Em, K; apply primitive_in_iff; [exact K|] end. split; [exact Ho | reflexivity].
    + split; [assumption|]. eexists. split; [reflexivity|]. match goal with K : ps_type ps = _ |- _ => apply opt_eqb_some in K; rewrite K end. apply map_values_in. exists d, k, y. split; [reflexivity|]. split; [assumption|]. split; [assumption|].
      apply primitive_in_iff; [assumption|]. split; [exact Ho | reflexivity].
Qed.
