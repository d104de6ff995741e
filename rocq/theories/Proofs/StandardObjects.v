(** What a shipped rule with checks on properties tells in a run (C95). *)
From Verif.Model Require Import Base Node Locate Helpers Rules Runner Config Core Standard.
From Verif.Spec Require Import Pipeline Paths Branches Walk Shipped.
From Verif.Proofs Require Import BaseFacts SearchProofs PropertyRuleProofs Says StandardProofs StandardRules StandardChecks.
Local Open Scope string_scope.

Lemma properties_at c rt pd p : wf (template c) -> properties_of (template c) rt pd p -> at_path p (template c) = Some (VDict pd) /\ p <> [].
Proof. intros Hw (name & attrs & Hr & Hp & ->). split; [exact (resource_at c name rt attrs pd Hw Hr Hp) | discriminate]. Qed.
Lemma nested_at sp c n v q : wf (template c) -> nested_of sp (template c) n v q -> at_path q (template c) = Some v /\ q <> [].
Proof.
  intros Hw (rt & pd & p & Hp & Hn & _). destruct (properties_at c rt pd p Hw Hp) as [Ha _].
  split; [exact (resource_nested_at sp rt _ _ _ _ _ _ Hw Ha Hn) | exact (resource_nested_nonempty _ _ _ _ _ _ _ Hn)].
Qed.

(** What the checks of a rule say, put together. *)
Definition put_together (sp : spec) (t : val) (M : rulematch -> Prop) (T U : string -> Prop) (P : string -> list (string * val) -> path -> rulematch -> Prop)
  (Q : string -> val -> path -> rulematch -> Prop) (m : rulematch) : Prop :=
  M m \/ (exists rt pd p, properties_of t rt pd p /\ T rt /\ P rt pd p m) \/ (exists n v q, nested_of sp t n v q /\ U n /\ Q n v q m).
(** The shipped rule with the id [id]. *)
Definition rule_is (w : world) (id : string) (r : rule) : Prop :=
  id <> "E0002" /\ rule_by_id w id = Some r /\ r_experimental r = false /\ unconfigured r.
Lemma tells_checked w sp tr k rg man c ds l id r M (T U : string -> Prop) P Q :
  lints w sp tr k rg man c ds id l -> rule_is w id r ->
  (forall t, types_seen r c t <-> T t) -> (forall t, subtypes_seen r c t <-> U t) ->
  match r_match r with None => forall m, ~ M m | Some f => says (f [] c) M end ->
  match r_match_props r with None => forall rt, ~ T rt
  | Some f => forall rt pd p, properties_of (template c) rt pd p -> T rt -> says (f [] c (VDict pd) rt p) (P rt pd p) end ->
  match r_match_subs r with None => forall n, ~ U n
  | Some f => forall n v q, nested_of sp (template c) n v q -> U n -> says (f [] c v n q) (Q n v q) end ->
  (forall m, put_together sp (template c) M T U P Q m -> rm_path m <> [] /\ indices_ok (c_tmpl c) (rm_path m)) ->
  tells_exactly c man ds l id (fun q words => put_together sp (template c) M T U P Q (mkRM q words)).
Proof.
  intros Hl (Hid & Hr & Hex & Hfree) HT HU HM HP HQ Hpath. apply rule_by_id_in in Hr as [Hin Er].
  assert (E : forall m, raised sp c r m <-> put_together sp (template c) M T U P Q m).
  { intros m. unfold raised, put_together. split.
    - intros [(f & ms & Ef & Ems & Hm)|[(name & rt & attrs & pd & f & ms & Hres & Hpr & Ht & Ef & Ems & Hm)|(name & rt & attrs & pd & n & v & q & f & ms & Hres & Hpr & Hn & Hif & Ht & Ef & Ems & Hm)]].
      + left. rewrite Ef in HM. destruct HM as [o [Eo Ho]]. rewrite Ems in Eo. injection Eo as <-. now apply Ho.
      + right. left. rewrite Ef in HP. apply HT in Ht. assert (Hpo : properties_of (template c) rt pd [PKey "Resources"; PKey name; PKey "Properties"]) by (exists name, attrs; auto).
        destruct (HP _ _ _ Hpo Ht) as [o [Eo Ho]]. rewrite Ems in Eo. injection Eo as <-. exists rt, pd, [PKey "Resources"; PKey name; PKey "Properties"]. split; [exact Hpo|]. split; [exact Ht|]. now apply Ho.
      + right. right. rewrite Ef in HQ. apply HU in Ht. assert (Hno : nested_of sp (template c) n v q) by (exists rt, pd, [PKey "Resources"; PKey name; PKey "Properties"]; split; [exists name, attrs; auto | auto]).
        destruct (HQ _ _ _ Hno Ht) as [o [Eo Ho]]. rewrite Ems in Eo. injection Eo as <-. exists n, v, q. split; [exact Hno|]. split; [exact Ht|]. now apply Ho.
    - intros [Hm|[(rt & pd & p & Hpo & Ht & Hm)|(n & v & q & Hno & Ht & Hm)]].
      + left. destruct (r_match r) as [f|]; [|elim (HM m Hm)]. destruct HM as [o [Eo Ho]]. exists f, o. split; [reflexivity|]. split; [exact Eo|]. now apply Ho.
      + right. left. destruct (r_match_props r) as [f|]; [|elim (HP rt Ht)]. destruct (HP _ _ _ Hpo Ht) as [o [Eo Ho]]. destruct Hpo as (name & attrs & Hres & Hpr & ->).
        exists name, rt, attrs, pd, f, o. split; [exact Hres|]. split; [exact Hpr|]. split; [now apply HT|]. split; [reflexivity|]. split; [exact Eo|]. now apply Ho.
      + right. right. destruct (r_match_subs r) as [f|]; [|elim (HQ n Ht)]. destruct (HQ _ _ _ Hno Ht) as [o [Eo Ho]]. destruct Hno as (rt & pd & p & (name & attrs & Hres & Hpr & ->) & Hn & Hif).
        exists name, rt, attrs, pd, n, v, q, f, o. split; [exact Hres|]. split; [exact Hpr|]. split; [exact Hn|]. split; [exact Hif|]. split; [now apply HU|]. split; [reflexivity|]. split; [exact Eo|]. now apply Ho. }
  apply (tells_ext _ _ _ _ _ (fun q words => raised sp c r (mkRM q words))); [intros q words; apply E|].
  apply (tells_raised w sp tr k rg man c ds id l r); auto. intros m Hm. apply Hpath, E, Hm.
Qed.

Definition fine_place (c : cfn) (q : path) : Prop := q <> [] /\ indices_ok (c_tmpl c) q.
Lemma fine_at c q v : q <> [] -> at_path q (template c) = Some v -> fine_place c q.
Proof. intros H1 H2. split; [exact H1 | exact (at_path_indices q _ v H2)]. Qed.

(** Rules that look at properties of resources only. *)
Lemma tells_props w sp tr k rg man c ds l id r f (T : string -> Prop) P (R : string -> list (string * val) -> path -> path -> string -> Prop) :
  lints w sp tr k rg man c ds id l -> rule_is w id r -> r_match r = None -> r_match_props r = Some f -> r_match_subs r = None ->
  (forall t, types_seen r c t <-> T t) -> (forall t, ~ subtypes_seen r c t) -> wf (template c) ->
  (forall rt pd p, properties_of (template c) rt pd p -> T rt -> says (f [] c (VDict pd) rt p) (P rt pd p)) ->
  (forall rt pd p q words, P rt pd p (mkRM q words) <-> R rt pd p q words) ->
  (forall rt pd p q words, properties_of (template c) rt pd p -> T rt -> at_path p (template c) = Some (VDict pd) -> p <> [] -> R rt pd p q words -> fine_place c q) ->
  tells_exactly c man ds l id (fun q words => exists rt pd p, properties_of (template c) rt pd p /\ T rt /\ R rt pd p q words).
Proof.
  intros Hl Hr E1 E2 E3 HT HU Hw HP HR Hpath.
  apply (tells_ext _ _ _ _ _ (fun q words => put_together sp (template c) (fun _ => False) T (fun _ => False) P (fun _ _ _ _ => False) (mkRM q words))).
  - intros q words. unfold put_together. split.
    + intros [[]|[(rt & pd & p & H1 & H2 & H3)|(? & ? & ? & _ & [] & _)]]. exists rt, pd, p. split; [exact H1|]. split; [exact H2|]. now apply HR.
    + intros (rt & pd & p & H1 & H2 & H3). right. left. exists rt, pd, p. split; [exact H1|]. split; [exact H2|]. now apply HR.
  - apply (tells_checked w sp tr k rg man c ds l id r); auto.
    + intros t. split; [apply HU | intros []].
    + rewrite E1. intros m [].
    + rewrite E2. exact HP.
    + rewrite E3. intros n [].
    + intros [q words] [[]|[(rt & pd & p & H1 & H2 & H3)|(? & ? & ? & _ & [] & _)]]. destruct (properties_at c rt pd p Hw H1) as [Ha Hne].
      apply HR in H3. exact (Hpath rt pd p q words H1 H2 Ha Hne H3).
Qed.
(** Rules that look at properties of resources and at nested objects. *)
Lemma tells_objects w sp tr k rg man c ds l id r f g (T U : string -> Prop) P Q (R R' : string -> list (string * val) -> path -> path -> string -> Prop) :
  lints w sp tr k rg man c ds id l -> rule_is w id r -> r_match r = None -> r_match_props r = Some f -> r_match_subs r = Some g ->
  (forall t, types_seen r c t <-> T t) -> (forall t, subtypes_seen r c t <-> U t) -> wf (template c) ->
  (forall n v q, nested_of sp (template c) n v q -> U n -> exists d, v = VDict d) ->
  (forall rt pd p, properties_of (template c) rt pd p -> T rt -> says (f [] c (VDict pd) rt p) (P rt pd p)) ->
  (forall n d q, nested_of sp (template c) n (VDict d) q -> U n -> says (g [] c (VDict d) n q) (Q n d q)) ->
  (forall rt pd p q words, P rt pd p (mkRM q words) <-> R rt pd p q words) -> (forall n d p q words, Q n d p (mkRM q words) <-> R' n d p q words) ->
  (forall rt pd p q words, properties_of (template c) rt pd p -> T rt -> at_path p (template c) = Some (VDict pd) -> p <> [] -> R rt pd p q words -> fine_place c q) ->
  (forall n d p q words, nested_of sp (template c) n (VDict d) p -> U n -> at_path p (template c) = Some (VDict d) -> p <> [] -> R' n d p q words -> fine_place c q) ->
  tells_exactly c man ds l id (fun q words => (exists rt pd p, properties_of (template c) rt pd p /\ T rt /\ R rt pd p q words) \/
    (exists n d p, nested_of sp (template c) n (VDict d) p /\ U n /\ R' n d p q words)).
Proof.
  intros Hl Hr E1 E2 E3 HT HU Hw Hobj HP HQ HR HR' Hpath Hpath'.
  set (Q0 := fun n v q m => exists d, v = VDict d /\ Q n d q m).
  apply (tells_ext _ _ _ _ _ (fun q words => put_together sp (template c) (fun _ => False) T U P Q0 (mkRM q words))).
  - intros q words. unfold put_together, Q0. split.
    + intros [[]|[(rt & pd & p & H1 & H2 & H3)|(n & v & p & H1 & H2 & d & -> & H3)]].
      * left. exists rt, pd, p. split; [exact H1|]. split; [exact H2|]. now apply HR.
      * right. exists n, d, p. split; [exact H1|]. split; [exact H2|]. now apply HR'.
    + intros [(rt & pd & p & H1 & H2 & H3)|(n & d & p & H1 & H2 & H3)]; right; [left | right].
      * exists rt, pd, p. split; [exact H1|]. split; [exact H2|]. now apply HR.
      * exists n, (VDict d), p. split; [exact H1|]. split; [exact H2|]. exists d. split; [reflexivity|]. now apply HR'.
  - apply (tells_checked w sp tr k rg man c ds l id r); auto.
    + rewrite E1. intros m [].
    + rewrite E2. exact HP.
    + rewrite E3. intros n v q H1 H2. destruct (Hobj n v q H1 H2) as [d ->]. destruct (HQ n d q H1 H2) as [o [Eo Ho]]. exists o. split; [exact Eo|]. intros m. rewrite Ho. unfold Q0. split; [eauto|]. now intros (d' & [= <-] & H).
    + intros [q words] [[]|[(rt & pd & p & H1 & H2 & H3)|(n & v & p & H1 & H2 & d & -> & H3)]].
      * destruct (properties_at c rt pd p Hw H1) as [Ha Hne]. apply HR in H3. exact (Hpath rt pd p q words H1 H2 Ha Hne H3).
      * destruct (nested_at sp c n (VDict d) p Hw H1) as [Ha Hne]. apply HR' in H3. exact (Hpath' n d p q words H1 H2 Ha Hne H3).
Qed.
Ltac is_rule := split; [discriminate|]; split; [reflexivity|]; split; [reflexivity|];
  split; [|split]; cbn [r_match r_match_props r_match_subs]; intros; try match goal with H : _ = Some _ |- _ => inversion H end; reflexivity.
Ltac seen := let t_ := fresh "t" in intros t_; unfold types_seen, subtypes_seen; simpl; tauto.
