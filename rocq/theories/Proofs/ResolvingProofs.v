(** References in a template whose report is empty (C107). *)
From Coq Require Import List String Bool ZArith Relations.
From Verif.Model Require Import Base Node Locate Helpers Rules Runner Config Core Search Refs ConditionRules Limits Shape Parameters Conditions Resolve Relationship Graph
  Functions Standard.
From Verif.Spec Require Import Pipeline Paths References Limited ConditionUse Faults Dependencies Protect Shipped Crashes Silence Clean Resolving.
From Verif.Proofs Require Import BaseFacts SearchProofs RelationRule RefProofs ConditionUseProofs ShapeProofs GraphProofs GroupProofs StandardRules CrashProofs SilenceProofs CleanProofs.
Import Verif.Model.Rules.
Import ListNotations.
Local Open Scope string_scope.

Definition quiet {A} (f : res (list A)) : Prop := f = Ok [] \/ f = Err ETemplateAttribute.

(** * Names *)
Lemma alphanumeric_end n : regex_alphanumeric n = true -> ends_with ".*" n = false.
Proof.
  intros H. destruct (ends_with ".*" n) eqn:E; [|reflexivity]. exfalso. apply ends_with_iff in E as [p ->]. revert H.
  induction p as [|a p IH]; cbn [append regex_alphanumeric]; [discriminate|]. destruct (is_alnum a); [exact IH|].
  intros H. apply andb_true_iff in H as [_ H]. apply String.eqb_eq in H. destruct p; discriminate H.
Qed.
Lemma alphanumeric_if n : regex_alphanumeric n = true -> n <> "Fn::If".
Proof. intros H ->. discriminate H. Qed.
Lemma quiet_names d section m : assoc section d = Some (VDict m) -> quiet (alphanumeric_name (VDict d) section) -> forall n x, In (n, x) m -> regex_alphanumeric n = true.
Proof.
  intros E Q n x Hi. unfold alphanumeric_name in Q. rewrite get_def, E in Q. cbn [bind ConditionRules.items_of] in Q.
  destruct Q as [Q|Q]; [|discriminate Q]. injection Q as Q. destruct (cbool (regex_alphanumeric n)) as [S|S]; [exact S|]. exfalso.
  match type of Q with ?F = _ => assert (X : In (mkRM [PKey section; PKey n] (singular section ++ " " ++ n ++ " has invalid name.  Name has to be alphanumeric.")%string) F) end.
  { apply in_flat_map. exists (n, x). split; [exact Hi|]. cbn [fst]. rewrite S. now left. }
  rewrite Q in X. destruct X.
Qed.

(** * Refs *)
Lemma parameter_refs_ok ps : forall r out, parameter_refs ps r = Ok out ->
  forall k, In k (keys out) -> In k (keys r) \/ exists o t, In (k, VDict o) ps /\ assoc "Type" o = Some t.
Proof.
  induction ps as [|[n x] ps IH]; intros r out H k Hk; cbn [parameter_refs] in H; [injection H as <-; now left|].
  destruct (member_type x) as [t|] eqn:Et; cbn [bind] in H; [|discriminate H].
  destruct (IH _ _ H k Hk) as [K|(o & u & K1 & K2)]; [|right; exists o, u; split; [now right | exact K2]].
  destruct t as [t|]; [|now left]. apply keys_set_in in K as [K|K]; [|now left]. subst k.
  right. destruct x as [| | | |s|l|o]; cbn [member_type] in Et; try discriminate Et;
    try (destruct (contains_text _ _); discriminate Et); try (destruct (existsb _ _); discriminate Et).
  exists o, t. injection Et as Et. split; [now left | exact Et].
Qed.
Lemma parameter_refs_err ps : forall r e, parameter_refs ps r = Err e -> e = ETypeErr.
Proof.
  induction ps as [|[n x] ps IH]; intros r e H; cbn [parameter_refs] in H; [discriminate H|].
  destruct (member_type x) as [t|e0] eqn:Et; cbn [bind] in H; [exact (IH _ _ H)|]. injection H as <-.
  destruct x as [| | | |s|l|o]; cbn [member_type] in Et; try (destruct (contains_text _ _)); try (destruct (existsb _ _)); congruence.
Qed.

Section Template.
Variable d rs : list (string * val).
Hypothesis Hwf : wf (VDict d).
Hypothesis Hrs : assoc "Resources" d = Some (VDict rs).
Hypothesis Hres : forall n x, In (n, x) rs -> exists o t, x = VDict o /\ assoc "Type" o = Some (VStr t) /\ t <> "" /\
  (forall c, assoc "Condition" o = Some c -> exists s, c = VStr s).
Hypothesis Hnm : forall n x, In (n, x) rs -> regex_alphanumeric n = true.

Lemma member_defined section m n o : assoc section d = Some (VDict m) -> In (n, VDict o) m -> defined_in section (VDict d) n o.
Proof using Hwf.
  intros E Hi. exists d, m. split; [reflexivity|]. split; [exact E|]. apply In_assoc; [|exact Hi].
  apply wf_dict in Hwf as [_ Hw]. apply assoc_In in E. apply Hw in E. now apply wf_dict in E as [E _].
Qed.
Lemma no_globals f p v : In (p, v) (search_deep_keys f (VDict d) (VDict [])) <-> exists q, p = (q ++ [PKey f])%list /\ at_path (q ++ [PKey f])%list (VDict d) = Some v.
Proof using Hwf.
  rewrite (in_search_deep f (VDict d) (VDict []) p v Hwf wf_empty). split; intros [q [-> H]]; exists q; (split; [reflexivity|]).
  - exact (occurs_here _ _ _ _ H).
  - now left.
Qed.

Lemma quiet_refs : quiet (ref_text_match (VDict d) (VDict [])) -> quiet (ref_exist_match (VDict d) (VDict [])) -> quiet (alphanumeric_name (VDict d) "Parameters") ->
  refs_resolve (VDict d).
Proof using Hwf Hrs Hres Hnm.
  intros Q1 Q2 Q3 p v Hp.
  assert (Hin : In (p ++ [PKey "Ref"], v)%list (search_deep_keys "Ref" (VDict d) (VDict []))) by (apply no_globals; eauto).
  assert (Hs : exists s, v = VStr s).
  { destruct Q1 as [Q1|Q1]; [|exfalso; apply concat_error in Q1 as [x [_ Q1]]; discriminate Q1].
    pose proof (concat_nothing _ _ Q1 _ Hin) as K. unfold ref_text_check in K. cbn [fst snd] in K. destruct v; try discriminate K. eauto. }
  destruct Hs as [s ->]. exists s. split; [reflexivity|].
  destruct (assoc "Parameters" d) as [pv|] eqn:Ep.
  1: destruct pv as [|b|z|q|ps|l|ps].
  all: try (left; exists d; eexists; split; [reflexivity|]; split; [exact Ep|]; unfold no_object; eauto; fail).
  all: right; unfold ref_exist_match, get_valid_refs in Q2; rewrite !get_def, Hrs, ?Ep in Q2; cbn [bind] in Q2.
  all: assert (Er : items_if (VDict rs) = Ok rs) by (unfold items_if; cbn [truthy]; destruct rs; reflexivity); rewrite ?Er in Q2.
  all: match type of Q2 with context [items_if ?x] => destruct (items_if x) as [ps'|e0] eqn:Ei; cbn [bind] in Q2;
         [|exfalso; unfold items_if in Ei; cbn [truthy] in Ei; repeat match type of Ei with context [if ?b then _ else _] => destruct b end; try discriminate Ei; injection Ei as <-; destruct Q2; discriminate] end.
  all: assert (Hps : forall n o, In (n, VDict o) ps' -> defined_in "Parameters" (VDict d) n o /\ ends_with ".*" n = false)
    by (intros n o Hi; first [ exfalso; unfold items_if in Ei; cbn [truthy] in Ei; repeat match type of Ei with context [if ?b then _ else _] => destruct b end; try discriminate Ei; injection Ei as <-; destruct Hi
        | assert (ps' = ps) as -> by (unfold items_if in Ei; cbn [truthy] in Ei; destruct ps; cbn in Ei; congruence); split; [exact (member_defined _ _ _ _ Ep Hi) | exact (alphanumeric_end _ (quiet_names _ _ _ Ep Q3 _ _ Hi))] ]).
  all: clear Ei Ep.
  all: destruct (parameter_refs ps' []) as [a|e0] eqn:Ea; cbn [bind] in Q2; [|apply parameter_refs_err in Ea; subst e0; destruct Q2; discriminate].
  all: destruct (resource_refs_keys rs) with (r := a) as [b0 [Eb Hb]];
       [intros n x Hi; destruct (Hres n x Hi) as (o & t & -> & Ht & _); exists o; split; [reflexivity|]; intros t' Ht'; rewrite Ht in Ht'; injection Ht' as <-; eauto|].
  all: rewrite Eb in Q2; cbn [bind] in Q2.
  all: assert (K : regex_contains (pseudo_refs b0) s = true) by
    (destruct Q2 as [Q2|Q2];
      [ pose proof (concat_nothing _ _ Q2 _ Hin) as K; unfold ref_check in K; cbn [fst snd] in K; destruct (regex_contains _ s); [reflexivity | discriminate K]
      | exfalso; apply concat_error in Q2 as [[q' v'] [_ Q2]]; unfold ref_check in Q2; cbn [snd] in Q2; destruct v'; try discriminate Q2; [destruct (pseudo_refs b0); discriminate Q2 | destruct (pseudo_refs b0); discriminate Q2 | destruct (regex_contains _ _); discriminate Q2] ]).
  all: apply regex_contains_iff in K as [k [rest [Hk ->]]]; apply pseudo_refs_keys in Hk as [Hk|Hk].
  all: try (exists k, rest; split; [left; now apply nm_pseudo|]; rewrite key_name_plain; [reflexivity|];
      cbn in Hk; repeat (destruct Hk as [<-|Hk]; [reflexivity|]); destruct Hk; fail).
  all: apply Hb in Hk as [Hk|[n [o [t [Hn [Ht Hc]]]]]];
    [ destruct (parameter_refs_ok _ _ _ Ea _ Hk) as [[]|(o & t & Hi & Ht)]; destruct (Hps _ _ Hi) as [Hd He];
      rewrite key_name_plain by exact He; exists k, rest; split; [left; exact (nm_parameter _ _ _ _ Hd Ht) | reflexivity]
    | pose proof (member_defined _ _ _ _ Hrs Hn) as Hd; destruct Hc as [[Hm ->]|[Hm [Hne ->]]];
      [ rewrite key_name_module; exists n, rest; split; [right; exists o, t; auto | reflexivity]
      | rewrite key_name_plain by exact (alphanumeric_end _ (Hnm _ _ Hn)); exists n, rest; split; [left; exact (nm_resource _ _ _ _ Hd Ht Hne Hm) | reflexivity] ] ].
Qed.

(** * Conditions *)
Lemma quiet_forms : (forall f, In f ["Fn::And"; "Fn::Or"; "Fn::Not"] -> quiet (Ok (check_condition_list (VDict d) (VDict []) f))) -> quiet (if_match (VDict d) (VDict [])) ->
  conditions_formed (VDict d).
Proof using Hwf.
  intros Q1 Q2. split.
  - intros f r v Hf Hp. destruct (Q1 f Hf) as [Q|Q]; [|discriminate Q]. injection Q as Q.
    assert (Hin : In (PKey "Conditions" :: r ++ [PKey f], v)%list (search_deep_keys f (VDict d) (VDict []))).
    { apply no_globals. exists (PKey "Conditions" :: r). split; [reflexivity | exact Hp]. }
    assert (N : ~ ~ valid_condition_list f v).
    { intros N. apply (proj2 (list_check_ok f (PKey "Conditions" :: r ++ [PKey f])%list v eq_refl)) in N as [m Hm].
      assert (X : In m (check_condition_list (VDict d) (VDict []) f)) by (unfold check_condition_list; apply in_flat_map; eauto). rewrite Q in X. destruct X. }
    clear -N Hf.
    destruct v as [|b|z|q|s|l|o]; try (exfalso; apply N; intros (l' & K & _); discriminate K).
    assert (Hc : {Forall condition_object l} + {~ Forall condition_object l}).
    { apply Forall_dec. intros x. unfold condition_object. destruct x as [|b|z|q|s|l'|[|[kk y] [|kv o]]]; try (right; intros (k' & y' & K & _); discriminate K).
      destruct (in_dec string_dec kk ["Fn::And"; "Fn::Or"; "Fn::Not"; "Condition"; "Fn::Equals"]) as [Y|Y]; [left; eauto|].
      right. intros (k' & y' & K & Hk). injection K as <- <-. exact (Y Hk). }
    destruct Hc as [Hc|Hc]; [|exfalso; apply N; intros (l' & K & _ & Hc'); injection K as <-; exact (Hc Hc')].
    exists l. split; [reflexivity|]. split; [|exact Hc].
    destruct (string_dec f "Fn::Not") as [->|Hne].
    + left. split; [reflexivity|]. destruct (Nat.eq_dec (List.length l) 1) as [Y|Y]; [exact Y|]. exfalso. apply N. intros (l' & K & [[_ K']|[K' _]] & _); [injection K as <-; exact (Y K') | now apply K'].
    + right. split; [exact Hne|]. destruct (le_dec 2 (List.length l)) as [Y|Y]; [destruct (le_dec (List.length l) 10) as [Z|Z]; [auto|]|];
        (exfalso; apply N; intros (l' & K & [[K' _]|[_ K']] & _); [exact (Hne K')|]; injection K as <-; tauto).
  - intros p v Hp. assert (Hin : In (p ++ [PKey "Fn::If"], v)%list (search_deep_keys "Fn::If" (VDict d) (VDict []))) by (apply no_globals; eauto).
    assert (K : if_check (p ++ [PKey "Fn::If"], v)%list = Ok [] \/ exists x, if_check x = Err ETemplateAttribute).
    { destruct Q2 as [Q|Q]; [left; exact (concat_nothing _ _ Q _ Hin) | right; apply concat_error in Q as [x [_ Q]]; eauto]. }
    destruct K as [K|[[q x] K]].
    + unfold if_check in K. cbn [snd fst] in K. destruct v as [|b|z|q|s|l|o]; try discriminate K.
      destruct l as [|x [|y [|z [|u l]]]]; cbn in K; try discriminate K; try (destruct x; discriminate K).
      destruct x; try discriminate K. eexists _, _, _. reflexivity.
    + exfalso. unfold if_check in K. cbn [snd fst] in K. destruct x as [|b|z|f|s|l|o]; try discriminate K.
      destruct l as [|x [|y [|z [|u l]]]]; cbn in K; try discriminate K; destruct x; discriminate K.
Qed.

Lemma set_key_keeps k p x : forall l, In x (map fst l) -> In x (map fst (set_key k p l)).
Proof. induction l as [|[k' p'] l IH]; cbn [set_key map fst In]; [intros []|]. destruct (py_eq k k'); cbn [map fst In]; tauto. Qed.
Lemma set_key_adds s p l : In (VStr s) (map fst (set_key (VStr s) p l)).
Proof. apply set_key_text. now left. Qed.
Lemma ifs_keys l : forall a b, exists_ifs l a = Ok b -> (forall x, In x (map fst a) -> In x (map fst b)) /\
  forall p n rest, In (p, VList (VStr n :: rest)) l -> In (VStr n) (map fst b).
Proof.
  clear. induction l as [|[p v] l IH]; intros a b H; cbn [exists_ifs] in H; [injection H as <-; split; [auto | intros ? ? ? []]|].
  assert (G : forall a', exists_ifs l a' = Ok b -> (forall x, In x (map fst a) -> In x (map fst a')) -> (forall n rest, v = VList (VStr n :: rest) -> In (VStr n) (map fst a')) ->
    (forall x, In x (map fst a) -> In x (map fst b)) /\ forall p' n rest, In (p', VList (VStr n :: rest)) ((p, v) :: l) -> In (VStr n) (map fst b)).
  { intros a' E K1 K2. destruct (IH _ _ E) as [G1 G2]. split; [auto|]. intros p' n rest [K|K]; [injection K as _ K; apply G1; exact (K2 _ _ K) | exact (G2 _ _ _ K)]. }
  destruct v as [|?|?|?|?|[|x r]|?]; try (apply (G a); [exact H | auto | intros n rest K; discriminate K]); [discriminate H|].
  destruct x as [|?|?|?|s|?|?]; try (apply (G a); [exact H | auto | intros n rest K; discriminate K]).
  apply (G _ H); [intros x; apply set_key_keeps | intros n rest K; injection K as <- _; apply set_key_adds].
Qed.
Lemma resources_keys l : forall a b, exists_resources l a = Ok b -> (forall x, In x (map fst a) -> In x (map fst b)) /\
  forall r o n, In (r, VDict o) l -> assoc "Condition" o = Some (VStr n) -> In (VStr n) (map fst b).
Proof.
  clear. induction l as [|[r x] l IH]; intros a b H; cbn [exists_resources] in H; [injection H as <-; split; [auto | intros ? ? ? []]|].
  destruct (vget "Condition" x) as [c|] eqn:Ec; cbn [bind] in H; [|discriminate H]. destruct (IH _ _ H) as [G1 G2]. split.
  - intros y Hy. apply G1. destruct c; try exact Hy. now apply set_key_keeps.
  - intros r' o n [K|K] Ha; [|exact (G2 _ _ _ K Ha)]. injection K as <- ->. cbn [vget] in Ec. rewrite Ha in Ec. injection Ec as <-. apply G1, set_key_adds.
Qed.
Lemma conditions_keys l : forall a, (forall x, In x (map fst a) -> In x (map fst (exists_conditions l a))) /\
  forall p n, In (p, VStr n) l -> from_conditions p = true -> In (VStr n) (map fst (exists_conditions l a)).
Proof.
  clear. induction l as [|[p v] l IH]; intros a; cbn [exists_conditions]; [split; [auto | intros ? ? []]|].
  match goal with |- context [exists_conditions l ?a'] => destruct (IH a') as [G1 G2] end. split.
  - intros x Hx. apply G1. destruct v; try exact Hx. destruct (from_conditions p); [now apply set_key_keeps | exact Hx].
  - intros p' n [K|K] Hf; [|exact (G2 _ _ K Hf)]. injection K as <- ->. apply G1. rewrite Hf. apply set_key_adds.
Qed.
Lemma outputs_keys str l : forall a b, exists_outputs str l a = Ok b -> (forall x, In x (map fst a) -> In x (map fst b)) /\
  forall r o n, In (r, VDict o) l -> assoc "Condition" o = Some (VStr n) -> In (VStr n) (map fst b).
Proof.
  clear. induction l as [|[r x] l IH]; intros a b H; cbn [exists_outputs] in H; [injection H as <-; split; [auto | intros ? ? ? []]|].
  destruct (member_of "Condition" x) as [c|] eqn:Ec; cbn [bind] in H; [|discriminate H]. destruct c as [c|].
  - destruct (hashable c); [|discriminate H]. destruct (IH _ _ H) as [G1 G2]. split; [intros y Hy; apply G1; now apply set_key_keeps|].
    intros r' o n [K|K] Ha; [|exact (G2 _ _ _ K Ha)]. injection K as <- ->. cbn [member_of] in Ec. rewrite Ha in Ec. injection Ec as <-. apply G1, set_key_adds.
  - destruct (IH _ _ H) as [G1 G2]. split; [exact G1|]. intros r' o n [K|K] Ha; [|exact (G2 _ _ _ K Ha)]. injection K as <- ->. cbn [member_of] in Ec. congruence.
Qed.
Lemma outputs_err str l : forall a e, exists_outputs str l a = Err e -> e = ETypeErr.
Proof.
  clear. induction l as [|[r x] l IH]; intros a e H; cbn [exists_outputs] in H; [discriminate H|].
  destruct (member_of "Condition" x) as [c|e0] eqn:Ec; cbn [bind] in H.
  - destruct c as [c|]; [destruct (hashable c); [exact (IH _ _ H) | congruence] | exact (IH _ _ H)].
  - injection H as <-. destruct x; cbn [member_of] in Ec; try (destruct (contains_text _ _)); try (destruct (existsb _ _)); congruence.
Qed.
Lemma ifs_err l : forall a e, exists_ifs l a = Err e -> e = EIndex.
Proof. clear. induction l as [|[p v] l IH]; intros a e H; cbn [exists_ifs] in H; [discriminate H|]. destruct v as [|?|?|?|?|[|x r]|?]; try exact (IH _ _ H); [congruence|]. destruct x; exact (IH _ _ H). Qed.
Lemma resources_ok l : (forall r x, In (r, x) l -> exists o, x = VDict o) -> forall a, exists b, exists_resources l a = Ok b.
Proof.
  clear. induction l as [|[r x] l IH]; intros O a; cbn [exists_resources]; [eauto|]. destruct (O r x (or_introl eq_refl)) as [o ->]. cbn [vget bind].
  apply IH. intros r' x' Hi. exact (O r' x' (or_intror Hi)).
Qed.

Lemma quiet_conditions : (forall v, assoc "Conditions" d = Some v -> in_name_only v \/ exists cs, v = VDict cs /\ forall n x, In (n, x) cs -> condition_object x) ->
  forall str, quiet (exists_match (VDict d) (VDict []) str) -> conditions_resolve (VDict d).
Proof using Hwf Hrs Hres.
  intros _ str Q. unfold conditions_resolve.
  destruct (assoc "Outputs" d) as [ov|] eqn:Eo.
  1: destruct ov as [|b|z|q|os|l|os].
  all: try (left; exists d; eexists; split; [reflexivity|]; split; [exact Eo|]; unfold no_object; eauto; fail).
  all: destruct (assoc "Conditions" d) as [cv|] eqn:Ec.
  all: try (destruct cv as [|b'|z'|q'|cs|l'|cs]).
  all: try (right; left; exists d; eexists; split; [reflexivity|]; split; [exact Ec|]; unfold no_object; eauto; fail).
  all: right; right; unfold exists_match in Q; rewrite !get_def, ?Eo, ?Ec in Q; cbn [bind] in Q.
  all: destruct (exists_ifs (search_deep_keys "Fn::If" (VDict d) (VDict [])) []) as [a|e0] eqn:Ea; cbn [bind] in Q; [|apply ifs_err in Ea; subst e0; destruct Q; discriminate].
  all: destruct (resources_ok (get_resources (VDict d))) with (a := a) as [b0 Eb]; [intros r x Hi; apply in_get_resources in Hi as (o & t & -> & _); [eauto | exact Hwf]|].
  all: rewrite Eb in Q; cbn [bind ConditionRules.items_of] in Q; try (destruct Q; discriminate).
  all: match type of Q with context [exists_outputs ?st ?os ?c] => destruct (exists_outputs st os c) as [dd|e0] eqn:Ed; cbn [bind] in Q; [|apply outputs_err in Ed; subst e0; destruct Q; discriminate] end.
  all: destruct Q as [Q|Q]; [|exfalso; apply concat_error in Q as [[kk pp] [_ Q]]; cbn [fst snd] in Q; destruct kk; cbn [in_conditions bind] in Q; discriminate Q].
  all: intros n Hu.
  all: assert (Hn : In (VStr n) (map fst dd)) by
    (destruct (ifs_keys _ _ _ Ea) as [_ G1]; destruct (resources_keys _ _ _ Eb) as [G2 G3];
     destruct (conditions_keys (search_deep_keys "Condition" (VDict d) (VDict [])) b0) as [G4 G5]; destruct (outputs_keys _ _ _ _ Ed) as [G6 G7];
     inversion Hu as [p rest Ho|r o t Hd Ht Hne Hc|p Hp|r o Hd Hc];
     [ apply G6, G4, G2; apply occurs_here in Ho; apply (G1 (p ++ [PKey "Fn::If"])%list n rest); apply no_globals; eauto
     | apply G6, G4; apply (G3 r o n); [apply in_get_resources; [exact Hwf | eauto 6] | exact Hc]
     | apply G6; apply (G5 (PKey "Conditions" :: p ++ [PKey "Condition"])%list n); [apply no_globals; exists (PKey "Conditions" :: p); split; [reflexivity | exact Hp] | reflexivity]
     | destruct Hd as (d' & s' & K1 & K2 & K3); injection K1 as <-; rewrite Eo in K2; first [discriminate K2 | injection K2 as <-; apply (G7 r o n); [now apply assoc_In | exact Hc]] ]).
  all: apply in_map_iff in Hn as [[kk pp] [Ek Hi]]; cbn [fst] in Ek; subst kk; pose proof (concat_nothing _ _ Q _ Hi) as K; cbn [fst snd in_conditions bind] in K; try discriminate K.
  all: match type of K with context [mem_assoc ?nn ?cs] => destruct (cbool (mem_assoc nn cs)) as [S|S]; rewrite S in K; [|discriminate K] end.
  all: try (discriminate S).
  all: exists d, cs; split; [reflexivity|]; split; [exact Ec|]; unfold mem_assoc in S; destruct (assoc n cs) as [y|] eqn:Ey; [|discriminate S]; apply assoc_In in Ey; apply in_map_iff; exists (n, y); auto.
Qed.

(** * DependsOn *)
Lemma term_test_err : forall t sc e, term_test t sc = Err e -> e = EAttribute.
Proof.
  clear. fix IH 1. intros t sc e. destruct t as [e0|ands ors nots eq infl]; [discriminate|].
  assert (L1 : forall l, (fix all (l : list term) : res (option bool) :=
    match l with [] => Ok (Some true) | x :: xs => do b <- term_test x sc; if Conditions.holds b then all xs else Ok (Some false) end) l = Err e ->
    Forall (fun x => forall e, term_test x sc = Err e -> e = EAttribute) l -> e = EAttribute).
  { induction l as [|x xs IHl]; [discriminate|]. intros H F. inversion F as [|? ? F1 F2]; subst.
    destruct (term_test x sc) as [b|e1] eqn:E; cbn [bind] in H; [destruct (Conditions.holds b); [exact (IHl H F2) | discriminate H]|]. injection H as <-. exact (F1 _ eq_refl). }
  assert (L2 : forall l, (fix any (l : list term) : res (option bool) :=
    match l with [] => Ok (Some false) | x :: xs => do b <- term_test x sc; if Conditions.holds b then Ok (Some true) else any xs end) l = Err e ->
    Forall (fun x => forall e, term_test x sc = Err e -> e = EAttribute) l -> e = EAttribute).
  { induction l as [|x xs IHl]; [discriminate|]. intros H F. inversion F as [|? ? F1 F2]; subst.
    destruct (term_test x sc) as [b|e1] eqn:E; cbn [bind] in H; [destruct (Conditions.holds b); [discriminate H | exact (IHl H F2)]|]. injection H as <-. exact (F1 _ eq_refl). }
  assert (F : forall l : list term, (forall x, In x l -> forall e, term_test x sc = Err e -> e = EAttribute) -> Forall (fun x => forall e, term_test x sc = Err e -> e = EAttribute) l)
    by (intros l; apply Forall_forall).
  assert (F1 : Forall (fun x => forall e, term_test x sc = Err e -> e = EAttribute) ands)
    by (clear L1 L2 F; induction ands as [|x xs IHl]; constructor; [exact (IH x sc) | exact IHl]).
  assert (F2 : Forall (fun x => forall e, term_test x sc = Err e -> e = EAttribute) ors)
    by (clear L1 L2 F F1; induction ors as [|x xs IHl]; constructor; [exact (IH x sc) | exact IHl]).
  assert (F3 : Forall (fun x => forall e, term_test x sc = Err e -> e = EAttribute) nots)
    by (clear L1 L2 F F1 F2; induction nots as [|x xs IHl]; constructor; [exact (IH x sc) | exact IHl]).
  clear IH F. destruct ands as [|a ands]; [|intros H; exact (L1 (a :: ands) H F1)]. destruct ors as [|o ors]; [|intros H; exact (L2 (o :: ors) H F2)].
  destruct nots as [|n nots]; cbn [term_test]; [destruct eq; intros H; congruence|]. inversion F3 as [|? ? K _]; subst.
  destruct (term_test n sc) as [b|e1] eqn:E; cbn [bind]; [discriminate|]. intros [= <-]. exact (K _ eq_refl).
Qed.
Lemma test_all_err cs s : forall names acc e, test_all cs names s acc = Err e -> e = EAttribute.
Proof.
  clear. induction names as [|n ns IH]; intros acc e; cbn [test_all]; [discriminate|]. destruct (assoc n cs) as [t|]; [|congruence].
  destruct (term_test t s) as [b|e1] eqn:E; cbn [bind]; [apply IH|]. intros [= <-]. exact (term_test_err _ _ _ E).
Qed.
Lemma scenarios_err order c names e : get_scenarios order c names = Err e -> e = EAttribute.
Proof.
  clear. unfold get_scenarios. destruct (cs_conditions c) as [|x cs]; [discriminate|].
  destruct (match_conditions _ _ _ _) as [[m [|]]|]; [|destruct (Nat.ltb _ _); discriminate | discriminate].
  generalize (fold_left (fun r kv => multiply_equals order r (fst kv) (snd kv) (assoc (fst kv) (cs_parameters c))) m []) as l.
  intros l. generalize (@nil scenario) as acc. induction l as [|s l IH]; intros acc; cbn [collect_scenarios]; [discriminate|].
  destruct (test_all (x :: cs) names s []) as [r|e1] eqn:E; cbn [bind]; [apply IH|]. intros [= <-]. exact (test_all_err _ _ _ _ _ E).
Qed.

Lemma entry_conditions n o v r : In (n, VDict o) rs -> assoc "DependsOn" o = Some v ->
  (r = [] \/ exists l i x, v = VList l /\ r = [PIdx i] /\ nth_error l i = Some x) ->
  conditions_from_path (VDict d) (PKey "Resources" :: PKey n :: PKey "DependsOn" :: r) true false = Ok no_conds.
Proof using Hwf Hrs Hnm.
  intros Hi Hv Hr. pose proof (alphanumeric_if n (Hnm _ _ Hi)) as Hn. apply String.eqb_neq in Hn.
  assert (Ha : assoc n rs = Some (VDict o)).
  { apply In_assoc; [|exact Hi]. apply wf_dict in Hwf as [_ Hw]. apply assoc_In in Hrs. apply Hw in Hrs. now apply wf_dict in Hrs as [Hx _]. }
  cbn [conditions_from_path root_condition]. rewrite Hn. rewrite !andb_false_r.
  change (String.eqb "Resources" "Fn::If") with false. change (String.eqb "DependsOn" "Fn::If") with false. cbn [andb].
  unfold Resolve.step. rewrite Hrs, Ha. destruct Hr as [->|(l & i & x & -> & -> & Hx)]; [reflexivity|]. rewrite Hv. reflexivity.
Qed.
Lemma entry_available order c n o v r s e : In (n, VDict o) rs -> assoc "DependsOn" o = Some v ->
  (r = [] \/ exists l i x, v = VList l /\ r = [PIdx i] /\ nth_error l i = Some x) ->
  is_resource_available order c (VDict d) (PKey "Resources" :: PKey n :: PKey "DependsOn" :: r) s = Err e -> e <> ETemplateAttribute.
Proof using Hwf Hrs Hres Hnm.
  intros Hi Hv Hr. unfold is_resource_available, get_conditions_from_path. rewrite (entry_conditions _ _ _ _ Hi Hv Hr). cbn [bind].
  change (smem "Resources" ["Resources"; "Outputs"]) with true. rewrite !get_def, Hrs. cbn [bind]. rewrite !get_def.
  assert (Ho : forall k, exists o' , match assoc k rs with Some x => x | None => VDict [] end = VDict o' /\ forall x, assoc "Condition" o' = Some x -> exists u, x = VStr u).
  { intros k. destruct (assoc k rs) as [x|] eqn:E; [|exists []; split; [reflexivity | discriminate]].
    apply assoc_In in E. destruct (Hres _ _ E) as (o' & t & -> & _ & _ & K). eauto. }
  destruct (Ho n) as (o1 & -> & K1). destruct (Ho s) as (o2 & E2 & K2). cbn [bind vget].
  assert (A : exists pc, add_resource_condition (match assoc "Condition" o1 with Some x => x | None => VNull end) no_conds = Ok pc).
  { unfold add_resource_condition. destruct (assoc "Condition" o1) as [x|]; [|cbn; eauto]. destruct (K1 x eq_refl) as [u ->]. destruct (truthy (VStr u)); eauto. }
  destruct A as [pc ->]. cbn [bind]. rewrite E2. cbn [bind]. unfold vget.
  destruct (assoc "Condition" o2) as [x|]; cbn [bind]; [|discriminate]. destruct (K2 x eq_refl) as [u ->]. destruct (truthy (VStr u)); [|discriminate].
  destruct (mem_assoc u (fst pc)); [discriminate|]. destruct (snd pc); [|discriminate].
  destruct (get_scenarios order c _) as [scs|e1] eqn:E; cbn [bind]; [discriminate|]. intros [= <-]. apply scenarios_err in E. subst. discriminate.
Qed.
Lemma entry_check order c n o v r w : In (n, VDict o) rs -> assoc "DependsOn" o = Some v ->
  (r = [] \/ exists l i x, v = VList l /\ r = [PIdx i] /\ nth_error l i = Some x) ->
  let f := depends_check order c (VDict d) w (PKey "Resources" :: PKey n :: PKey "DependsOn" :: r) in
  f <> Err ETemplateAttribute /\ (f = Ok [] -> exists s o', w = VStr s /\ Protect.resource (VDict d) s o').
Proof using Hwf Hrs Hres Hnm.
  intros Hi Hv Hr f. unfold f, depends_check. destruct w as [| | | |s| |]; try (split; [discriminate | discriminate]).
  unfold mem_assoc. destruct (assoc s (get_resources (VDict d))) as [x|] eqn:E; [|split; discriminate]. split.
  - destruct (is_resource_available _ _ _ _ _) as [scs|e] eqn:Ea; cbn [bind]; [discriminate|]. intros [= ->]. exact (entry_available _ _ _ _ _ _ _ _ Hi Hv Hr Ea eq_refl).
  - intros _. apply assoc_In in E. apply in_get_resources in E as (o' & t & -> & Hd & Ht & Hne); [|exact Hwf]. exists s, o'. split; [reflexivity|]. split; [exact Hd | eauto].
Qed.
Lemma quiet_depends order c : quiet (depends_on_match order c (VDict d)) -> dependencies_resolve (VDict d).
Proof using Hwf Hrs Hres Hnm.
  intros Q n p v He.
  assert (O : forall m o, Protect.resource (VDict d) m o -> In (m, VDict o) rs /\ In (m, VDict o) (get_resources (VDict d))).
  { intros m o [(d' & s' & K1 & K2 & K3) (t & Ht & Hne)]. injection K1 as <-. rewrite Hrs in K2. injection K2 as <-. split; [now apply assoc_In|].
    apply in_get_resources; [exact Hwf|]. exists o, t. split; [reflexivity|]. split; [exists d, rs; auto | auto]. }
  assert (R : forall x, In x (get_resources (VDict d)) -> exists o, snd x = VDict o /\ In (fst x, VDict o) rs).
  { intros [m x] Hx. apply in_get_resources in Hx as (o & t & -> & Hd & Ht & Hne); [|exact Hwf]. exists o. split; [reflexivity|]. apply (O m o). split; [exact Hd | eauto]. }
  assert (Q' : depends_on_match order c (VDict d) = Ok []).
  { destruct Q as [Q|Q]; [exact Q|]. exfalso. apply concat_error in Q as [[m x] [Hx Q]]. destruct (R _ Hx) as (o & Ex & Hi). cbn [snd fst] in Ex, Hi. subst x.
    unfold depends_on_resource in Q. cbn [fst snd vget bind] in Q. destruct (assoc "DependsOn" o) as [w|] eqn:Ed; [|discriminate Q].
    destruct (truthy w); [|discriminate Q]. destruct w as [| | | | |l|];
      try exact (proj1 (entry_check order c m o _ [] _ Hi Ed (or_introl eq_refl)) Q).
    apply concat_error in Q as [[i y] [Hy Q]]. cbn [fst snd app] in Q. apply enum_nth in Hy.
    refine (proj1 (entry_check order c m o _ [PIdx i] y Hi Ed _) Q). right. eauto 6. }
  clear Q. destruct He as [o v Ho Hv Hnl|o l i v Ho Hv Hnth]; destruct (O _ _ Ho) as [Hi Hg]; pose proof (concat_nothing _ _ Q' _ Hg) as K;
    unfold depends_on_resource in K; cbn [fst snd vget bind] in K; rewrite Hv in K.
  - destruct (empty_or v) as [Hm|Hm]; [right; auto|]. rewrite Hm in K. left.
    destruct v as [| | | | |l|]; try exact (proj2 (entry_check order c n o _ [] _ Hi Hv (or_introl eq_refl)) K). destruct (Hnl l eq_refl).
  - left. assert (T : truthy (VList l) = true) by (destruct l; [destruct i; discriminate Hnth | reflexivity]). rewrite T in K.
    apply enum_nth in Hnth as Hy. pose proof (concat_nothing _ _ K _ Hy) as K'. cbn [fst snd app] in K'.
    refine (proj2 (entry_check order c n o _ [PIdx i] v Hi Hv _) K'). right. eauto 6.
Qed.

(** * Cycles *)
Lemma resource_target b : Dependencies.resource (VDict d) b -> In b (targets rs (VStr b)).
Proof using Hrs.
  intros (d' & rs' & o & E & Er & Hb & Hne). injection E as <-. rewrite Hrs in Er. injection Er as <-. cbn [targets]. rewrite Hb. cbn [truthy].
  destruct o; [congruence | now left].
Qed.
Lemma pair_in (a b : string) l : In b l -> In (a, b) (map (fun t => (a, t)) l).
Proof. intros H. apply in_map_iff. eauto. Qed.
Lemma getatt_edge a b p v es : source_of p = Some a -> refers_to v "Fn::GetAtt" b -> Dependencies.resource (VDict d) b -> getatt_edges rs (p, v) = Ok es -> In (a, b) es.
Proof using Hrs.
  intros Hs Hr Hb. pose proof (resource_target b Hb) as T. unfold getatt_edges. cbn [fst snd]. rewrite Hs. inversion Hr; subst.
  - cbn [targets] in T. cbn [is_resource bind].
    match goal with |- context [match assoc b rs with Some x => truthy x | None => false end] => set (q := match assoc b rs with Some x => truthy x | None => false end) in * end.
    destruct q eqn:Eq; [|destruct T]. cbn [bind]. intros [= <-]. cbn [targets]. fold q. rewrite Eq. apply pair_in. now left.
  - rewrite H. intros [= <-]. destruct (first_part_split _ _ H0) as [rest ->]. now apply pair_in.
Qed.
Lemma sub_edge a b p v es : source_of p = Some a -> refers_to v "Fn::Sub" b -> Dependencies.resource (VDict d) b -> sub_edges rs (p, v) = Ok es -> In (a, b) es.
Proof using Hrs.
  intros Hs Hr Hb. pose proof (resource_target b Hb) as T. unfold sub_edges. cbn [fst snd]. rewrite Hs.
  assert (G : forall t m x, has_placeholder t x -> assoc x m = None -> first_part x b ->
    concat_res (fun n => do y <- in_values n (VDict m); Ok (if y then [] else map (fun u => (a, u)) (targets rs (VStr (sub_target n))))) (find_parameter t) = Ok es -> In (a, b) es).
  { intros t m x Hx Hm Hf E. apply (concat_res_in _ _ _ (a, b) E). exists x. cbn [in_values bind]. unfold mem_assoc. rewrite Hm. eexists. split; [now apply find_parameter_spec|].
    split; [reflexivity|]. rewrite (first_part_det _ _ _ (sub_target_first x) Hf). now apply pair_in. }
  inversion Hr; subst; intros E.
  - eapply (G s [] x); eauto.
  - eapply (G s [] x); eauto.
  - eapply (G s m x); eauto.
Qed.
Lemma depends_graph es a b : build_graph (VDict d) (VDict []) = Ok es -> depends (VDict d) a b -> (exists k, In (a, b, k) es) /\ In a (keys rs).
Proof using Hwf Hrs Hres.
  intros He Hd. unfold build_graph, resources_of in He. rewrite get_def, Hrs in He. cbn [bind] in He.
  destruct (concat_res (depends_edges rs) rs) as [x|] eqn:Ex; cbn [bind] in He; [|discriminate].
  destruct (concat_res (getatt_edges rs) _) as [y|] eqn:Ey; cbn [bind] in He; [|discriminate].
  destruct (concat_res (sub_edges rs) _) as [z|] eqn:Ez; cbn [bind] in He; [|discriminate]. injection He as <-.
  assert (P : forall r v, at_path (PKey "Resources" :: PKey a :: r) (VDict d) = Some v -> exists o, assoc a rs = Some (VDict o) /\ at_path r (VDict o) = Some v).
  { intros r v H. cbn [at_path] in H. rewrite Hrs in H. cbn [at_path] in H. destruct (assoc a rs) as [q|] eqn:E; [|discriminate H].
    apply assoc_In in E as Ei. destruct (Hres _ _ Ei) as (o & _ & -> & _). eauto. }
  assert (I2 : forall r v, at_path (PKey "Resources" :: PKey a :: r) (VDict d) = Some v -> In a (keys rs)).
  { intros r v H. destruct (P r v H) as (o & E & _). apply assoc_In in E. apply in_map_iff. exists (a, VDict o). auto. }
  rewrite fold_edges, !in_app_iff.
  destruct Hd as [Hb Hp|l Hb Hp Hl|r f v Hb Hp Hv]; (split; [right | exact (I2 _ _ Hp)]).
  - left. apply (concat_res_in _ _ _ (a, b) Ex). destruct (P _ _ Hp) as (o & E & H). cbn [at_path] in H. destruct (assoc "DependsOn" o) as [w|] eqn:Ed; [|discriminate H]. injection H as ->.
    exists (a, VDict o). eexists. split; [now apply assoc_In|]. unfold depends_edges. cbn [fst snd vget vget_def bind]. rewrite Ed. split; [reflexivity|]. apply pair_in. exact (resource_target b Hb).
  - left. apply (concat_res_in _ _ _ (a, b) Ex). destruct (P _ _ Hp) as (o & E & H). cbn [at_path] in H. destruct (assoc "DependsOn" o) as [w|] eqn:Ed; [|discriminate H]. injection H as ->.
    exists (a, VDict o). eexists. split; [now apply assoc_In|]. unfold depends_edges. cbn [fst snd vget vget_def bind]. rewrite Ed. split; [reflexivity|]. apply pair_in.
    apply in_flat_map. exists (VStr b). split; [exact Hl | exact (resource_target b Hb)].
  - right. assert (Hs : source_of (PKey "Resources" :: PKey a :: r ++ [PKey f])%list = Some a) by reflexivity.
    assert (Hin : In (PKey "Resources" :: PKey a :: r ++ [PKey f], v)%list (search_deep_keys f (VDict d) (VDict []))).
    { apply no_globals. exists (PKey "Resources" :: PKey a :: r). split; [reflexivity | exact Hp]. }
    assert (Hf : f = "Ref" \/ f = "Fn::GetAtt" \/ f = "Fn::Sub") by (inversion Hv; auto).
    destruct Hf as [->|[->| ->]].
    + left. apply in_flat_map. eexists. split; [exact Hin|]. unfold ref_edges. cbn [fst snd]. rewrite Hs. inversion Hv; subst. apply pair_in. exact (resource_target b Hb).
    + right; left. destruct (concat_res_each _ _ _ Ey _ Hin) as [ys Hy]. apply (concat_res_in _ _ _ (a, b) Ey). eexists _, ys. split; [exact Hin|]. split; [exact Hy|]. exact (getatt_edge _ _ _ _ _ Hs Hv Hb Hy).
    + right; right. destruct (concat_res_each _ _ _ Ez _ Hin) as [ys Hy]. apply (concat_res_in _ _ _ (a, b) Ez). eexists _, ys. split; [exact Hin|]. split; [exact Hy|]. exact (sub_edge _ _ _ _ _ Hs Hv Hb Hy).
Qed.
Lemma quiet_cycles find_cycle : finds_cycles find_cycle -> quiet (circular_match (VDict d) (VDict []) find_cycle) -> no_cycles (VDict d).
Proof using Hwf Hrs Hres.
  intros [Hf Hn] Q a Ha. unfold circular_match in Q.
  assert (Er : resources_of (VDict d) = Ok rs) by (unfold resources_of; rewrite get_def, Hrs; reflexivity).
  destruct (build_graph (VDict d) (VDict [])) as [es|e] eqn:Ee; cbn [bind] in Q.
  - rewrite Er in Q. cbn [bind] in Q. destruct Q as [Q|Q]; [|discriminate Q]. injection Q as Q. apply map_eq_nil in Q.
    assert (None' : forall s, In s (keys rs) -> find_cycle es s = None).
    { intros s Hs. destruct (find_cycle es s) as [c|] eqn:E; [|reflexivity]. exfalso. destruct (Hf _ _ _ E) as [Hne _]. destruct c as [|x c]; [now apply Hne|].
      assert (X : In x (get_cycles find_cycle es (keys rs))) by (apply get_cycles_in; exists s, (x :: c); cbn; auto). rewrite Q in X. destruct X. }
    assert (W : forall x y, clos_refl_trans _ (depends (VDict d)) x y -> exists l, walk es x l y).
    { intros x y H. apply clos_rt_rt1n in H. induction H as [x|x y z H1 H2 [l IH]]; [exists []; constructor|].
      destruct (depends_graph _ _ _ Ee H1) as [[k Hk] _]. exists ((x, y, k) :: l). now constructor. }
    destruct (clos_t_first _ _ _ Ha) as [b [Hab Hba]]. destruct (depends_graph _ _ _ Ee Hab) as [[k Hk] Hi]. destruct (W _ _ Hba) as [l Hl].
    assert (E := Hn es a [] a ((a, b, k) :: l) (None' a Hi) (wk_nil _ _)). discriminate E. now constructor.
  - assert (e <> ETemplateAttribute); [|destruct Q; congruence]. clear Q. intros ->. unfold build_graph in Ee. rewrite Er in Ee. cbn [bind] in Ee.
    destruct (concat_res (depends_edges rs) rs) as [x|e] eqn:Ex; cbn [bind] in Ee.
    2:{ injection Ee as ->. apply concat_error in Ex as [[n x] [Hx Ex]]. destruct (Hres _ _ Hx) as (o & _ & -> & _). unfold depends_edges in Ex. cbn [fst snd vget vget_def bind] in Ex.
        destruct (assoc "DependsOn" o) as [[]|]; discriminate Ex. }
    destruct (concat_res (getatt_edges rs) _) as [y|e] eqn:Ey; cbn [bind] in Ee.
    2:{ injection Ee as ->. apply concat_error in Ey as [[p v] [_ Ey]]. unfold getatt_edges in Ey. cbn [fst snd] in Ey. destruct (source_of p); [|discriminate Ey].
        destruct v as [| | | |s0|[|u [|u' [|u'' l]]]|]; try discriminate Ey; [destruct (has_char "." s0); discriminate Ey|]. destruct u; cbn in Ey; try discriminate Ey. }
    destruct (concat_res (sub_edges rs) _) as [z|e] eqn:Ez; cbn [bind] in Ee; [discriminate Ee|]. injection Ee as ->.
    apply concat_error in Ez as [[p v] [_ Ez]]. unfold sub_edges in Ez. cbn [fst snd] in Ez. destruct (source_of p) as [s0|]; [|discriminate Ez].
    assert (G : forall t values, concat_res (fun n => do y <- in_values n values; Ok (if y then [] else map (fun u => (s0, u)) (targets rs (VStr (sub_target n))))) (find_parameter t) <> Err ETemplateAttribute).
    { intros t values E. apply concat_error in E as [n [_ E]]. destruct values; cbn [in_values bind] in E; discriminate E. }
    destruct v as [| | | |t|[|u l]|]; try discriminate Ez; [exact (G _ _ Ez)|]. destruct u; try discriminate Ez. exact (G _ _ Ez).
Qed.
End Template.

Lemma c107_resolves w sp tr k rg man c : plain_run w sp tr k rg man c [] -> get_directives (c_tmpl c) = Ok [] ->
  (forall id, In id reference_rules -> selected id false (s_experimental (k_set k)) (s_ignore (k_set k)) (s_include (k_set k)) (s_mandatory (k_set k))) ->
  known_regions (w_specs w) (w_regions w) -> finds_cycles (w_find_cycle w) ->
  refs_resolve (template c) /\ conditions_resolve (template c) /\ conditions_formed (template c) /\ dependencies_resolve (template c) /\ no_cycles (template c).
Proof.
  intros Hrun Hds Hsel Hreg Hfc.
  destruct (c106_clean w sp tr k rg man c Hrun Hds (fun id Hi => Hsel id (in_or_app _ _ _ (or_introl Hi))) Hreg) as (d & Ed & _ & _ & (rs & Hrs & Hf) & _ & _ & _ & Hc).
  pose proof (fun id f Hi => clean_check w sp tr k rg man c id f Hrun Hds (Hsel id Hi)) as Q.
  destruct Hrun as (_ & _ & _ & _ & _ & _ & Hg & _ & Hwf & _).
  pose proof (Q "E2003" (alphanumeric_name (template c) "Parameters") ltac:(cbn; tauto) ltac:(by_id)) as Q1.
  pose proof (Q "E3006" (alphanumeric_name (template c) "Resources") ltac:(cbn; tauto) ltac:(by_id)) as Q2.
  pose proof (Q "E1012" (ref_exist_match (template c) (w_globals w c)) ltac:(cbn; tauto) ltac:(by_id)) as Q3.
  pose proof (Q "E1020" (ref_text_match (template c) (w_globals w c)) ltac:(cbn; tauto) ltac:(by_id)) as Q4.
  pose proof (Q "E1028" (if_match (template c) (w_globals w c)) ltac:(cbn; tauto) ltac:(by_id)) as Q5.
  pose proof (Q "E8002" (exists_match (template c) (w_globals w c) (w_str w)) ltac:(cbn; tauto) ltac:(by_id)) as Q6.
  pose proof (Q "E8004" (Ok (check_condition_list (template c) (w_globals w c) "Fn::And")) ltac:(cbn; tauto) ltac:(by_id)) as Q7.
  pose proof (Q "E8005" (Ok (check_condition_list (template c) (w_globals w c) "Fn::Not")) ltac:(cbn; tauto) ltac:(by_id)) as Q8.
  pose proof (Q "E8006" (Ok (check_condition_list (template c) (w_globals w c) "Fn::Or")) ltac:(cbn; tauto) ltac:(by_id)) as Q9.
  pose proof (Q "E3004" (circular_match (template c) (w_globals w c) (w_find_cycle w)) ltac:(cbn; tauto) ltac:(by_id)) as Q10.
  pose proof (Q "E3005" (depends_on_match (w_order w) (load (w_hash w) (w_fuel w) (template c)) (template c)) ltac:(cbn; tauto) ltac:(by_id)) as Q11.
  clear Q. rewrite Hg, Ed in *.
  assert (Hres : forall n x, In (n, x) rs -> exists o t, x = VDict o /\ assoc "Type" o = Some (VStr t) /\ t <> "" /\ (forall c', assoc "Condition" o = Some c' -> exists s, c' = VStr s)).
  { intros n x Hi. assert (O : exists o, x = VDict o). { destruct x as [| | | | | |o]; try (exfalso; eapply (Hf _ _ Hi); apply rf_object; intros o K; discriminate K). eauto. }
    destruct O as [o ->].
    assert (T : exists t, assoc "Type" o = Some (VStr t) /\ t <> "").
    { destruct (assoc "Type" o) as [t|] eqn:Et; [|exfalso; eapply (Hf _ _ Hi); apply rf_no_type; right; auto].
      destruct t as [| | | |t| |]; try (exfalso; eapply (Hf _ _ Hi); eapply rf_type_text; [exact Et | intros s K; discriminate K]).
      exists t. split; [reflexivity|]. intros ->. eapply (Hf _ _ Hi). apply rf_no_type. now left. }
    assert (K : forall c', assoc "Condition" o = Some c' -> exists s, c' = VStr s).
    { intros c' E. destruct c' as [| | | |s| |]; eauto; exfalso; eapply (Hf _ _ Hi); (eapply rf_condition; [exact E | intros s' K; discriminate K]). }
    destruct T as (t & Et & Hne). exists o, t. auto. }
  pose proof (quiet_names _ _ _ Hrs Q2) as Hnm.
  split; [exact (quiet_refs d rs Hwf Hrs Hres Hnm Q4 Q3 Q1)|]. split; [exact (quiet_conditions d rs Hwf Hrs Hres Hc _ Q6)|].
  split; [apply (quiet_forms d Hwf); [|exact Q5]; intros f [<-|[<-|[<-|[]]]]; assumption|].
  split; [exact (quiet_depends d rs Hwf Hrs Hres Hnm _ _ Q11)|]. exact (quiet_cycles d rs Hwf Hrs Hres _ Hfc Q10).
Qed.
