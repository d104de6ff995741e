(** Proofs about the objects and lists that the specification expects (C65). *)
From Coq Require Import List String Bool Lia PeanoNat.
From Verif.Model Require Import Base Helpers Node Conditions Search Resolve Rules Refs Relationship Limits Parameters JsonDump PropertyRules Functions ValueRules PropertyTree.
From Verif.Spec Require Import Paths Branches References Attributes Expected.
From Verif.Proofs Require Import BaseFacts BranchProofs SearchProofs RelationRule SizeProofs AttributeProofs SubProofs ConditionUseProofs ValueProofs ValueRefProofs.
Import Verif.Model.Rules.
Import ListNotations.
Local Open Scope string_scope.

(** * Depth *)
Lemma depth_item l x : In x l -> depth x < depth (VList l).
Proof.
  cbn [depth]. intros H. apply Nat.lt_succ_r. induction l as [|y l IH]; [destruct H|]. destruct H as [->|H]; [lia|]. specialize (IH H). lia.
Qed.
Lemma depth_member d k x : In (k, x) d -> depth x < depth (VDict d).
Proof.
  cbn [depth]. intros H. apply Nat.lt_succ_r. induction d as [|[k' y] d IH]; [destruct H|]. destruct H as [[= -> ->]|H]; [lia|]. specialize (IH H). lia.
Qed.

(** * Single values *)
Lemma eq_str_iff s v : eq_str s v = true <-> v = VStr s.
Proof. destruct v; cbn; try (split; discriminate). rewrite String.eqb_eq. split; congruence. Qed.
Lemma is_arns_iff k x : is_arns k x = true <-> k = "Ref" /\ x = VStr "AWS::NotificationARNs".
Proof. unfold is_arns. rewrite andb_true_iff, String.eqb_eq, eq_str_iff. reflexivity. Qed.
Lemma condition_function k : smem k CONDITION_FUNCTIONS = String.eqb k "Fn::If".
Proof. cbn. now rewrite orb_false_r. Qed.
Lemma if_cases (x : val) : (exists c a b, x = VList [c; a; b]) \/ (forall c a b, x <> VList [c; a; b]).
Proof. destruct x as [| | | | |[|c [|a [|b [|? ?]]]]|]; try (right; intros; discriminate). left; eauto. Qed.
Lemma primitive_tree_if t c a b p : t <> "Json" ->
  primitive_tree (If_of (VList [c; a; b])) t p = (primitive_tree a t (p ++ [PKey "Fn::If"; PIdx 1]) ++ primitive_tree b t (p ++ [PKey "Fn::If"; PIdx 2]))%list.
Proof. intros H. apply String.eqb_neq in H. unfold If_of. cbn [primitive_tree]. rewrite H. reflexivity. Qed.
Lemma functions_same : primitive_functions = functions_for_values.
Proof. reflexivity. Qed.
(** A value that is no condition. *)
Lemma primitive_tree_here t v p m : (forall c a b, v <> If_of (VList [c; a; b])) \/ t = "Json" ->
  In m (primitive_tree v t p) <-> exists words, single_fault t v p words /\ m = mkRM p words.
Proof.
  intros Hv. destruct v as [| | | | |l|d]; try solve [split; [intros [] | intros [words [H _]]; inversion H]].
  - split.
    + intros [<-|[]]. eexists. split; [apply vf_list | reflexivity].
    + intros [words [H ->]]. inversion H; subst. now left.
  - destruct d as [|[k x] [|kv d]].
    + cbn [primitive_tree]. destruct (String.eqb t "Json") eqn:Et.
      * apply String.eqb_eq in Et. split; [intros []|]. intros [words [H _]]. inversion H; congruence.
      * apply String.eqb_neq in Et. split.
        -- intros [<-|[]]. eexists. split; [now apply vf_object | reflexivity].
        -- intros [words [H ->]]. inversion H; subst. now left.
    + cbn [primitive_tree]. rewrite in_app_iff. rewrite condition_function. split.
      * intros [H|H].
        -- destruct (is_arns k x) eqn:Ea; [|destruct H]. apply is_arns_iff in Ea as [-> ->]. destruct H as [<-|[]]. eexists. split; [apply vf_arns | reflexivity].
        -- destruct (String.eqb t "Json") eqn:Et; [destruct H|]. apply String.eqb_neq in Et. destruct (String.eqb k "Fn::If") eqn:Ek.
           ++ apply String.eqb_eq in Ek as ->. destruct Hv as [Hv|Hv]; [|contradiction]. destruct (if_cases x) as [[c [a [b ->]]]|Hx]; [destruct (Hv c a b); reflexivity|].
              destruct x as [| | | | |[|c [|a [|b [|? ?]]]]|]; try destruct H. destruct (Hx c a b); reflexivity.
           ++ destruct (smem k primitive_functions) eqn:Ef; [destruct H|]. destruct H as [<-|[]]. eexists. split; [|reflexivity]. apply vf_function; [assumption|].
              rewrite <- functions_same. rewrite <- smem_iff. congruence.
      * intros [words [H ->]]. inversion H as [|q|k' x' q Ht Hk|d' q Ht Hl]; subst.
        -- left. cbn. now left.
        -- right. apply String.eqb_neq in Ht as ->. destruct (String.eqb k "Fn::If") eqn:Ek.
           ++ apply String.eqb_eq in Ek as ->. destruct Hk. unfold functions_for_values. cbn [In]. tauto.
           ++ rewrite <- functions_same, <- smem_iff in Hk. apply not_true_iff_false in Hk. rewrite Hk. now left.
        -- cbn in Hl. congruence.
    + cbn [primitive_tree]. destruct (String.eqb t "Json") eqn:Et.
      * apply String.eqb_eq in Et. split; [intros []|]. intros [words [H _]]. inversion H; congruence.
      * apply String.eqb_neq in Et. split.
        -- intros [<-|[]]. eexists. split; [apply vf_object; [assumption | cbn; lia] | reflexivity].
        -- intros [words [H ->]]. inversion H; subst. now left.
Qed.
Lemma no_if_fault t x p words : ~ single_fault t (If_of x) p words.
Proof. intros H. inversion H as [| |k x' q Ht Hk|d q Ht Hl]; subst; [apply Hk; unfold functions_for_values; cbn [In]; tauto | cbn in Hl; congruence]. Qed.
Lemma is_condition_dec v : (exists c a b, v = If_of (VList [c; a; b])) \/ (forall c a b, v <> If_of (VList [c; a; b])).
Proof.
  destruct (is_if_dec v) as [[x ->]|H].
  - destruct (if_cases x) as [[c [a [b ->]]]|Hx]; [left; eauto|]. right. intros c a b [= ->]. now apply (Hx c a b).
  - right. intros c a b ->. apply H. now exists (VList [c; a; b]).
Qed.
Lemma primitive_tree_spec t v : forall p m, In m (primitive_tree v t p) <-> exists q words, primitive_fault t v p q words /\ m = mkRM q words.
Proof.
  unfold primitive_fault. destruct (String.eqb t "Json") eqn:Et.
  - intros p m. apply String.eqb_eq in Et. rewrite primitive_tree_here by now right. split.
    + intros [words [H ->]]. exists p, words. eauto.
    + intros [q [words [[w [[-> ->] H]] ->]]]. eauto.
  - apply String.eqb_neq in Et. remember (depth v) as n eqn:En. revert v En. induction n as [n IH] using lt_wf_ind. intros v En p m. subst n.
    destruct (is_condition_dec v) as [[c [a [b ->]]]|Hv].
    + rewrite primitive_tree_if, in_app_iff by assumption.
      assert (Ha : depth a < depth (If_of (VList [c; a; b]))).
      { apply Nat.lt_trans with (depth (VList [c; a; b])); [apply depth_item; cbn; tauto | apply (depth_member _ "Fn::If"); now left]. }
      assert (Hb : depth b < depth (If_of (VList [c; a; b]))).
      { apply Nat.lt_trans with (depth (VList [c; a; b])); [apply depth_item; cbn; tauto | apply (depth_member _ "Fn::If"); now left]. }
      rewrite (IH _ Ha a eq_refl), (IH _ Hb b eq_refl). split.
      * intros [[q [words [[w [H1 H2]] ->]]]|[q [words [[w [H1 H2]] ->]]]]; exists q, words; (split; [|reflexivity]); exists w; (split; [|exact H2]); [now apply cs_then | now apply cs_else].
      * intros [q [words [[w [H1 H2]] ->]]]. inversion H1; subst; [destruct (no_if_fault _ _ _ _ H2) | left | right]; exists q, words; eauto.
    + rewrite primitive_tree_here by now left. split.
      * intros [words [H ->]]. exists p, words. split; [|reflexivity]. exists v. split; [constructor | exact H].
      * intros [q [words [[w [H1 H2]] ->]]]. inversion H1; subst; [eauto | destruct (Hv c a b); reflexivity | destruct (Hv c a b); reflexivity].
Qed.

(** * Fn::GetAtt in the place of a list *)
Lemma owner_text s n : owner (VStr s) n <-> exists rest, split_on "." s = n :: rest.
Proof.
  destruct (first_of s) as [z [l [E [Hd H]]]]. rewrite E. split.
  - intros Ho. inversion Ho as [|n' Hn|n' a Hn]; subst.
    + rewrite split_on_nochar in E by now apply dotless_has. injection E as <- <-. eauto.
    + change ("." ++ a)%string with (String "." a) in E. rewrite split_on_app in E by now apply dotless_has. injection E as <- <-. eauto.
  - intros [rest [= <- _]]. destruct H as [[-> _]|[k ->]]; [now apply ow_text | now apply ow_dots].
Qed.
Lemma split_not_nil s : split_on "." s <> [].
Proof. destruct (first_of s) as [z [l [E _]]]. rewrite E. discriminate. Qed.
Lemma owner_unique x n n' : owner x n -> owner x n' -> n = n'.
Proof.
  intros H H'. destruct x as [| | | |s|l|]; try solve [inversion H].
  - apply owner_text in H as [r E]. apply owner_text in H' as [r' E']. congruence.
  - inversion H; subst. inversion H'; subst. reflexivity.
Qed.
Lemma resource_type_text template n s : resource_type_of template (VStr n) = Ok (VStr s) <-> resource_type template n s.
Proof.
  unfold resource_type_of, resource_type, defined_in. split.
  - destruct template as [| | | | | |d]; try discriminate. cbn [vget_def bind]. destruct (assoc "Resources" d) as [rs|] eqn:Er; [|discriminate].
    destruct rs as [| | | | | |r]; try discriminate. cbn [vget_def bind]. destruct (assoc n r) as [x|] eqn:Ex; [|discriminate].
    destruct x as [| | | | | |o]; try discriminate. cbn [vget bind]. destruct (assoc "Type" o) as [t|] eqn:Et; [|discriminate]. intros [= ->]. exists o. split; [|exact Et]. eauto.
  - intros [o [[d [r [-> [Er Ex]]]] Et]]. cbn [vget_def bind]. rewrite Er. cbn [vget_def bind]. rewrite Ex. cbn [vget bind]. now rewrite Et.
Qed.
Lemma resource_type_other template n t : (forall s, n <> VStr s) -> resource_type_of template n = Ok t -> t = VNull.
Proof.
  intros Hn. unfold resource_type_of. destruct (vget_def "Resources" (VDict []) template) as [rs|]; [|discriminate]. cbn [bind].
  destruct rs as [| | | | | |r]; try discriminate. destruct n as [| | | |s| |]; try discriminate; try (cbn; congruence). destruct (Hn s). reflexivity.
Qed.
Definition only_texts (accepted : val -> res bool) : Prop := forall t b, accepted t = Ok b -> exists s, t = VStr s.
Lemma starts_custom_texts : only_texts starts_custom.
Proof. intros t ok H. destruct t as [| | | |s| |]; try discriminate. eauto. Qed.
Lemma custom_or_generic_texts : only_texts custom_or_generic.
Proof.
  intros t b H. unfold custom_or_generic in H. destruct (eq_str _ t) eqn:E; [apply eq_str_iff in E; eauto | now apply starts_custom_texts in H].
Qed.
Lemma getatt_list_spec template accepted m x o : only_texts accepted -> getatt_list template accepted m x = Ok o ->
  forall m', In m' o <-> m' = m /\ exists n t, owner x n /\ n <> "" /\ resource_type template n t /\ accepted (VStr t) = Ok false.
Proof.
  intros Ha H m'. unfold getatt_list in H. destruct (getatt_owner x) as [on|] eqn:Eo; [|discriminate]. cbn [bind] in H.
  assert (Hno : (forall n t, owner x n -> n <> "" -> resource_type template n t -> accepted (VStr t) = Ok false -> False) -> o = [] ->
    In m' o <-> m' = m /\ exists n t, owner x n /\ n <> "" /\ resource_type template n t /\ accepted (VStr t) = Ok false).
  { intros K ->. split; [intros [] | intros [_ [n [t [K1 [K2 [K3 K4]]]]]]]. destruct (K n t K1 K2 K3 K4). }
  destruct on as [n|].
  - assert (Hon : forall a, owner x a -> n = VStr a).
    { intros a Hx. destruct x as [| | | |s|l|]; try solve [inversion Hx].
      - apply owner_text in Hx as [rest Er]. cbn [getatt_owner] in Eo. rewrite Er in Eo. congruence.
      - inversion Hx; subst. cbn [getatt_owner] in Eo. congruence. }
    assert (Hno' : forall a, n = VStr a -> owner x a).
    { intros a ->. destruct x as [| | | |s|l|]; try discriminate.
      - apply owner_text. cbn [getatt_owner] in Eo. destruct (split_on "." s) as [|z rest] eqn:Er; [discriminate|]. exists rest. congruence.
      - cbn [getatt_owner] in Eo. destruct l as [|z rest]; [discriminate|]. injection Eo as ->. constructor. }
    destruct (truthy n) eqn:Et.
    + destruct (resource_type_of template n) as [t|] eqn:Er; [|discriminate]. cbn [bind] in H. destruct (accepted t) as [ok|] eqn:Ea; [|discriminate]. cbn [bind] in H.
      destruct (Ha t ok Ea) as [s ->]. assert (Hn : exists a, n = VStr a).
      { destruct n as [| | | |a| |]; try (apply resource_type_other in Er; [discriminate | intros a; discriminate]). eauto. }
      destruct Hn as [a ->]. apply resource_type_text in Er. injection H as <-. destruct ok.
      * apply Hno; [|reflexivity]. intros n t K1 K2 K3 K4. apply Hon in K1. injection K1 as <-. apply resource_type_text in K3, Er. rewrite Er in K3. injection K3 as <-. congruence.
      * split.
        -- intros [<-|[]]. split; [reflexivity|]. exists a, s. split; [now apply Hno'|]. split; [|split; assumption]. intros ->. discriminate.
        -- intros [-> _]. now left.
    + injection H as <-. apply Hno; [|reflexivity]. intros a t K1 K2 _ _. apply Hon in K1 as ->. cbn in Et. destruct a; [now apply K2 | discriminate].
  - injection H as <-. apply Hno; [|reflexivity]. intros n t K1 _ _ _. destruct x as [| | | |s|l|]; try solve [inversion K1].
    + cbn [getatt_owner] in Eo. destruct (split_on "." s) eqn:Er; [now apply split_not_nil in Er | discriminate].
    + cbn [getatt_owner] in Eo. destruct l; discriminate.
Qed.
Lemma starts_with_iff p s : starts_with p s = true <-> begins p s.
Proof. unfold starts_with, begins. apply prefix_iff. Qed.

(** * Conditions in the place of a list *)
Section Lists.
Variable template : val.
Variable resource : string.
Variable items : list val -> path -> res (list rulematch).
Variable prop : string.
Definition list_branch (v : val) (q : path) : res (list rulematch) :=
  match v with
  | VList l => items l q
  | VDict [(k, x)] =>
      if String.eqb k "Ref" && eq_str "AWS::NoValue" x then Ok []
      else if String.eqb k "Fn::GetAtt" then getatt_list template starts_custom (list_at_match resource prop q) x
      else if String.eqb k "Fn::If" then list_condition template resource items prop x q
      else Ok [list_at_match resource prop q]
  | _ => Ok [list_at_match resource prop q]
  end.
Lemma list_condition_three c a b p : list_condition template resource items prop (VList [c; a; b]) p =
  (do m1 <- list_branch a (p ++ [PIdx 1])%list; do m2 <- list_branch b (p ++ [PIdx 2])%list; Ok (m1 ++ m2)%list).
Proof. reflexivity. Qed.
(** What is wrong with a branch that is not a condition. *)
Definition branch_fault (v : val) (q : path) (m : rulematch) : Prop :=
  m = list_at_match resource prop q /\ is_list v = false /\ v <> NoValue /\
  ((forall f z, v = VDict [(f, z)] -> ~ In f ["Fn::If"; "Fn::GetAtt"]) \/
   exists z n t, v = VDict [("Fn::GetAtt", z)] /\ owner z n /\ n <> "" /\ resource_type template n t /\ ~ begins "Custom::" t).
Definition branch_items (v : val) (q : path) (m : rulematch) : Prop := exists l o, v = VList l /\ items l q = Ok o /\ In m o.
Lemma list_branch_plain v q o : ~ is_if v -> list_branch v q = Ok o -> forall m, In m o <-> branch_fault v q m \/ branch_items v q m.
Proof.
  intros Hi H m. unfold branch_fault, branch_items.
  assert (Hone : is_list v = false -> v <> NoValue -> (forall f z, v = VDict [(f, z)] -> ~ In f ["Fn::If"; "Fn::GetAtt"]) -> o = [list_at_match resource prop q] ->
    In m o <-> (m = list_at_match resource prop q /\ is_list v = false /\ v <> NoValue /\ ((forall f z, v = VDict [(f, z)] -> ~ In f ["Fn::If"; "Fn::GetAtt"]) \/
      exists z n t, v = VDict [("Fn::GetAtt", z)] /\ owner z n /\ n <> "" /\ resource_type template n t /\ ~ begins "Custom::" t)) \/ exists l o, v = VList l /\ items l q = Ok o /\ In m o).
  { intros K1 K2 K3 ->. split.
    - intros [<-|[]]. left. auto.
    - intros [[-> _]|[l [o' [-> _]]]]; [now left | discriminate]. }
  destruct v as [|b0|z0|f0|s|l|d]; try (apply Hone; [reflexivity | discriminate | intros; discriminate | injection H as <-; reflexivity]).
  - cbn [list_branch] in H. split.
    + intros K. right. exists l, o. auto.
    + intros [[_ [K _]]|[l' [o' [[= <-] [K1 K2]]]]]; [discriminate | congruence].
  - destruct d as [|[k x] [|kv d]]; try (apply Hone; [reflexivity | discriminate | intros; discriminate | injection H as <-; reflexivity]).
    cbn [list_branch] in H. destruct (String.eqb k "Ref" && eq_str "AWS::NoValue" x)%bool eqn:Er.
    + apply andb_true_iff in Er as [Ek Ex]. apply String.eqb_eq in Ek as ->. apply eq_str_iff in Ex as ->. injection H as <-. split; [intros []|].
      intros [[_ [_ [K _]]]|[l' [o' [K _]]]]; [now destruct K | discriminate].
    + assert (Hnv : VDict [(k, x)] <> NoValue) by (intros [= -> ->]; discriminate). destruct (String.eqb k "Fn::GetAtt") eqn:Eg.
      * apply String.eqb_eq in Eg as ->. pose proof (getatt_list_spec _ _ _ _ _ starts_custom_texts H m) as K. rewrite K. split.
        -- intros [-> [n [t [K1 [K2 [K3 K4]]]]]]. left. split; [reflexivity|]. split; [reflexivity|]. split; [exact Hnv|]. right. exists x, n, t.
           repeat (split; [auto|]). rewrite <- starts_with_iff. cbn in K4. congruence.
        -- intros [[-> [_ [_ [K1|[z [n [t [[= <-] [K1 [K2 [K3 K4]]]]]]]]]]]|[l' [o' [K1 _]]]]; [|split; [reflexivity|]|discriminate].
           ++ destruct (K1 "Fn::GetAtt" x eq_refl). cbn; tauto.
           ++ exists n, t. repeat (split; [auto|]). cbn. f_equal. apply not_true_iff_false. now rewrite starts_with_iff.
      * destruct (String.eqb k "Fn::If") eqn:Ei; [apply String.eqb_eq in Ei as ->; destruct Hi; now exists x|].
        apply String.eqb_neq in Eg, Ei. apply Hone; [reflexivity | exact Hnv | | injection H as <-; reflexivity]. intros f z [= -> ->] [K|[K|[]]]; congruence.
Qed.
Lemma list_branch_if x q : list_branch (If_of x) q = list_condition template resource items prop x q.
Proof. reflexivity. Qed.

(** Faults and lists under the argument of a condition. *)
Definition cond_fault (x : val) (p : path) (m : rulematch) : Prop :=
  exists y q, nested_if x p y q /\ ((not_three y /\ m = bad_if_match q) \/ exists i w, chooses y i w /\ branch_fault w (q ++ [PIdx i])%list m).
Definition cond_items (x : val) (p : path) (m : rulematch) : Prop :=
  exists y q i w, nested_if x p y q /\ chooses y i w /\ branch_items w (q ++ [PIdx i])%list m.
Lemma fault_not_if x q m : ~ branch_fault (If_of x) q m.
Proof. intros [_ [_ [_ [H|[z [n [t [H _]]]]]]]]; [destruct (H "Fn::If" x eq_refl); cbn; tauto | discriminate]. Qed.
Lemma items_not_if x q m : ~ branch_items (If_of x) q m.
Proof. intros [l [o [H _]]]. discriminate. Qed.
Lemma branch_under v q o : (forall x o', v = If_of x -> list_condition template resource items prop x q = Ok o' -> forall m, In m o' <-> cond_fault x q m \/ cond_items x q m) ->
  list_branch v q = Ok o -> forall m, In m o <->
  (branch_fault v q m \/ exists x, v = If_of x /\ cond_fault x q m) \/ (branch_items v q m \/ exists x, v = If_of x /\ cond_items x q m).
Proof.
  intros Hrec H m. destruct (is_if_dec v) as [[x ->]|Hi].
  - rewrite list_branch_if in H. rewrite (Hrec x o eq_refl H m). split.
    + intros [K|K]; eauto 6.
    + intros [[K|[x' [[= <-] K]]]|[K|[x' [[= <-] K]]]]; [now apply fault_not_if in K | now left | now apply items_not_if in K | now right].
  - rewrite (list_branch_plain v q o Hi H m). split; [tauto|]. intros [[K|[x [-> _]]]|[K|[x [-> _]]]]; try tauto; destruct Hi; now exists x.
Qed.
Lemma cond_fault_three c a b p m : cond_fault (VList [c; a; b]) p m <->
  (branch_fault a (p ++ [PIdx 1])%list m \/ exists x, a = If_of x /\ cond_fault x (p ++ [PIdx 1])%list m) \/
  (branch_fault b (p ++ [PIdx 2])%list m \/ exists x, b = If_of x /\ cond_fault x (p ++ [PIdx 2])%list m).
Proof.
  split.
  - intros [y [q [Hn H]]]. inversion Hn as [|c' x b' p' y' q' K|c' a' x p' y' q' K]; subst.
    + destruct H as [[Ht _]|[i [w [Hc H]]]]; [inversion Ht as [l Hl| |]; subst; now destruct Hl|]. inversion Hc; subst; auto.
    + left. right. exists x. split; [reflexivity|]. exists y, q. auto.
    + right. right. exists x. split; [reflexivity|]. exists y, q. auto.
  - intros [[K|[x [-> [y [q [Hn K]]]]]]|[K|[x [-> [y [q [Hn K]]]]]]].
    + exists (VList [c; a; b]), p. split; [constructor|]. right. exists 1, a. split; [constructor | exact K].
    + exists y, q. split; [now constructor | exact K].
    + exists (VList [c; a; b]), p. split; [constructor|]. right. exists 2, b. split; [constructor | exact K].
    + exists y, q. split; [now apply ni_else | exact K].
Qed.
Lemma cond_items_three c a b p m : cond_items (VList [c; a; b]) p m <->
  (branch_items a (p ++ [PIdx 1])%list m \/ exists x, a = If_of x /\ cond_items x (p ++ [PIdx 1])%list m) \/
  (branch_items b (p ++ [PIdx 2])%list m \/ exists x, b = If_of x /\ cond_items x (p ++ [PIdx 2])%list m).
Proof.
  split.
  - intros [y [q [i [w [Hn [Hc H]]]]]]. inversion Hn as [|c' x b' p' y' q' K|c' a' x p' y' q' K]; subst.
    + inversion Hc; subst; auto.
    + left. right. exists x. split; [reflexivity|]. exists y, q, i, w. auto.
    + right. right. exists x. split; [reflexivity|]. exists y, q, i, w. auto.
  - intros [[K|[x [-> [y [q [i [w [Hn [Hc K]]]]]]]]]|[K|[x [-> [y [q [i [w [Hn [Hc K]]]]]]]]]].
    + exists (VList [c; a; b]), p, 1, a. repeat (split; [constructor|]). exact K.
    + exists y, q, i, w. split; [now constructor|]. auto.
    + exists (VList [c; a; b]), p, 2, b. repeat (split; [constructor|]). exact K.
    + exists y, q, i, w. split; [now apply ni_else|]. auto.
Qed.
Lemma nested_only x p y q : (forall c a b, x <> VList [c; a; b]) -> nested_if x p y q -> y = x /\ q = p.
Proof. intros Hx H. inversion H; subst; [auto | |]; exfalso; eapply Hx; reflexivity. Qed.
Lemma list_condition_spec x : forall p o, list_condition template resource items prop x p = Ok o -> forall m, In m o <-> cond_fault x p m \/ cond_items x p m.
Proof.
  remember (depth x) as n eqn:En. revert x En. induction n as [n IH] using lt_wf_ind. intros x En p o H m. subst n.
  destruct (if_cases x) as [[c [a [b ->]]]|Hx].
  - rewrite list_condition_three in H.
    assert (Hb : forall v q, In v [c; a; b] -> forall x o', v = If_of x -> list_condition template resource items prop x q = Ok o' -> forall m, In m o' <-> cond_fault x q m \/ cond_items x q m).
    { intros v q Hv x o' -> Hx m'. refine (IH (depth x) _ x eq_refl q o' Hx m'). apply Nat.lt_trans with (depth (If_of x)); [apply (depth_member _ "Fn::If"); now left | now apply depth_item]. }
    destruct (list_branch a (p ++ [PIdx 1])%list) as [m1|] eqn:E1; [|discriminate]. cbn [bind] in H.
    destruct (list_branch b (p ++ [PIdx 2])%list) as [m2|] eqn:E2; [|discriminate]. cbn [bind] in H. injection H as <-. rewrite in_app_iff.
    rewrite (branch_under a _ m1 (Hb a _ ltac:(cbn; tauto)) E1 m), (branch_under b _ m2 (Hb b _ ltac:(cbn; tauto)) E2 m).
    rewrite cond_fault_three, cond_items_three. tauto.
  - assert (Hni : ~ cond_items x p m \/ exists s, x = VStr s).
    { destruct x as [|b0|z0|f0|s|l|d]; try solve [right; eauto]; left; intros [y [q [i [w [Hn [Hc _]]]]]]; apply nested_only in Hn as [-> ->]; try exact Hx; inversion Hc; subst; eapply Hx; reflexivity. }
    assert (Hbad : not_three x -> In m [bad_if_match p] <-> cond_fault x p m \/ cond_items x p m).
    { intros Ht. split.
      - intros [<-|[]]. left. exists x, p. split; [constructor | auto].
      - intros [[y [q [Hn K]]]|[y [q [i [w [Hn [Hc K]]]]]]]; apply nested_only in Hn as [-> ->]; try exact Hx.
        + destruct K as [[_ ->]|[i [w [Hc _]]]]; [now left|]. exfalso. inversion Hc; subst; inversion Ht; subst; cbn in *; congruence.
        + exfalso. inversion Hc; subst; inversion Ht; subst; cbn in *; congruence. }
    destruct x as [|b0|z0|f0|s|l|d]; try discriminate.
    + cbn [list_condition] in H. destruct (Nat.eqb (String.length s) 3) eqn:El; injection H as <-.
      * apply Nat.eqb_eq in El. split.
        -- intros K. left. exists (VStr s), p. split; [constructor|]. right. assert (Hf : forall i, branch_fault (VStr (substring i 1 s)) (p ++ [PIdx i])%list (list_at_match resource prop (p ++ [PIdx i])%list)).
           { intros i. split; [reflexivity|]. split; [reflexivity|]. split; [discriminate|]. left. intros; discriminate. }
           destruct K as [<-|[<-|[]]]; [exists 1 | exists 2]; eexists; (split; [constructor; auto | apply Hf]).
        -- intros [[y [q [Hn K]]]|[y [q [i [w [Hn [Hc K]]]]]]]; apply nested_only in Hn as [-> ->]; try exact Hx.
           ++ destruct K as [[Ht _]|[i [w [Hc [-> _]]]]]; [inversion Ht; congruence|]. inversion Hc as [| |s' i' Hl [->| ->]]; subst; [now left | right; now left].
           ++ inversion Hc; subst. destruct K as [l [o [K _]]]. discriminate.
      * apply Nat.eqb_neq in El. apply Hbad. now constructor.
    + assert (E : list_condition template resource items prop (VList l) p = Ok [bad_if_match p]).
      { destruct l as [|c [|a [|b [|? ?]]]]; try reflexivity. destruct (Hx c a b); reflexivity. }
      rewrite E in H. injection H as <-. apply Hbad. constructor. destruct l as [|c [|a [|b [|? ?]]]]; try discriminate. destruct (Hx c a b); reflexivity.
    + cbn [list_condition] in H. destruct (Nat.eqb (List.length d) 3) eqn:El; [discriminate|]. injection H as <-. apply Nat.eqb_neq in El. apply Hbad. now constructor.
Qed.
(** The lists under a condition are all judged. *)
Lemma branch_ran v q o : list_branch v q = Ok o -> forall l, v = VList l -> exists o', items l q = Ok o'.
Proof. intros H l ->. exists o. exact H. Qed.
Lemma list_condition_ran x : forall p o, list_condition template resource items prop x p = Ok o ->
  forall y q i l, nested_if x p y q -> chooses y i (VList l) -> exists o', items l (q ++ [PIdx i])%list = Ok o'.
Proof.
  intros p o H y q i l Hn. revert o H. induction Hn as [x p|c x b p y q Hn IH|c a x p y q Hn IH]; intros o H Hc.
  - inversion Hc; subst; rewrite list_condition_three in H.
    + destruct (list_branch (VList l) (p ++ [PIdx 1])%list) as [m1|] eqn:E1; [|discriminate]. now apply (branch_ran _ _ m1 E1).
    + destruct (list_branch a (p ++ [PIdx 1])%list) as [m1|] eqn:E1; [|discriminate]. cbn [bind] in H. destruct (list_branch (VList l) (p ++ [PIdx 2])%list) as [m2|] eqn:E2; [|discriminate]. now apply (branch_ran _ _ m2 E2).
  - rewrite list_condition_three in H. rewrite list_branch_if in H. destruct (list_condition template resource items prop x (p ++ [PIdx 1])%list) as [m1|] eqn:E1; [|discriminate]. now apply (IH m1).
  - rewrite list_condition_three in H. rewrite list_branch_if in H. destruct (list_branch a (p ++ [PIdx 1])%list) as [m1|]; [|discriminate]. cbn [bind] in H.
    destruct (list_condition template resource items prop x (p ++ [PIdx 2])%list) as [m2|] eqn:E2; [|discriminate]. now apply (IH m2).
Qed.

(** * Values of properties that are lists of objects *)
Lemma object_list_spec x p o : object_list template resource items prop x p = Ok o -> forall m, In m o <->
  (exists q words, list_fault template resource prop x p q words /\ m = mkRM q words) \/ exists l q o', gives_list x p l q /\ items l q = Ok o' /\ In m o'.
Proof.
  intros H m.
  assert (Hno : o = [] -> (forall q words, ~ list_fault template resource prop x p q words) -> (forall l q, ~ gives_list x p l q) ->
    In m o <-> (exists q words, list_fault template resource prop x p q words /\ m = mkRM q words) \/ exists l q o', gives_list x p l q /\ items l q = Ok o' /\ In m o').
  { intros -> K1 K2. split; [intros []|]. intros [[q [words [K _]]]|[l [q [o' [K _]]]]]; [destruct (K1 _ _ K) | destruct (K2 _ _ K)]. }
  assert (Hone : forall m0, o = [m0] -> list_fault template resource prop x p (rm_path m0) (rm_msg m0) -> (forall q words, list_fault template resource prop x p q words -> q = rm_path m0 /\ words = rm_msg m0) -> (forall l q, ~ gives_list x p l q) ->
    In m o <-> (exists q words, list_fault template resource prop x p q words /\ m = mkRM q words) \/ exists l q o', gives_list x p l q /\ items l q = Ok o' /\ In m o').
  { intros m0 -> K1 K2 K3. split.
    - intros [<-|[]]. left. exists (rm_path m0), (rm_msg m0). split; [exact K1 | now destruct m0].
    - intros [[q [words [K ->]]]|[l [q [o' [K _]]]]]; [|destruct (K3 _ _ K)]. destruct (K2 q words K) as [-> ->]. left. now destruct m0. }
  destruct x as [|b0|z0|f0|s|l|d]; try (apply (Hone (list_match resource prop p)); [injection H as <-; reflexivity | now constructor | intros q words K; inversion K; subst; auto | intros l q K; inversion K]).
  - cbn [object_list] in H. split.
    + intros K. right. exists l, p, o. split; [constructor | auto].
    + intros [[q [words [K _]]]|[l' [q [o' [K [K1 K2]]]]]]; [inversion K; discriminate|]. inversion K; subst. congruence.
  - cbn [object_list] in H. destruct d as [|[k x] [|kv d]].
    1,3: (apply (Hone (object_match "List" p)); [injection H as <-; reflexivity | constructor; intros; discriminate | intros q words K; inversion K; subst; auto; discriminate | intros l q K; inversion K]).
    cbn [list_object] in H. rewrite condition_function in H. destruct (String.eqb k "Fn::If") eqn:Ei.
    + apply String.eqb_eq in Ei as ->. pose proof (list_condition_spec _ _ _ H m) as K. rewrite K. split.
      * intros [[y [q [Hn [[Ht ->]|[i [w [Hc [-> [H1 [H2 [H3|[z [n [t [-> [H3 [H4 [H5 H6]]]]]]]]]]]]]]]]]]|[y [q [i [w [Hn [Hc [l [o' [-> [H1 H2]]]]]]]]]]].
        -- left. exists q, ("Invalid !If condition specified at " ++ path_text q). split; [|reflexivity]. eapply lf_arguments; eassumption.
        -- left. eexists _, _. split; [|reflexivity]. eapply lf_branch; eassumption.
        -- left. eexists _, _. split; [|reflexivity]. eapply lf_branch_getatt; eassumption.
        -- right. exists l, (q ++ [PIdx i])%list, o'. split; [eapply gl_branch; eassumption | auto].
      * intros [[q [words [Hf ->]]]|[l [q [o' [Hg [H1 H2]]]]]].
        -- left. inversion Hf as [x' p' A B|d' p' A B|x' n t p' A B C D E|x' p' y q' A B|x' p' y q' i w A B C D E|x' p' y q' i z n t A B C D E F]; subst; try discriminate.
           ++ destruct (A "Fn::If" x eq_refl). cbn; tauto.
           ++ exists y, q. split; [exact A|]. left. auto.
           ++ exists y, q'. split; [exact A|]. right. exists i, w. split; [exact B|]. split; [reflexivity|]. auto.
           ++ exists y, q'. split; [exact A|]. right. exists i, (VDict [("Fn::GetAtt", z)]). split; [exact B|]. split; [reflexivity|]. split; [reflexivity|]. split; [discriminate|]. right. exists z, n, t. auto.
        -- right. inversion Hg as [|x' p' y q' i l' A B]; subst. exists y, q', i, (VList l). split; [exact A|]. split; [exact B|]. exists l, o'. auto.
    + apply String.eqb_neq in Ei. assert (Hg : forall l q, ~ gives_list (VDict [(k, x)]) p l q) by (intros l q K; inversion K; congruence).
      destruct (String.eqb k "Fn::FindInMap") eqn:Ef.
      * apply String.eqb_eq in Ef as ->. apply Hno; [injection H as <-; reflexivity | | exact Hg]. intros q words K. inversion K as [x' p' A B|d' p' A B|x' n t p' A B C D E|x' p' y q' A B|x' p' y q' i w A B C D E|x' p' y q' i z n t A B C D E F]; subst; try discriminate.
        destruct (A "Fn::FindInMap" x eq_refl). cbn; tauto.
      * apply String.eqb_neq in Ef. destruct (String.eqb k "Fn::GetAtt") eqn:Eg.
        -- apply String.eqb_eq in Eg as ->. pose proof (getatt_list_spec _ _ _ _ _ custom_or_generic_texts H m) as K. rewrite K. split.
           ++ intros [-> [n [t [K1 [K2 [K3 K4]]]]]]. left. eexists _, _. split; [|reflexivity]. unfold custom_or_generic in K4.
              destruct (eq_str "AWS::CloudFormation::CustomResource" (VStr t)) eqn:Ec; [discriminate|]. cbn in K4. eapply lf_getatt; try eassumption.
              ** rewrite <- starts_with_iff. congruence.
              ** intros ->. now rewrite (proj2 (eq_str_iff _ _) eq_refl) in Ec.
           ++ intros [[q [words [Hf ->]]]|[l [q [o' [K' _]]]]]; [|destruct (Hg _ _ K')]. inversion Hf as [x' p' A B|d' p' A B|x' n t p' A B C D E|x' p' y q' A B|x' p' y q' i w A B C D E|x' p' y q' i z n t A B C D E F]; subst; try discriminate.
              ** destruct (A "Fn::GetAtt" x eq_refl). cbn; tauto.
              ** split; [reflexivity|]. exists n, t. repeat (split; [assumption|]). unfold custom_or_generic. destruct (eq_str "AWS::CloudFormation::CustomResource" (VStr t)) eqn:Ec; [apply eq_str_iff in Ec; congruence|].
                 cbn. f_equal. apply not_true_iff_false. now rewrite starts_with_iff.
        -- apply String.eqb_neq in Eg. destruct (String.eqb k "Ref" && eq_str "AWS::NoValue" x)%bool eqn:Er.
           ++ apply andb_true_iff in Er as [Ek Ex]. apply String.eqb_eq in Ek as ->. apply eq_str_iff in Ex as ->. apply Hno; [injection H as <-; reflexivity | | exact Hg].
              intros q words K. inversion K; subst; try discriminate. match goal with B : _ <> NoValue |- _ => now destruct B end.
           ++ apply (Hone (object_match "List" p)); [injection H as <-; reflexivity | | | exact Hg].
              ** apply lf_object; [|intros [= -> ->]; discriminate]. intros f z [= -> ->] [K|[K|[K|[]]]]; congruence.
              ** intros q words K. inversion K; subst; try discriminate; try congruence; auto.
Qed.
Lemma object_list_ran x p o : object_list template resource items prop x p = Ok o -> forall l q, gives_list x p l q -> exists o', items l q = Ok o'.
Proof.
  intros H l q Hg. inversion Hg as [l' p'|x' p' y q' i l' A B]; subst; [exists o; exact H|]. eapply list_condition_ran; [exact H | exact A | exact B].
Qed.
End Lists.

(** * Lists of single values *)
Section Values.
Variable intrinsic_types : list (string * list string).
Variable template : val.
Variable resource : string.
Variable names : list string.
Hypothesis Htypes : text_types template.
Hypothesis Hnames : get_parameter_names template = Ok names.
Lemma names_iff s : In s names <-> exists x, parameter_named template s x.
Proof using Hnames.
  clear Htypes. unfold get_parameter_names in Hnames. unfold parameter_named. destruct template as [| | | | | |d]; try discriminate. cbn [vget_def bind] in Hnames.
  destruct (assoc "Parameters" d) as [ps|] eqn:Ep.
  - destruct ps as [|b0|z0|f0|s0|l0|ps].
    1-6: (injection Hnames as <-; split; [intros [] | intros [x [d' [ps' [[= <-] [K _]]]]]; congruence]).
    injection Hnames as <-. rewrite assoc_Some_key. split.
    + intros [x Hx]. exists x, d, ps. auto.
    + intros [x [d' [ps' [[= <-] [K1 K2]]]]]. rewrite Ep in K1. injection K1 as <-. eauto.
  - injection Hnames as <-. split; [intros []|]. intros [x [d' [ps' [[= <-] [K _]]]]]. congruence.
Qed.
Lemma parameter_type_spec s x o t : parameter_named template s x -> x = VDict o -> assoc "Type" o = Some t -> parameter_type template s = Ok t.
Proof using. clear. intros [d [ps [-> [E1 E2]]]] -> E3. unfold parameter_type. cbn [vget_def bind]. rewrite E1. now rewrite E2, E3. Qed.
Lemma parameter_named_unique s x y : parameter_named template s x -> parameter_named template s y -> x = y.
Proof using. clear. intros [d [ps [-> [E1 E2]]]] [d' [ps' [[= <-] [E1' E2']]]]. congruence. Qed.
Lemma list_type_iff t : (contains_text "List<" t || contains_text "<List" t || eq_str "CommaDelimitedList" (VStr t))%bool = true <-> list_type t.
Proof using.
  clear. unfold list_type, mentions. rewrite !orb_true_iff, !contains_iff, eq_str_iff. split.
  - intros [[H|H]|[= ->]]; auto.
  - intros [H|[H| ->]]; auto.
Qed.
Lemma primitive_list_spec prop prim x p o : primitive_list intrinsic_types template resource names prop prim x p = Ok o -> forall m, In m o <->
  exists q words, values_fault intrinsic_types template resource prop prim x p q words /\ m = mkRM q words.
Proof using Htypes Hnames.
  intros H m.
  assert (Hno : o = [] -> (forall q words, ~ values_fault intrinsic_types template resource prop prim x p q words) ->
    In m o <-> exists q words, values_fault intrinsic_types template resource prop prim x p q words /\ m = mkRM q words).
  { intros -> K1. split; [intros []|]. intros [q [words [K _]]]. destruct (K1 _ _ K). }
  assert (Hone : forall m0, o = [m0] -> values_fault intrinsic_types template resource prop prim x p (rm_path m0) (rm_msg m0) ->
    (forall q words, values_fault intrinsic_types template resource prop prim x p q words -> q = rm_path m0 /\ words = rm_msg m0) ->
    In m o <-> exists q words, values_fault intrinsic_types template resource prop prim x p q words /\ m = mkRM q words).
  { intros m0 -> K1 K2. split.
    - intros [<-|[]]. exists (rm_path m0), (rm_msg m0). split; [exact K1 | now destruct m0].
    - intros [q [words [K ->]]]. destruct (K2 q words K) as [-> ->]. left. now destruct m0. }
  destruct x as [|b0|z0|f0|s|l|d]; try (apply (Hone (list_match resource prop p)); [injection H as <-; reflexivity | now constructor | intros q words K; inversion K; subst; auto]).
  - cbn [primitive_list] in H. injection H as <-. rewrite in_flat_map. split.
    + intros [[i y] [Hi Hm]]. apply enum_nth in Hi. cbn [fst snd] in Hm. apply primitive_tree_spec in Hm as [q [words [Hf ->]]]. exists q, words. split; [eapply vsf_item; eassumption | reflexivity].
    + intros [q [words [Hf ->]]]. inversion Hf as [l' i y p' q' words' Hi Hp| | | |]; subst; [|discriminate]. exists (i, y). split; [now apply enum_nth|]. cbn [fst snd]. apply primitive_tree_spec. eauto.
  - cbn [primitive_list] in H. destruct (assoc "Ref" d) as [r|] eqn:Er.
    + unfold ref_list in H. destruct (eq_str "AWS::NotificationARNs" r) eqn:Ea.
      * apply eq_str_iff in Ea as ->. apply Hno; [injection H as <-; reflexivity|]. intros q words K. inversion K; subst; try discriminate; try congruence.
        cbn [assoc] in Er. destruct (String.eqb "Ref" k) eqn:Ek; [apply String.eqb_eq in Ek; congruence | discriminate].
      * assert (Ha : r <> VStr "AWS::NotificationARNs") by (intros ->; now rewrite (proj2 (eq_str_iff _ _) eq_refl) in Ea).
        assert (Hnf : forall k y, d = [(k, y)] -> k = "Ref").
        { intros k y ->. cbn [assoc] in Er. destruct (String.eqb "Ref" k) eqn:Ek; [apply String.eqb_eq in Ek; congruence | discriminate]. }
        destruct (ref_parameter names r) as [s|] eqn:Ep.
        -- unfold ref_parameter in Ep. destruct r as [| | | |s'| |]; try discriminate. destruct (smem s' names) eqn:Es; [|discriminate]. injection Ep as ->.
           apply smem_iff, names_iff in Es as [y Hy]. destruct (Htypes s y Hy) as [o' [t [-> Et]]]. rewrite (parameter_type_spec s _ o' (VStr t) Hy eq_refl Et) in H. cbn [bind] in H.
           assert (Hall : forall q words, values_fault intrinsic_types template resource prop prim (VDict d) p q words -> t <> "" /\ ~ list_type t /\ q = p /\ words = "Property " ++ prop ++ " should be of type List or Parameter should be a list for resource " ++ resource).
           { intros q words K. inversion K as [|x' p' A B|d' r' p' A B C|d' s' o2 t' p' A B C D E F|k x' p' A B]; subst; try discriminate.
             - rewrite Er in A. injection A as <-. destruct (C s _ eq_refl Hy).
             - rewrite Er in A. injection A as <-. pose proof (parameter_named_unique _ _ _ Hy C) as Q'. injection Q' as <-. rewrite Et in D. injection D as <-. auto.
             - destruct A. now apply (Hnf k x'). }
           destruct (truthy (VStr t)) eqn:Ett.
           ++ cbn [py_member bind] in H. destruct (contains_text "List<" t || contains_text "<List" t || eq_str "CommaDelimitedList" (VStr t))%bool eqn:El.
              ** apply Hno; [congruence|]. intros q words K. apply Hall in K as [_ [K _]]. apply K. now apply list_type_iff.
              ** apply (Hone (parameter_match resource prop p)); [congruence | |].
                 --- eapply vsf_parameter; try eassumption; [congruence | intros ->; discriminate | rewrite <- list_type_iff; congruence].
                 --- intros q words K. apply Hall in K as [_ [_ K]]. exact K.
           ++ apply Hno; [injection H as <-; reflexivity|]. intros q words K. apply Hall in K as [K _]. apply K. destruct t; [reflexivity | discriminate].
        -- apply (Hone (list_match resource prop p)); [injection H as <-; reflexivity | |].
           ++ eapply vsf_ref; [exact Er | exact Ha|]. intros s y -> Hy. unfold ref_parameter in Ep. assert (K : smem s names = true) by (apply smem_iff, names_iff; eauto). now rewrite K in Ep.
           ++ intros q words K. inversion K as [|x' p' A B|d' r' p' A B C|d' s' o2 t' p' A B C D E F|k x' p' A B]; subst; try discriminate; auto.
              ** exfalso. rewrite Er in A. injection A as ->. unfold ref_parameter in Ep. assert (K' : smem s' names = true) by (apply smem_iff, names_iff; eauto). now rewrite K' in Ep.
              ** destruct A. now apply (Hnf k x').
    + destruct d as [|[k x] [|kv d]].
      1,3: (apply Hno; [injection H as <-; reflexivity|]; intros q words K; inversion K; subst; try discriminate; congruence).
      unfold function_list in H. assert (Hk : k <> "Ref") by (intros ->; discriminate).
      destruct (assoc k intrinsic_types) as [[|t [|t2 ts]]|] eqn:Ei;
        [apply Hno; [injection H as <-; reflexivity|]; intros q words K; inversion K; subst; try discriminate; congruence | |
         apply Hno; [injection H as <-; reflexivity|]; intros q words K; inversion K; subst; try discriminate; congruence |
         apply Hno; [injection H as <-; reflexivity|]; intros q words K; inversion K; subst; try discriminate; congruence].
      destruct (String.eqb t "Singular") eqn:Et.
      * apply String.eqb_eq in Et as ->. apply (Hone (singular_match resource prop k p)); [injection H as <-; reflexivity | now apply vsf_function |].
        intros q words K. inversion K; subst; try discriminate; try congruence. auto.
      * apply String.eqb_neq in Et. apply Hno; [injection H as <-; reflexivity|]. intros q words K. inversion K; subst; try discriminate; congruence.
Qed.
End Values.

(** * Objects *)
Section Objects.
Variable resource_types property_types : list (string * ospec).
Variable intrinsic_types : list (string * list string).
Variable template : val.
Variable parent resource : string.
Variable names : list string.
Hypothesis Htypes : text_types template.
Hypothesis Hnames : get_parameter_names template = Ok names.
Notation fault := (fault resource_types property_types intrinsic_types template parent resource).
Notation expects := (expects resource_types property_types parent).
Notation described := (described resource_types property_types parent).

Lemma described_iff root t os : spec_at resource_types property_types parent root t = Some os <-> described root t os.
Proof using.
  clear. unfold spec_at, Expected.described. destruct root; [reflexivity|]. unfold property_type_name. destruct (mem_assoc (parent ++ "." ++ t) property_types) eqn:E1.
  - apply mem_assoc_iff in E1. split; [auto|]. intros [H|[H _]]; [exact H | contradiction].
  - assert (Hn : ~ In (parent ++ "." ++ t) (keys property_types)) by (rewrite <- mem_assoc_iff; congruence).
    assert (En : assoc (parent ++ "." ++ t) property_types = None) by now apply assoc_None.
    destruct (mem_assoc t property_types) eqn:E2.
    + split; [auto|]. intros [H|[_ H]]; [congruence | exact H].
    + assert (Hn2 : ~ In t (keys property_types)) by (rewrite <- mem_assoc_iff; congruence). apply assoc_None in Hn2. split; [congruence|]. intros [H|[_ H]]; congruence.
Qed.
Lemma described_unique root t os os' : described root t os -> described root t os' -> os = os'.
Proof using. clear. rewrite <- !described_iff. congruence. Qed.
Lemma exceptions_iff t v : check_exceptions parent t v = true <-> (exists s, v = VStr s) /\ packaged_code parent t.
Proof using.
  clear. unfold check_exceptions. split.
  - destruct (assoc parent templated_exceptions) as [l|] eqn:E; [|discriminate]. rewrite andb_true_iff, smem_iff. intros [H1 H2]. split; [destruct v; try discriminate; eauto|].
    apply assoc_In in E. cbn [templated_exceptions In] in E.
    destruct E as [[= <- <-]|[[= <- <-]|[[= <- <-]|[[= <- <-]|[[= <- <-]|[]]]]]]; destruct H1 as [<-|[]].
    + now apply pkg_api.
    + now apply pkg_function.
    + now apply pkg_layer.
    + now apply pkg_version.
    + now apply pkg_machine.
  - intros [[s ->] Hp]. destruct Hp as [H1 H2|H1 H2|H1 H2|H1 H2|H1 H2]; subst; reflexivity.
Qed.

Section Step.
Variable again : val -> string -> path -> bool -> res (list rulematch).
(** [next b m]: [m] is found at [b]. *)
Definition ran (b : place) (o : list rulematch) : Prop := let '(root, t, v, p) := b in again v t p root = Ok o.
Lemma again_items_spec t root l p o : again_items again t root l p = Ok o -> forall m, In m o <-> exists i x o', nth_error l i = Some x /\ ran (root, t, x, (p ++ [PIdx i])%list) o' /\ In m o'.
Proof using.
  clear. intros H m. unfold again_items in H. rewrite (concat_res_in _ _ _ m H). split.
  - intros [[i x] [o' [H1 [H2 H3]]]]. apply enum_nth in H1. exists i, x, o'. auto.
  - intros [i [x [o' [H1 [H2 H3]]]]]. exists (i, x), o'. split; [now apply enum_nth | auto].
Qed.
Lemma again_items_ran t root l p o : again_items again t root l p = Ok o -> forall i x, nth_error l i = Some x -> exists o', ran (root, t, x, (p ++ [PIdx i])%list) o'.
Proof using.
  clear. intros H i x Hi. unfold again_items in H. apply concat_res_inv in H as [g [Hg _]]. exists (g (i, x)). apply (Hg (i, x)). now apply enum_nth.
Qed.
Lemma typed_items_spec it root l p o : typed_items again it root l p = Ok o -> forall m, In m o <-> exists t i x o', it = Some t /\ nth_error l i = Some x /\ ran (root, t, x, (p ++ [PIdx i])%list) o' /\ In m o'.
Proof using.
  clear. destruct it as [t|]; cbn [typed_items]; intros H m.
  - rewrite (again_items_spec _ _ _ _ _ H m). split; [intros [i [x [o' [H1 H2]]]]; eauto 8 | intros [t' [i [x [o' [[= <-] H1]]]]]; eauto].
  - destruct l; [|discriminate]. injection H as <-. split; [intros [] | intros [t [i [x [o' [K _]]]]]; discriminate].
Qed.
Lemma typed_items_ran it root l p o t : typed_items again it root l p = Ok o -> it = Some t -> forall i x, nth_error l i = Some x -> exists o', ran (root, t, x, (p ++ [PIdx i])%list) o'.
Proof using. clear. intros H ->. now apply again_items_ran with o. Qed.
Lemma condition_values_shift x : forall p q, condition_values x (p ++ q)%list = map (fun rw => ((p ++ fst rw)%list, snd rw)) (condition_values x q).
Proof using.
  clear. induction x as [x IH] using vsize_ind. intros p q. destruct (if_cases x) as [[c [a [b ->]]]|Hx].
  - rewrite !condition_values_if, map_app.
    assert (Hb : forall v i, In v [c; a; b] -> one_branch v ((p ++ q) ++ [PIdx i])%list = map (fun rw => ((p ++ fst rw)%list, snd rw)) (one_branch v (q ++ [PIdx i])%list)).
    { intros v i Hv. rewrite <- app_assoc. destruct v as [| | | | | |[|[k sv] [|? ?]]]; try reflexivity. unfold one_branch. destruct (smem k CONDITION_FUNCTIONS).
      - rewrite <- app_assoc. apply IH. assert (K : vsize sv < vsize (VDict [(k, sv)])) by (cbn; lia). eapply Nat.lt_trans; [exact K|].
        destruct Hv as [->|[->|[->|[]]]]; cbn; lia.
      - destruct (String.eqb k "Ref"); [destruct (eq_str "AWS::NoValue" sv)|]; reflexivity. }
    rewrite (Hb a), (Hb b) by (cbn; tauto). reflexivity.
  - destruct x as [| | | | |l|]; try reflexivity. destruct l as [|c [|a [|b [|? ?]]]]; try reflexivity. destruct (Hx c a b); reflexivity.
Qed.

Lemma is_if_one (d : list (string * val)) prop x : In (prop, x) d -> (smem prop CONDITION_FUNCTIONS && Nat.eqb (List.length d) 1)%bool = true <-> prop = "Fn::If" /\ VDict d = If_of x.
Proof using.
  clear. intros Hin. rewrite condition_function, andb_true_iff, String.eqb_eq, Nat.eqb_eq. unfold If_of. split.
  - intros [-> Hl]. destruct d as [|kv [|? ?]]; try discriminate. destruct Hin as [->|[]]. auto.
  - intros [-> [= ->]]. auto.
Qed.
Lemma selects_iff d : is_function_returning_object d = true <-> selects_from_map (VDict d).
Proof using.
  clear. unfold selects_from_map. split.
  - destruct d as [|[k v] [|? ?]]; try discriminate. cbn [is_function_returning_object]. rewrite andb_true_iff, String.eqb_eq. intros [-> H].
    destruct v as [| | | | |[|i [|m [|? ?]]]|]; try discriminate; [|destruct m as [| | | | | |[|[? ?] [|? ?]]]; discriminate]. destruct m as [| | | | | |[|[lk mm] [|? ?]]]; try discriminate. apply String.eqb_eq in H as ->. eauto.
  - intros [i [m [= ->]]]. reflexivity.
Qed.
Lemma no_value_like_iff (d : list (string * val)) prop x : In (prop, x) d ->
  (Nat.eqb (List.length d) 1 && contains_text prop "Ref" && eq_str "AWS::NoValue" x)%bool = true <-> no_value_like (VDict d).
Proof using.
  clear. intros Hin. rewrite !andb_true_iff, Nat.eqb_eq, contains_iff, eq_str_iff. unfold no_value_like, mentions. split.
  - intros [[Hl H] ->]. destruct d as [|kv [|? ?]]; try discriminate. destruct Hin as [->|[]]. eauto.
  - intros [k [H [= ->]]]. destruct Hin as [[= -> <-]|[]]. auto.
Qed.
(** A property that the specification does not know. *)
Definition if_place (root : bool) (t : string) (x : val) (p : path) (b : place) : Prop :=
  (exists w q, alternative (If_of x) p w q /\ is_dict w = true /\ b = (root, t, w, q)) \/
  (exists l q i y, alternative (If_of x) p (VList l) q /\ nth_error l i = Some y /\ b = (root, t, y, (q ++ [PIdx i])%list)).
Lemma unknown_if os t root x p o : unknown_member again os t root [("Fn::If", x)] "Fn::If" x p = Ok o ->
  (forall m, In m o <-> exists b o', if_place root t x p b /\ ran b o' /\ In m o') /\ forall b, if_place root t x p b -> exists o', ran b o'.
Proof using.
  clear. intros H. unfold unknown_member in H. rewrite (proj2 (is_if_one [("Fn::If", x)] "Fn::If" x (or_introl eq_refl)) (conj eq_refl eq_refl)) in H.
  assert (Hin : forall w q, alternative (If_of x) p w q <-> exists r, In (r, w) (condition_values x []) /\ q = (p ++ [PKey "Fn::If"] ++ r)%list).
  { intros w q. rewrite <- condition_values_spec. rewrite <- (app_nil_r (p ++ [PKey "Fn::If"]))%list. rewrite condition_values_shift, in_map_iff. split.
    - intros [[r w'] [[= <- <-] K]]. exists r. split; [exact K|]. cbn [fst]. now rewrite <- app_assoc.
    - intros [r [K ->]]. exists (r, w). cbn [fst snd]. now rewrite <- app_assoc. }
  split.
  - intros m. rewrite (concat_res_in _ _ _ m H). split.
    + intros [[r w] [o' [H1 [H2 H3]]]]. cbn [fst snd] in H2. destruct w as [|b0|z0|f0|s|l|d]; try (injection H2 as <-; destruct H3).
      * apply (again_items_spec _ _ _ _ _ H2) in H3 as [i [y [o2 [K1 [K2 K3]]]]]. eexists _, o2. split; [|split; [exact K2 | exact K3]]. right. eexists l, _, i, y. split; [|split; [exact K1 | reflexivity]]. apply Hin. eauto.
      * exists (root, t, VDict d, (p ++ [PKey "Fn::If"] ++ r)%list), o'. split; [|auto]. left. eexists _, _. split; [apply Hin; eauto | auto].
    + intros [b [o' [[[w [q [Ha [Hd ->]]]]|[l [q [i [y [Ha [Hi ->]]]]]]] [H2 H3]]]]; apply Hin in Ha as [r [Ha ->]].
      * exists (r, w), o'. split; [exact Ha|]. cbn [fst snd]. destruct w; try discriminate. auto.
      * pose proof H as H'. apply concat_res_inv in H' as [g [Hg _]]. specialize (Hg (r, VList l) Ha). exists (r, VList l), (g (r, VList l)). split; [exact Ha|]. cbn [fst snd] in Hg |- *. split; [exact Hg|].
        apply (again_items_spec _ _ _ _ _ Hg). exists i, y, o'. auto.
  - pose proof H as H'. apply concat_res_inv in H' as [g [Hg _]]. intros b [[w [q [Ha [Hd ->]]]]|[l [q [i [y [Ha [Hi ->]]]]]]]; apply Hin in Ha as [r [Ha ->]].
    + specialize (Hg _ Ha). cbn [fst snd] in Hg. destruct w; try discriminate. eexists. exact Hg.
    + specialize (Hg _ Ha). cbn [fst snd] in Hg. exact (again_items_ran _ _ _ _ _ Hg i y Hi).
Qed.
Lemma unknown_plain os t root d prop x p o : In (prop, x) d -> ~ is_if (VDict d) -> unknown_member again os t root d prop x p = Ok o ->
  forall m, In m o <-> ~ selects_from_map (VDict d) /\ ~ no_value_like (VDict d) /\ os_additional os = false /\ m = invalid_match (p ++ [PKey prop])%list.
Proof using.
  clear. intros Hin Hi H m. unfold unknown_member in H. destruct (smem prop CONDITION_FUNCTIONS && Nat.eqb (List.length d) 1)%bool eqn:E1.
  { apply is_if_one with (x := x) in E1 as [_ E1]; [|exact Hin]. destruct Hi. now exists x. }
  destruct (is_function_returning_object d) eqn:E2.
  { apply selects_iff in E2. injection H as <-. split; [intros [] | intros [K _]; contradiction]. }
  assert (N2 : ~ selects_from_map (VDict d)) by (rewrite <- selects_iff; congruence).
  destruct (Nat.eqb (List.length d) 1 && contains_text prop "Ref" && eq_str "AWS::NoValue" x)%bool eqn:E3.
  { apply no_value_like_iff in E3; [|exact Hin]. injection H as <-. split; [intros [] | intros [_ [K _]]; contradiction]. }
  assert (N3 : ~ no_value_like (VDict d)) by (rewrite <- (no_value_like_iff d prop x Hin); congruence).
  destruct (os_additional os); injection H as <-.
  - split; [intros [] | intros [_ [_ [K _]]]; discriminate].
  - split; [intros [<-|[]]; auto | intros [_ [_ [_ ->]]]; now left].
Qed.
(** A property that it knows. *)
Definition known_place (ms : mspec) (x : val) (p : path) (b : place) : Prop :=
  (exists t, ms_type ms = Some t /\ t <> "List" /\ t <> "Map" /\ b = (false, t, x, p)) \/
  (exists item l q i y, ms_type ms = Some "List" /\ ms_primitive_item ms = None /\ ms_item ms = Some item /\ gives_list x p l q /\ nth_error l i = Some y /\ b = (false, item, y, (q ++ [PIdx i])%list)).
Definition known_fault (ms : mspec) (prop : string) (x : val) (p : path) (m : rulematch) : Prop :=
  exists q words, m = mkRM q words /\
  ((ms_type ms = Some "List" /\ ms_primitive_item ms = None /\ list_fault template resource prop x p q words) \/
   (exists prim, ms_type ms = Some "List" /\ ms_primitive_item ms = Some prim /\ values_fault intrinsic_types template resource prop prim x p q words) \/
   (exists prim, ms_type ms = None /\ ms_primitive ms = Some prim /\ primitive_fault prim x p q words)).
Lemma known_member_spec ms prop x p o : known_member intrinsic_types template resource again names ms prop x p = Ok o ->
  (forall m, In m o <-> known_fault ms prop x p m \/ exists b o', known_place ms x p b /\ ran b o' /\ In m o') /\ forall b, known_place ms x p b -> exists o', ran b o'.
Proof using Htypes Hnames.
  unfold known_member, known_fault, known_place. intros H. destruct (ms_type ms) as [t|] eqn:Et.
  - destruct (String.eqb t "List") eqn:El.
    + apply String.eqb_eq in El as ->. destruct (ms_primitive_item ms) as [prim|] eqn:Ep.
      * split.
        -- intros m. rewrite (primitive_list_spec _ _ _ _ Htypes Hnames _ _ _ _ _ H m). split.
           ++ intros [q [words [Hf ->]]]. left. exists q, words. split; [reflexivity|]. right. left. eauto.
           ++ intros [[q [words [-> [[_ [K _]]|[[prim' [_ [[= <-] K]]]|[prim' [K _]]]]]]]|[b [o' [[[t [[= <-] [K _]]]|[item [l [q [i [y [_ [K _]]]]]]]] _]]]]; try discriminate; [eauto | congruence].
        -- intros b [[t [[= <-] [K _]]]|[item [l [q [i [y [_ [K _]]]]]]]]; [congruence | discriminate].
      * split.
        -- intros m. rewrite (object_list_spec _ _ _ _ _ _ _ H m). split.
           ++ intros [[q [words [Hf ->]]]|[l [q [o' [Hg [H1 H2]]]]]].
              ** left. exists q, words. auto.
              ** apply (typed_items_spec _ _ _ _ _ H1) in H2 as [t [i [y [o2 [K1 [K2 [K3 K4]]]]]]]. right. eexists _, o2. split; [|split; [exact K3 | exact K4]]. right. exists t, l, q, i, y. auto 8.
           ++ intros [[q [words [-> [[_ [_ K]]|[[prim' [_ [K _]]]|[prim' [K _]]]]]]]|[b [o' [[[t [[= <-] [K _]]]|[item [l [q [i [y [_ [_ [K1 [K2 [K3 ->]]]]]]]]]]] [K4 K5]]]]]; try discriminate; [eauto | congruence |].
              right. destruct (object_list_ran _ _ _ _ _ _ _ H l q K2) as [o2 E2]. exists l, q, o2. split; [exact K2|]. split; [exact E2|]. apply (typed_items_spec _ _ _ _ _ E2). eauto 8.
        -- intros b [[t [[= <-] [K _]]]|[item [l [q [i [y [_ [_ [K1 [K2 [K3 ->]]]]]]]]]]]; [congruence|].
           destruct (object_list_ran _ _ _ _ _ _ _ H l q K2) as [o2 E2]. exact (typed_items_ran _ _ _ _ _ _ E2 K1 i y K3).
    + apply String.eqb_neq in El. destruct (String.eqb t "Map") eqn:Em.
      * apply String.eqb_eq in Em as ->. injection H as <-. split.
        -- intros m. split; [intros []|]. intros [[q [words [-> [[K _]|[[prim' [K _]]|[prim' [K _]]]]]]]|[b [o' [[[t [[= <-] [_ [K _]]]]|[item [l [q [i [y [K _]]]]]]] _]]]]; try discriminate; congruence.
        -- intros b [[t [[= <-] [_ [K _]]]]|[item [l [q [i [y [K _]]]]]]]; [congruence | discriminate].
      * apply String.eqb_neq in Em. split.
        -- intros m. split.
           ++ intros K. right. exists (false, t, x, p), o. split; [left; eauto | auto].
           ++ intros [[q [words [-> [[K _]|[[prim' [K _]]|[prim' [K _]]]]]]]|[b [o' [[[t' [[= <-] [_ [_ ->]]]]|[item [l [q [i [y [K _]]]]]]] [K2 K3]]]]]; try congruence; cbn in K2; congruence.
        -- intros b [[t' [[= <-] [_ [_ ->]]]]|[item [l [q [i [y [K _]]]]]]]; [exists o; exact H | congruence].
  - destruct (ms_primitive ms) as [prim|] eqn:Ep; injection H as <-.
    + split.
      * intros m. rewrite primitive_tree_spec. split.
        -- intros [q [words [Hf ->]]]. left. exists q, words. eauto 8.
        -- intros [[q [words [-> [[K _]|[[prim' [K _]]|[prim' [_ [[= <-] K]]]]]]]]|[b [o' [[[t' [K _]]|[item [l [q [i [y [K _]]]]]]] _]]]]; try discriminate. eauto.
      * intros b [[t' [K _]]|[item [l [q [i [y [K _]]]]]]]; discriminate.
    + split.
      * intros m. split; [intros []|]. intros [[q [words [-> [[K _]|[[prim' [K _]]|[prim' [_ [K _]]]]]]]]|[b [o' [[[t' [K _]]|[item [l [q [i [y [K _]]]]]]] _]]]]; discriminate.
      * intros b [[t' [K _]]|[item [l [q [i [y [K _]]]]]]]; discriminate.
Qed.
Lemma object_check_spec v t p root o : object_check resource_types property_types intrinsic_types template parent resource again names v t p root = Ok o ->
  (forall m, In m o <-> (exists q words, fault (root, t, v, p) q words /\ m = mkRM q words) \/ exists b o', expects (root, t, v, p) b /\ ran b o' /\ In m o') /\
  forall b, expects (root, t, v, p) b -> exists o', ran b o'.
Proof using Htypes Hnames.
  unfold object_check. destruct (spec_at resource_types property_types parent root t) as [os|] eqn:Es; [|discriminate]. apply described_iff in Es.
  assert (Hu : forall os', described root t os' -> os' = os) by (intros os' K; exact (described_unique _ _ _ _ K Es)).
  destruct (os_props os) as [|pp pps] eqn:Epp.
  - assert (Hnf : forall q words, ~ fault (root, t, v, p) q words).
    { intros q words K. inversion K; subst; match goal with D : described _ _ _ |- _ => apply Hu in D; subst end; try (rewrite Epp in *; cbn [assoc] in *; congruence). }
    assert (Hex : forall b, expects (root, t, v, p) b <-> exists item l i x, os_type os = Some "List" /\ os_item os = Some item /\ v = VList l /\ nth_error l i = Some x /\ b = (root, item, x, (p ++ [PIdx i])%list)).
    { intros b. split.
      - intros K. inversion K; subst; match goal with D : described _ _ _ |- _ => apply Hu in D; subst end; try (rewrite Epp in *; cbn [assoc] in *; congruence). eauto 10.
      - intros [item [l [i [x [K1 [K2 [-> [K3 ->]]]]]]]]. eapply ex_list; eassumption. }
    destruct (opt_eqb (os_type os) "List") eqn:El.
    + apply opt_eqb_some in El. destruct v as [|b0|z0|f0|s|l|d]; try (intros [= <-]; split; [intros m; split; [intros [] | intros [[q [words [K _]]]|[b [o' [K _]]]]; [destruct (Hnf _ _ K) | apply Hex in K as [item [l [i [x [_ [_ [K _]]]]]]]; discriminate]] |
        intros b K; apply Hex in K as [item [l [i [x [_ [_ [K _]]]]]]]; discriminate]).
      intros H. split.
      * intros m. rewrite (typed_items_spec _ _ _ _ _ H m). split.
        -- intros [item [i [x [o' [K1 [K2 [K3 K4]]]]]]]. right. eexists _, o'. split; [|split; [exact K3 | exact K4]]. apply Hex. exists item, l, i, x. auto.
        -- intros [[q [words [K _]]]|[b [o' [K [K3 K4]]]]]; [destruct (Hnf _ _ K)|]. apply Hex in K as [item [l' [i [x [_ [K1 [[= <-] [K2 ->]]]]]]]]. eauto 8.
      * intros b K. apply Hex in K as [item [l' [i [x [_ [K1 [[= <-] [K2 ->]]]]]]]]. exact (typed_items_ran _ _ _ _ _ _ H K1 i x K2).
    + intros [= <-]. assert (Hnl : os_type os <> Some "List") by (rewrite <- opt_eqb_some; congruence). split.
      * intros m. split; [intros [] | intros [[q [words [K _]]]|[b [o' [K _]]]]; [destruct (Hnf _ _ K) | apply Hex in K as [item [l [i [x [K _]]]]]; contradiction]].
      * intros b K. apply Hex in K as [item [l [i [x [K _]]]]]. contradiction.
  - assert (Hne : os_props os <> []) by (rewrite Epp; discriminate). clear Epp pp pps. destruct (eq_str "AWS::NoValue" v) eqn:Ev.
    { apply eq_str_iff in Ev as ->. intros [= <-]. split.
      - intros m. split; [intros []|]. intros [[q [words [K _]]]|[b [o' [K _]]]]; inversion K; subst. congruence.
      - intros b K. inversion K. }
    assert (Hv : v <> VStr "AWS::NoValue") by (intros ->; discriminate).
    assert (Hflat : is_dict v = false -> o = (if check_exceptions parent t v then [] else [expecting_match p]) ->
      (forall m, In m o <-> (exists q words, fault (root, t, v, p) q words /\ m = mkRM q words) \/ exists b o', expects (root, t, v, p) b /\ ran b o' /\ In m o') /\
      forall b, expects (root, t, v, p) b -> exists o', ran b o').
    { intros Hd Ho. assert (Hx : forall b, ~ expects (root, t, v, p) b).
      { intros b K. inversion K; subst; try discriminate. match goal with D : described _ _ _ |- _ => apply Hu in D; subst end. congruence. }
      split; [|intros b K; destruct (Hx b K)]. intros m. subst o. destruct (check_exceptions parent t v) eqn:Ee.
      - apply exceptions_iff in Ee as [[s ->] Hp]. split; [intros []|]. intros [[q [words [K _]]]|[b [o' [K _]]]]; [|destruct (Hx b K)].
        inversion K as [root' t' os' v' p' A B C D E| | | |]; subst. destruct (E s eq_refl Hp).
      - split.
        + intros [<-|[]]. left. exists p, ("Expecting an object at " ++ path_text p). split; [|reflexivity]. eapply ft_no_object; try eassumption. intros s -> Hp.
          assert (K : check_exceptions parent t (VStr s) = true) by (apply exceptions_iff; eauto). congruence.
        + intros [[q [words [K ->]]]|[b [o' [K _]]]]; [|destruct (Hx b K)]. inversion K; subst; try discriminate. now left. }
    destruct v as [|b0|z0|f0|s|l|d]; try (intros H; apply Hflat; [reflexivity | injection H as <-; reflexivity]). clear Hflat Hv Ev. intros H.
    destruct (is_if_dec (VDict d)) as [[x Ed]|Hni].
    + (* the object is a condition *)
      injection Ed as ->. destruct (assoc "Fn::If" (os_props os)) as [ms|] eqn:Em.
      * cbn [concat_res] in H. unfold member_check in H. cbn [fst snd] in H. rewrite Em in H.
        destruct (known_member _ _ _ _ _ _ _ _ _) as [o1|] eqn:E1; [|discriminate]. cbn [bind] in H. injection H as <-. rewrite app_nil_r.
        destruct (known_member_spec _ _ _ _ _ E1) as [K1 K2]. change (VDict [("Fn::If", x)]) with (If_of x).
        assert (Hf : forall q words, fault (root, t, If_of x, p) q words <-> known_fault ms "Fn::If" x (p ++ [PKey "Fn::If"])%list (mkRM q words)).
        { intros q words. split.
          - intros K. unfold known_fault. inversion K as [|? ? os' ? ? ? ? D A In_ As Ni|? ? os' d' p' prop x' ms' q' words' D In_ As T1 T2 F|? ? os' d' p' prop x' ms' prim q' words' D In_ As T1 T2 F|? ? os' d' p' prop x' ms' prim q' words' D In_ As T1 T2 F]; subst; try discriminate;
              apply Hu in D; subst os'; destruct In_ as [[= <- <-]|[]]; rewrite Em in As; try discriminate; injection As as <-; exists q, words; (split; [reflexivity|]); eauto 8.
          - intros [q' [words' [[= <- <-] [[T1 [T2 F]]|[[prim [T1 [T2 F]]]|[prim [T1 [T2 F]]]]]]]].
            + eapply ft_list; try eassumption. now left.
            + eapply ft_values; try eassumption. now left.
            + eapply ft_value; try eassumption. now left. }
        assert (Hx : forall b, expects (root, t, If_of x, p) b <-> known_place ms x (p ++ [PKey "Fn::If"])%list b).
        { intros b. split.
          - intros K. unfold known_place. inversion K as [|? ? os' d' p' prop ms' t' x' D In_ As T1 T2 T3|? ? os' d' p' prop ms' item x' l q i y D In_ As T1 T2 T3 G Nt|? ? os' x' p' w q D Ne As Al Di|? ? os' x' p' l q i y D Ne As Al Nt]; subst; apply Hu in D; subst os';
              try (rewrite Em in As; discriminate); destruct In_ as [[= <- <-]|[]]; rewrite Em in As; injection As as <-; [left; eauto | right; exists item, l, q, i, y; auto 8].
          - intros [[t' [T1 [T2 [T3 ->]]]]|[item [l [q [i [y [T1 [T2 [T3 [G [Nt ->]]]]]]]]]]].
            + eapply ex_property; try eassumption. now left.
            + eapply ex_item; try eassumption. now left. }
        split.
        -- intros m. rewrite (K1 m). split.
           ++ intros [[q [words [-> F]]]|[b [o' [Hb K]]]]; [left; exists q, words; split; [apply Hf; exists q, words; auto | reflexivity] | right; exists b, o'; split; [now apply Hx | exact K]].
           ++ intros [[q [words [F ->]]]|[b [o' [Hb K]]]]; [left; now apply Hf | right; exists b, o'; split; [now apply Hx | exact K]].
        -- intros b Hb. apply K2. now apply Hx.
      * cbn [concat_res] in H. unfold member_check in H. cbn [fst snd] in H. rewrite Em in H.
        destruct (unknown_member again os t root [("Fn::If", x)] "Fn::If" x p) as [o1|] eqn:E1; [|discriminate]. cbn [bind] in H. injection H as <-. rewrite app_nil_r.
        destruct (unknown_if _ _ _ _ _ _ E1) as [K1 K2]. change (VDict [("Fn::If", x)]) with (If_of x).
        assert (Hf : forall q words, ~ fault (root, t, If_of x, p) q words).
        { intros q words K. inversion K as [|? ? os' ? ? ? ? D A In_ As Ni|? ? os' d' p' prop x' ms' q' words' D In_ As T1 T2 F|? ? os' d' p' prop x' ms' prim q' words' D In_ As T1 T2 F|? ? os' d' p' prop x' ms' prim q' words' D In_ As T1 T2 F]; subst; try discriminate;
            apply Hu in D; subst os'; [destruct Ni; now exists x | | |]; destruct In_ as [[= <- <-]|[]]; rewrite Em in As; discriminate. }
        assert (Hx : forall b, expects (root, t, If_of x, p) b <-> if_place root t x p b).
        { intros b. split.
          - intros K. unfold if_place. inversion K as [|? ? os' d' p' prop ms' t' x' D In_ As T1 T2 T3|? ? os' d' p' prop ms' item x' l q i y D In_ As T1 T2 T3 G Nt|? ? os' x' p' w q D Ne As Al Di|? ? os' x' p' l q i y D Ne As Al Nt]; subst.
            + apply Hu in D; subst os'. destruct In_ as [[= <- <-]|[]]. congruence.
            + apply Hu in D; subst os'. destruct In_ as [[= <- <-]|[]]. congruence.
            + left. eauto.
            + right. exists l, q, i, y. auto.
          - intros [[w [q [Ha [Hd ->]]]]|[l [q [i [y [Ha [Hi ->]]]]]]]; [eapply ex_if; eassumption | eapply ex_if_items; eassumption]. }
        split.
        -- intros m. rewrite (K1 m). split.
           ++ intros [b [o' [Hb K]]]. right. exists b, o'. split; [now apply Hx | exact K].
           ++ intros [[q [words [F _]]]|[b [o' [Hb K]]]]; [destruct (Hf _ _ F) | exists b, o'; split; [now apply Hx | exact K]].
        -- intros b Hb. apply K2. now apply Hx.
    + pose proof H as H'. apply concat_res_inv in H' as [g [Hg _]].
      assert (Hmem : forall prop x, In (prop, x) d -> member_check intrinsic_types template resource again names os t root d p (prop, x) = Ok (g (prop, x))) by (intros; now apply Hg).
      unfold member_check in Hmem. cbn [fst snd] in Hmem.
      assert (Hx : forall b, expects (root, t, VDict d, p) b <-> exists prop x ms, In (prop, x) d /\ assoc prop (os_props os) = Some ms /\ known_place ms x (p ++ [PKey prop])%list b).
      { intros b. split.
        - intros K. unfold known_place. inversion K as [|? ? os' d' p' prop ms' t' x' D In_ As T1 T2 T3|? ? os' d' p' prop ms' item x' l q i y D In_ As T1 T2 T3 G Nt|? ? os' x' p' w q D Ne As Al Di|? ? os' x' p' l q i y D Ne As Al Nt]; subst.
          + apply Hu in D; subst os'. exists prop, x', ms'. split; [exact In_|]. split; [exact As|]. left. eauto.
          + apply Hu in D; subst os'. exists prop, x', ms'. split; [exact In_|]. split; [exact As|]. right. exists item, l, q, i, y. auto 8.
          + destruct Hni. now exists x'.
          + destruct Hni. now exists x'.
        - intros [prop [x [ms [In_ [As [[t' [T1 [T2 [T3 ->]]]]|[item [l [q [i [y [T1 [T2 [T3 [G [Nt ->]]]]]]]]]]]]]]]]; [eapply ex_property; eassumption | eapply ex_item; eassumption]. }
      assert (Hf : forall q words, fault (root, t, VDict d, p) q words <->
        (exists prop x ms, In (prop, x) d /\ assoc prop (os_props os) = Some ms /\ known_fault ms prop x (p ++ [PKey prop])%list (mkRM q words)) \/
        (exists prop x, In (prop, x) d /\ assoc prop (os_props os) = None /\ ~ selects_from_map (VDict d) /\ ~ no_value_like (VDict d) /\ os_additional os = false /\ mkRM q words = invalid_match (p ++ [PKey prop])%list)).
      { intros q words. split.
        - intros K. unfold known_fault. inversion K as [|? ? os' d' p' prop x' D A In_ As Ni Ns Nv Ad|? ? os' d' p' prop x' ms' q' words' D In_ As T1 T2 F|? ? os' d' p' prop x' ms' prim q' words' D In_ As T1 T2 F|? ? os' d' p' prop x' ms' prim q' words' D In_ As T1 T2 F]; subst; try discriminate;
            apply Hu in D; subst os'; [right; exists prop, x'; auto 8 | | |]; left; exists prop, x', ms'; (split; [exact In_|]); (split; [exact As|]); exists q, words; (split; [reflexivity|]); eauto 8.
        - intros [[prop [x [ms [In_ [As [q' [words' [[= <- <-] [[T1 [T2 F]]|[[prim [T1 [T2 F]]]|[prim [T1 [T2 F]]]]]]]]]]]]]|[prop [x [In_ [As [Ns [Nv [Ad [= -> ->]]]]]]]]].
          + eapply ft_list; eassumption.
          + eapply ft_values; eassumption.
          + eapply ft_value; eassumption.
          + eapply ft_unknown; eassumption. }
      split.
      * intros m. rewrite (concat_res_in _ _ _ m H). split.
        -- intros [[prop x] [o' [Hin [Ho Hm]]]]. rewrite (Hg (prop, x) Hin) in Ho. injection Ho as <-. specialize (Hmem prop x Hin). destruct (assoc prop (os_props os)) as [ms|] eqn:Em.
           ++ destruct (known_member_spec _ _ _ _ _ Hmem) as [K1 _]. apply K1 in Hm as [Hm|[b [o' [Hb K]]]].
              ** left. destruct Hm as [q [words [-> F]]]. exists q, words. split; [|reflexivity]. apply Hf. left. exists prop, x, ms. split; [exact Hin|]. split; [exact Em|]. exists q, words. auto.
              ** right. exists b, o'. split; [|exact K]. apply Hx. eauto 8.
           ++ apply (unknown_plain _ _ _ _ _ _ _ _ Hin Hni Hmem) in Hm as [Ns [Nv [Ad ->]]]. left. eexists _, _. split; [|reflexivity]. apply Hf. right. exists prop, x. auto 8.
        -- intros [[q [words [F ->]]]|[b [o' [Hb K]]]].
           ++ apply Hf in F as [[prop [x [ms [Hin [Em F]]]]]|[prop [x [Hin [Em [Ns [Nv [Ad ->]]]]]]]]; exists (prop, x), (g (prop, x)); (split; [exact Hin|]); (split; [now apply Hg|]); specialize (Hmem prop x Hin); rewrite Em in Hmem.
              ** apply (proj1 (known_member_spec _ _ _ _ _ Hmem)). now left.
              ** apply (unknown_plain _ _ _ _ _ _ _ _ Hin Hni Hmem). auto.
           ++ apply Hx in Hb as [prop [x [ms [Hin [Em Hb]]]]]. exists (prop, x), (g (prop, x)). split; [exact Hin|]. split; [now apply Hg|]. specialize (Hmem prop x Hin). rewrite Em in Hmem.
              apply (proj1 (known_member_spec _ _ _ _ _ Hmem)). right. eauto.
      * intros b Hb. apply Hx in Hb as [prop [x [ms [Hin [Em Hb]]]]]. specialize (Hmem prop x Hin). rewrite Em in Hmem. exact (proj2 (known_member_spec _ _ _ _ _ Hmem) b Hb).
Qed.
End Step.

(** * The recursion *)
Notation tree := (property_tree resource_types property_types intrinsic_types template parent resource).
Lemma property_tree_spec fuel : forall v t p root o, tree fuel names v t p root = Ok o ->
  forall m, In m o <-> exists b q words, reaches resource_types property_types parent (root, t, v, p) b /\ fault b q words /\ m = mkRM q words.
Proof using Htypes Hnames.
  induction fuel as [|f IH]; intros v t p root o H m; [discriminate|]. cbn [property_tree] in H.
  destruct (object_check_spec _ _ _ _ _ _ H) as [K1 K2]. rewrite (K1 m). split.
  - intros [[q [words [F ->]]]|[[[[root' t'] v'] p'] [o' [He [Hr Hm]]]]].
    + exists (root, t, v, p), q, words. split; [constructor | auto].
    + cbn [ran] in Hr. apply (IH _ _ _ _ _ Hr) in Hm as [b [q [words [R [F ->]]]]]. exists b, q, words. split; [eapply re_step; eassumption | auto].
  - intros [b [q [words [R [F ->]]]]]. inversion R as [a|a c b' He R']; subst.
    + left. eauto.
    + right. destruct (K2 _ He) as [o' Hr]. exists c, o'. split; [exact He|]. split; [exact Hr|]. destruct c as [[[root' t'] v'] p']. cbn [ran] in Hr. apply (IH _ _ _ _ _ Hr). exists b, q, words. auto.
Qed.

(** * Nothing is raised *)
Lemma inside_trans a b c : inside a b -> inside b c -> inside a c.
Proof using. clear. intros H. revert c. induction H; intros c' Hc; [exact Hc | eapply in_item; eauto | eapply in_member; eauto]. Qed.
Lemma inside_depth a b : inside a b -> depth b <= depth a.
Proof using.
  clear. induction 1 as [|l x w Hx _ IH|d k x w Hx _ IH]; [lia | apply depth_item in Hx; lia | apply depth_member in Hx; lia].
Qed.
Lemma inside_item l i x : nth_error l i = Some x -> inside (VList l) x.
Proof using. clear. intros H. eapply in_item; [eapply nth_error_In; exact H | constructor]. Qed.
Lemma inside_if x : inside (If_of x) x.
Proof using. clear. eapply in_member; [now left | constructor]. Qed.
Lemma inside_alternative v p w q : alternative v p w q -> inside v w.
Proof using.
  clear. induction 1 as [c a b p w q H IH|c a b p w q H IH|]; [| |constructor]; (eapply inside_trans; [|exact IH]); (eapply inside_trans; [apply inside_if|]); (eapply in_item; [|apply in_here]; cbn; tauto).
Qed.
Lemma inside_nested x p y q : nested_if x p y q -> inside x y.
Proof using.
  clear. induction 1 as [|c x b p y q H IH|c a x p y q H IH]; [constructor| |]; (eapply inside_trans; [|exact IH]); (eapply in_item with (x := If_of x); [cbn; tauto | apply inside_if]).
Qed.
Lemma inside_gives x p l q : gives_list x p l q -> inside x (VList l).
Proof using.
  clear. intros H. destruct H as [|x p y q i l Hn Hc]; [constructor|]. eapply inside_trans; [apply inside_if|]. eapply inside_trans; [eapply inside_nested; exact Hn|].
  inversion Hc; subst; (eapply in_item; [|apply in_here]; cbn; tauto).
Qed.
Lemma judgeable_inside v w : judgeable template v -> inside v w -> judgeable template w.
Proof using. clear. intros [H1 H2] Hi. split; intros x Hx; [apply H1 | apply H2]; eapply inside_trans; eassumption. Qed.
Lemma getatt_total accepted m x : (forall s, exists b, accepted (VStr s) = Ok b) -> (exists n t, owner x n /\ resource_type template n t) -> exists o, getatt_list template accepted m x = Ok o.
Proof using.
  clear. intros Ha [n [t [Ho Ht]]]. unfold getatt_list. assert (E : getatt_owner x = Ok (Some (VStr n))).
  { destruct x as [| | | |s|l|]; try solve [inversion Ho]; [|inversion Ho; reflexivity]. apply owner_text in Ho as [rest E]. cbn [getatt_owner]. now rewrite E. }
  rewrite E. cbn [bind]. destruct (truthy (VStr n)); [|eauto]. apply resource_type_text in Ht. rewrite Ht. cbn [bind]. destruct (Ha t) as [b ->]. cbn [bind]. eauto.
Qed.
Lemma starts_custom_total s : exists b, starts_custom (VStr s) = Ok b.
Proof using. clear. cbn. eauto. Qed.
Lemma custom_or_generic_total s : exists b, custom_or_generic (VStr s) = Ok b.
Proof using. clear. unfold custom_or_generic. destruct (eq_str _ _); [eauto | apply starts_custom_total]. Qed.
Lemma list_condition_total items prop x : (forall l q, inside x (VList l) -> exists o, items l q = Ok o) -> judgeable template (If_of x) ->
  forall p, exists o, list_condition template resource items prop x p = Ok o.
Proof using.
  clear. induction x as [x IH] using vsize_ind. intros Hi Hj p. destruct (proj1 Hj x (in_here _)) as [l ->]. destruct (if_cases (VList l)) as [[c [a [b E]]]|Hx].
  - injection E as ->. rewrite list_condition_three.
    assert (Hb : forall v q, In v [c; a; b] -> exists o, list_branch template resource items prop v q = Ok o).
    { intros v q Hv. assert (Hin : inside (VList [c; a; b]) v) by (eapply in_item; [exact Hv | constructor]). destruct (is_if_dec v) as [[y ->]|Hni].
      - rewrite list_branch_if. apply IH.
        + assert (K : vsize y < vsize (If_of y)) by (cbn; lia). eapply Nat.lt_trans; [exact K|]. destruct Hv as [->|[->|[->|[]]]]; cbn; lia.
        + intros l q' Hl. apply Hi. eapply inside_trans; [exact Hin|]. eapply inside_trans; [apply inside_if | exact Hl].
        + eapply judgeable_inside; [exact Hj|]. eapply inside_trans; [apply inside_if | exact Hin].
      - destruct v as [|b0|z0|f0|s|l|[|[k z] [|? ?]]]; try (cbn; eauto; fail).
        + cbn [list_branch]. destruct (String.eqb k "Ref" && eq_str "AWS::NoValue" z)%bool; [eauto|]. destruct (String.eqb k "Fn::GetAtt") eqn:Eg.
          * apply String.eqb_eq in Eg as ->. apply getatt_total; [apply starts_custom_total|]. apply (proj2 Hj). eapply inside_trans; [apply inside_if | exact Hin].
          * destruct (String.eqb k "Fn::If") eqn:Ei; [|eauto]. apply String.eqb_eq in Ei as ->. destruct Hni. now exists z. }
    destruct (Hb a (p ++ [PIdx 1])%list) as [o1 ->]; [cbn; tauto|]. destruct (Hb b (p ++ [PIdx 2])%list) as [o2 ->]; [cbn; tauto|]. cbn [bind]. eauto.
  - destruct l as [|c [|a [|b [|? ?]]]]; try (cbn; eauto; fail). destruct (Hx c a b); reflexivity.
Qed.
Lemma object_list_total items prop x p : (forall l q, inside x (VList l) -> exists o, items l q = Ok o) -> judgeable template x ->
  exists o, object_list template resource items prop x p = Ok o.
Proof using.
  clear. intros Hi Hj. destruct x as [|b0|z0|f0|s|l|d]; try (cbn; eauto; fail).
  - apply Hi. constructor.
  - cbn [object_list]. destruct d as [|[k x] [|? ?]]; try (cbn; eauto; fail). cbn [list_object]. rewrite condition_function. destruct (String.eqb k "Fn::If") eqn:Ei.
    + apply String.eqb_eq in Ei as ->. apply list_condition_total; [|exact Hj]. intros l q Hl. apply Hi. eapply inside_trans; [apply inside_if | exact Hl].
    + destruct (String.eqb k "Fn::FindInMap"); [eauto|]. destruct (String.eqb k "Fn::GetAtt") eqn:Eg.
      * apply String.eqb_eq in Eg as ->. apply getatt_total; [apply custom_or_generic_total|]. apply (proj2 Hj). constructor.
      * destruct (String.eqb k "Ref" && eq_str "AWS::NoValue" x)%bool; eauto.
Qed.
Lemma primitive_list_total prop prim x p : exists o, primitive_list intrinsic_types template resource names prop prim x p = Ok o.
Proof using Htypes Hnames.
  destruct x as [|b0|z0|f0|s|l|d]; try (cbn; eauto; fail). cbn [primitive_list]. destruct (assoc "Ref" d) as [r|] eqn:Er; [|destruct d as [|[k x] [|? ?]]; eauto].
  unfold ref_list. destruct (eq_str _ r); [eauto|]. destruct (ref_parameter names r) as [s|] eqn:Ep; [|eauto].
  unfold ref_parameter in Ep. destruct r as [| | | |s'| |]; try discriminate. destruct (smem s' names) eqn:Es; [|discriminate]. injection Ep as ->.
  apply smem_iff in Es. apply (names_iff _ _ Hnames) in Es as [y Hy]. destruct (Htypes s y Hy) as [o' [t [-> Et]]]. rewrite (parameter_type_spec _ s _ o' (VStr t) Hy eq_refl Et). cbn [bind].
  destruct (truthy (VStr t)); [|eauto]. cbn [py_member bind]. eauto.
Qed.
Hypothesis Hcomplete : complete resource_types property_types parent.
Lemma property_tree_total fuel : forall v t p root, depth v < fuel -> judgeable template v -> used resource_types property_types parent root t -> (exists os, described root t os) -> exists o, tree fuel names v t p root = Ok o.
Proof using Htypes Hnames Hcomplete.
  induction fuel as [|f IH]; intros v t p root Hd Hj Hus [os Hos]; [lia|]. cbn [property_tree]. unfold object_check. destruct (Hcomplete root t os Hus Hos) as [C1 [C2 C3]].
  pose proof Hos as Es. apply described_iff in Es. rewrite Es.
  assert (Hitems : forall t' root' l q, used resource_types property_types parent root' t' -> (exists os', described root' t' os') -> depth (VList l) <= depth v -> inside v (VList l) -> exists o, again_items (tree f names) t' root' l q = Ok o).
  { intros t' root' l q Hus' Hos' Hl Hin. unfold again_items. apply concat_res_total. intros [i x] Hx. apply enum_nth in Hx. cbn [fst snd]. apply IH; [|eapply judgeable_inside; [exact Hj|]|exact Hus'|exact Hos'].
    - assert (K : depth x < depth (VList l)) by (apply depth_item; eapply nth_error_In; exact Hx). lia.
    - eapply inside_trans; [exact Hin | eapply inside_item; exact Hx]. }
  destruct (os_props os) as [|pp pps] eqn:Epp.
  - destruct (opt_eqb (os_type os) "List") eqn:El; [|eauto]. apply opt_eqb_some in El. destruct v as [|b0|z0|f0|s|l|d]; eauto.
    destruct (os_item os) as [item|] eqn:Ei; [|now destruct (C3 eq_refl El)]. cbn [typed_items]. destruct root.
    + apply Hitems; [constructor | exists os; exact Hos | lia | constructor].
    + apply Hitems; [eapply us_mentioned; [exact Hus | exact Hos | now apply mt_list] | apply C1; now apply mt_list | lia | constructor].
  - rewrite <- Epp in *. clear C3. destruct (eq_str "AWS::NoValue" v); [eauto|]. destruct v as [|b0|z0|f0|s|l|d]; eauto. apply concat_res_total. intros [prop x] Hin. unfold member_check. cbn [fst snd].
    assert (Hx : inside (VDict d) x) by (eapply in_member; [exact Hin | constructor]). assert (Hdx : depth x < depth (VDict d)) by (eapply depth_member; exact Hin).
    destruct (assoc prop (os_props os)) as [ms|] eqn:Em.
    + unfold known_member. destruct (ms_type ms) as [t'|] eqn:Et; [|destruct (ms_primitive ms); eauto]. destruct (String.eqb t' "List") eqn:El.
      * apply String.eqb_eq in El as ->. destruct (ms_primitive_item ms) eqn:Ep; [apply primitive_list_total|]. destruct (ms_item ms) as [item|] eqn:Ei; [|destruct (C2 prop ms Em Et Ep Ei)].
        apply object_list_total; [|eapply judgeable_inside; eassumption]. intros l q Hl. cbn [typed_items]. apply Hitems; [eapply us_mentioned; [exact Hus | exact Hos | eapply mt_item; eassumption] | apply C1; eapply mt_item; eassumption | | eapply inside_trans; eassumption].
        apply inside_depth in Hl. lia.
      * apply String.eqb_neq in El. destruct (String.eqb t' "Map") eqn:Emap; [eauto|]. apply String.eqb_neq in Emap. apply IH; [lia | eapply judgeable_inside; eassumption | eapply us_mentioned; [exact Hus | exact Hos | eapply mt_property; eassumption] | apply C1; eapply mt_property; eassumption].
    + unfold unknown_member. destruct (smem prop CONDITION_FUNCTIONS && Nat.eqb (List.length d) 1)%bool eqn:E1.
      * apply (is_if_one d prop x Hin) in E1 as [-> Ed]. injection Ed as ->. apply concat_res_total. intros [r w] Hr. cbn [fst snd].
        assert (Ha : inside (If_of x) w /\ w <> If_of x).
        { assert (K : exists q, alternative (If_of x) [] w q).
          { exists ([PKey "Fn::If"] ++ r)%list. apply condition_values_spec. change ([] ++ [PKey "Fn::If"])%list with ([PKey "Fn::If"] ++ [])%list. rewrite condition_values_shift. apply in_map_iff. now exists (r, w). }
          destruct K as [q K]. split; [eapply inside_alternative; exact K|]. apply alternative_leaf in K as [K _]. intros ->. apply K. now exists x. }
        destruct Ha as [Ha Hne]. assert (Hdw : depth w < depth (If_of x)).
        { inversion Ha as [v'|l' y w' Hy Hw|d' k y w' Hy Hw]; subst; [congruence|]. destruct Hy as [[= <- <-]|[]]. apply inside_depth in Hw. assert (K : depth x < depth (If_of x)) by (eapply depth_member; now left). lia. }
        unfold If_of in Hdw. destruct w as [|b0|z0|f0|s|l|d]; eauto.
        -- apply Hitems; [exact Hus | eauto | lia | exact Ha].
        -- apply IH; [lia | eapply judgeable_inside; eassumption | exact Hus | eauto].
      * destruct (is_function_returning_object d); [eauto|]. destruct (Nat.eqb (List.length d) 1 && contains_text prop "Ref" && eq_str "AWS::NoValue" x)%bool; [eauto|]. destruct (os_additional os); eauto.
Qed.
End Objects.

(** * The rule *)
Section Rule.
Variable resource_types property_types : list (string * ospec).
Variable intrinsic_types : list (string * list string).
Variable template : val.
Lemma judged_iff rt rt' : checked_type resource_types rt = rt' <-> judged_as resource_types rt rt'.
Proof.
  unfold checked_type, judged_as. destruct (starts_with "Custom::" rt) eqn:E1; [destruct (mem_assoc rt resource_types) eqn:E2|]; cbn [andb negb].
  - apply starts_with_iff in E1. apply mem_assoc_iff in E2. split; [intros <-; auto|]. intros [[-> _]|[_ [_ K]]]; [reflexivity | contradiction].
  - apply starts_with_iff in E1. assert (E3 : ~ In rt (keys resource_types)) by (rewrite <- mem_assoc_iff; congruence). split; [intros <-; auto|]. intros [[-> K]|[-> _]]; [|reflexivity]. destruct (E3 (K E1)).
  - assert (E3 : ~ begins "Custom::" rt) by (rewrite <- starts_with_iff; congruence). split; [intros <-; left; split; [reflexivity | contradiction]|]. intros [[-> _]|[_ [K _]]]; [reflexivity | contradiction].
Qed.
Lemma c65_expected ms : wf template -> text_types template -> properties_match resource_types property_types intrinsic_types template = Ok ms ->
  forall m, In m ms <-> exists name rt props b q words, described_resource resource_types template name rt props /\
    reaches resource_types property_types rt (true, "", props, [PKey "Resources"; PKey name; PKey "Properties"]) b /\
    fault resource_types property_types intrinsic_types template rt name b q words /\ m = mkRM q words.
Proof.
  intros Hw Ht H m. unfold properties_match in H. destruct (get_parameter_names template) as [names|] eqn:En; [|discriminate]. cbn [bind] in H. rewrite (concat_res_in _ _ _ m H). split.
  - intros [[name x] [o [Hin [Ho Hm]]]]. apply in_get_resources in Hin as [at_ [t [-> [Hd [Et _]]]]]; [|exact Hw]. unfold resource_tree in Ho. cbn [fst snd dict_of] in Ho. rewrite Et in Ho.
    destruct (assoc "Properties" at_) as [props|] eqn:Ep; [|injection Ho as <-; destruct Hm]. destruct t as [| | | |rt| |]; try discriminate.
    destruct (mem_assoc (checked_type resource_types rt) resource_types) eqn:Em; [|injection Ho as <-; destruct Hm]. apply mem_assoc_iff in Em.
    apply (property_tree_spec _ _ _ _ _ _ _ Ht En _ _ _ _ _ _ Ho) in Hm as [b [q [words [R [F ->]]]]]. exists name, (checked_type resource_types rt), props, b, q, words.
    split; [|auto]. exists at_, rt. repeat (split; [assumption|]). split; [now apply judged_iff | exact Em].
  - intros [name [rt [props [b [q [words [[at_ [rt' [Hd [Et [Ep [Hj Hk]]]]]] [R [F ->]]]]]]]]]. assert (Hin : In (name, VDict at_) (get_resources template)).
    { apply in_get_resources; [exact Hw|]. exists at_, (VStr rt'). split; [reflexivity|]. split; [exact Hd|]. split; [exact Et | discriminate]. }
    pose proof H as H'. apply concat_res_inv in H' as [g [Hg _]]. specialize (Hg _ Hin). exists (name, VDict at_), (g (name, VDict at_)). split; [exact Hin|]. split; [exact Hg|].
    unfold resource_tree in Hg. cbn [fst snd dict_of] in Hg. rewrite Et, Ep in Hg. apply judged_iff in Hj. rewrite Hj in Hg. rewrite (proj2 (mem_assoc_iff rt resource_types) Hk) in Hg.
    apply (property_tree_spec _ _ _ _ _ _ _ Ht En _ _ _ _ _ _ Hg). exists b, q, words. auto.
Qed.
Lemma c65_total : wf template -> plain_sections template -> text_types template -> (forall parent, In parent (keys resource_types) -> complete resource_types property_types parent) ->
  (forall name rt props, described_resource resource_types template name rt props -> judgeable template props) ->
  exists ms, properties_match resource_types property_types intrinsic_types template = Ok ms.
Proof.
  intros Hw Hp Ht Hc Hj. unfold properties_match. assert (En : exists names, get_parameter_names template = Ok names).
  { destruct Hp as [d [-> _]]. unfold get_parameter_names. cbn [vget_def bind]. eauto. }
  destruct En as [names En]. rewrite En. cbn [bind]. apply concat_res_total. intros [name x] Hin. apply in_get_resources in Hin as [at_ [t [-> [Hd [Et _]]]]]; [|exact Hw].
  unfold resource_tree. cbn [fst snd dict_of]. rewrite Et. destruct (assoc "Properties" at_) as [props|] eqn:Ep; [|eauto].
  destruct (plain_type template name at_ t Hp Hd Et) as [rt ->]. destruct (mem_assoc (checked_type resource_types rt) resource_types) eqn:Em; [|eauto]. apply mem_assoc_iff in Em.
  apply property_tree_total; [exact Ht | exact En | now apply Hc | lia | | constructor |].
  - apply (Hj name (checked_type resource_types rt)). exists at_, rt. repeat (split; [assumption|]). split; [now apply judged_iff | exact Em].
  - apply assoc_Some_key in Em as [os Eos]. exists os. exact Eos.
Qed.
End Rule.
