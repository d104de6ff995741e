(** C82: E3039 reports exactly the tables whose keys use other attributes than they define. *)
From Coq Require Import List Permutation Sorting.Sorted.
From Verif.Model Require Import Base Node Locate Helpers Conditions Search Resolve Rules Relationship Config PropertyRules DynamoDb.
From Verif.Spec Require Import Paths Branches Required Walk Truth Resolved Groups Files Tables.
From Verif.Proofs Require Import BaseFacts SearchProofs BranchProofs PropertyRuleProofs ResolveProofs SetProofs GroupProofs Says FilesProofs ScenarioRule.
Import Verif.Model.Rules.
Import ListNotations.
Local Open Scope string_scope.

(** * Sets of names *)
Lemma sequence_unique P l l' : in_sequence P l -> in_sequence P l' -> l = l'.
Proof.
  intros [N [S M]] [N' [S' M']]. assert (H : forall n, In n l <-> In n l') by (intros n; rewrite M, M'; reflexivity). clear P M M'. revert l' N' S' H.
  induction S as [|x l S IH F]; intros l' N' S' H.
  - destruct l' as [|y l']; [reflexivity|]. destruct (proj2 (H y)); now left.
  - destruct l' as [|y l']; [destruct (proj1 (H x)); now left|]. inversion S' as [|? ? S1 F1]; subst. inversion N as [|? ? N1 N2]; subst. inversion N' as [|? ? N3 N4]; subst.
    rewrite Forall_forall in F, F1.
    assert (x = y) as <-. { destruct (proj1 (H x) (or_introl eq_refl)) as [<-|Hx]; [reflexivity|]. destruct (proj2 (H y) (or_introl eq_refl)) as [E|Hy]; [exact E|].
      apply str_leb_antisym; apply leb_iff; auto. }
    f_equal. apply IH; auto. intros n. split; intros Hn.
    + destruct (proj1 (H n) (or_intror Hn)) as [<-|K]; [contradiction | exact K].
    + destruct (proj2 (H n) (or_intror Hn)) as [<-|K]; [contradiction | exact K].
Qed.
Lemma sorted_set_spec l (P : string -> Prop) : (forall n, In n l <-> P n) -> in_sequence P (sorted_set l).
Proof.
  intros H. unfold sorted_set. split; [|split].
  - apply (Permutation_NoDup (Permutation_sym (sort_perm _))). apply NoDup_nodup.
  - apply sort_sorted.
  - intros n. rewrite <- H, <- (nodup_In string_dec l). split; apply Permutation_in; [apply sort_perm | apply Permutation_sym, sort_perm].
Qed.
Lemma same_set_iff a b : same_set a b = true <-> forall n, In n a <-> In n b.
Proof.
  unfold same_set. rewrite andb_true_iff, !forallb_forall. split.
  - intros [H1 H2] n. split; intros K; apply smem_iff; auto.
  - intros H. split; intros x K; apply smem_iff; now apply H.
Qed.
Lemma same_sorted a b : same_set a b = true <-> sorted_set a = sorted_set b.
Proof.
  rewrite same_set_iff. split.
  - intros H. apply (sequence_unique (fun n => In n a)); [now apply sorted_set_spec|]. apply sorted_set_spec. intros n. now rewrite H.
  - intros E n. destruct (sorted_set_spec a (fun n => In n a)) as [_ [_ H1]]; [reflexivity|]. destruct (sorted_set_spec b (fun n => In n b)) as [_ [_ H2]]; [reflexivity|]. rewrite <- H1, E. apply H2.
Qed.

(** * Lists behind Fn::If *)
Lemma branch_shift v p w q : branch v p w q -> forall p', exists q', branch v p' w q'.
Proof.
  induction 1 as [c a b p w q H IH|c a b p w q H IH|v w p Hi Hn Hs]; intros p'.
  - destruct (IH (p' ++ [PKey "Fn::If"; PIdx 1])%list) as [q' K]. exists q'. now apply br_then.
  - destruct (IH (p' ++ [PKey "Fn::If"; PIdx 2])%list) as [q' K]. exists q'. now apply br_else.
  - exists p'. now apply br_leaf.
Qed.
Lemma can_be_at x l p : can_be x l <-> exists q, branch x p (VList l) q.
Proof. split; [intros [p' [q H]]; now apply (branch_shift _ _ _ _ H) | intros [q H]; now exists p, q]. Qed.
(** What the loops over the lists of a property say. *)
Lemma lists_says (f : val -> res (list string)) d key p (P : val -> string -> Prop) :
  (forall x l y, assoc key d = Some x -> can_be x l -> In y l -> says (f y) (P y)) ->
  says (do sets <- get_safe d key (VList []) p (Some is_list); concat_res (fun wq => concat_res f (items_of_list (fst wq))) sets)
    (fun n => exists x l y, assoc key d = Some x /\ can_be x l /\ In y l /\ P y n).
Proof.
  intros H. destruct (assoc key d) as [x|] eqn:E.
  - assert (G : get_safe d key (VList []) p (Some is_list) = Ok (filter (fun vp => is_list (fst vp)) (branches x (p ++ [PKey key])%list))).
    { unfold get_safe. rewrite E. cbn [is_null is_list negb]. rewrite !andb_false_r. destruct x; reflexivity. }
    rewrite G.
    cbn [bind]. eapply says_ext; [apply says_concat with (P := fun wq n => exists l y, fst wq = VList l /\ In y l /\ P y n)|].
    + intros [w q] Hi. apply filter_In in Hi as [Hi Hl]. apply branches_spec in Hi. cbn [fst] in *. destruct w as [| | | | |l|]; try discriminate Hl. cbn [items_of_list].
      eapply says_ext; [apply says_concat with (P := P); intros y Hy; apply (H x l y eq_refl); [exists (p ++ [PKey key])%list, q; exact Hi | exact Hy]|]. intros n. split.
      * intros [y K]. exists l, y. tauto.
      * intros [l' [y [[= <-] K]]]. eauto.
    + intros n. cbv beta. split.
      * intros [[w q] [Hi [l [y [Ew K]]]]]. cbn [fst] in Ew. subst w. apply filter_In in Hi as [Hi _]. apply branches_spec in Hi. exists x, l, y. split; [reflexivity|]. split; [now exists (p ++ [PKey key])%list, q | exact K].
      * intros [x' [l [y [[= <-] [Hc K]]]]]. apply (can_be_at _ _ (p ++ [PKey key])%list) in Hc as [q Hq]. exists (VList l, q). split; [|exists l, y; tauto]. apply filter_In. split; [now apply branches_spec | reflexivity].
  - unfold get_safe. rewrite E. cbn. eapply says_ext; [apply says_none|]. intros n. split; [intros [] | intros [x [l [y [[=] _]]]]].
Qed.
Lemma key_says k : (exists kd, k = VDict kd /\ forall y s p q, assoc "AttributeName" kd = Some y -> branch y p (VStr s) q -> y = VStr s) -> says (key_name k) (names_attribute k).
Proof.
  intros [kd [-> Hk]]. unfold key_name. destruct (assoc "AttributeName" kd) as [y|] eqn:E.
  - assert (Hd : y = VNull \/ y <> VNull) by (destruct y; auto; right; discriminate). destruct Hd as [->|Hy].
    + unfold get_safe. rewrite E. cbn. eapply says_ext; [apply says_none|]. intros n. split; [intros [] | intros [d [[= <-] K]]; congruence].
    + destruct (get_safe_spec kd "AttributeName" y [] is_str E Hy) as [l [_ [Hl ->]]]. cbn [bind].
      destruct (filter (fun wq => is_str (fst wq)) l) as [|[w q] r] eqn:Ef.
      * eapply says_ext; [apply says_none|]. intros n. split; [intros [] | intros [d [[= <-] K]]]. rewrite E in K. injection K as ->.
        assert (Hi : In (VStr n, [PKey "AttributeName"]) (filter (fun wq : val * path => is_str (fst wq)) l)).
        { apply filter_In. split; [|reflexivity]. apply Hl. apply br_leaf; [intros [z [=]] | discriminate | now apply st_other]. }
        rewrite Ef in Hi. destruct Hi.
      * assert (Hi : In (w, q) (filter (fun wq => is_str (fst wq)) l)) by (rewrite Ef; now left). apply filter_In in Hi as [Hi Hw]. cbn [fst] in Hw. destruct w as [| | | |s| |]; try discriminate Hw.
        apply Hl in Hi. pose proof (Hk y s _ _ eq_refl Hi) as ->. eapply says_ext; [apply says_one|]. intros n. split; [intros ->; exists kd; auto | intros [d [[= <-] K]]; congruence].
  - unfold get_safe. rewrite E. cbn. eapply says_ext; [apply says_none|]. intros n. split; [intros [] | intros [d [[= <-] K]]; congruence].
Qed.
Lemma schema_says d : keys_shaped d -> says (schema_names (VDict d)) (keyed_by d).
Proof.
  intros H. unfold schema_names. eapply says_ext; [apply (lists_says key_name d "KeySchema" [] names_attribute)|].
  - intros x l k Hx Hc Hk. apply key_says. exact (H x l k Hx Hc Hk).
  - intros n. reflexivity.
Qed.
Lemma index_says d key p : (forall x l y, assoc key d = Some x -> can_be x l -> In y l -> exists i, y = VDict i /\ keys_shaped i) ->
  says (index_names d key p) (fun n => exists x l i, assoc key d = Some x /\ can_be x l /\ In (VDict i) l /\ keyed_by i n).
Proof.
  intros H. unfold index_names. eapply says_ext; [apply (lists_says schema_names d key p (fun y n => exists i, y = VDict i /\ keyed_by i n))|].
  - intros x l y Hx Hc Hy. destruct (H x l y Hx Hc Hy) as [i [-> Hi]]. eapply says_ext; [apply (schema_says i Hi)|]. intros n. split; [eauto | intros [i' [[= <-] K]]; exact K].
  - intros n. cbv beta. split; [intros [x [l [y [H1 [H2 [H3 [i [-> K]]]]]]]] | intros [x [l [i [H1 [H2 [H3 K]]]]]]]; [exists x, l, i; auto | exists x, l, (VDict i); eauto 6].
Qed.
Lemma names_unique v n n' : names_attribute v n -> names_attribute v n' -> n = n'.
Proof. intros [d [-> H]] [d' [[= <-] H']]. congruence. Qed.
Lemma defined_says l : (forall y, In y l -> exists e, y = VDict e) ->
  (exists ns, defined_names l = Ok (Some ns) /\ (forall x, In x l -> exists n, names_attribute x n) /\ forall n, In n ns <-> exists x, In x l /\ names_attribute x n) \/
  (defined_names l = Ok None /\ ~ forall x, In x l -> exists n, names_attribute x n).
Proof.
  induction l as [|x l IH]; intros H.
  - left. exists []. split; [reflexivity|]. split; [intros x [] | intros n; split; [intros [] | intros [x [[] _]]]].
  - destruct (H x (or_introl eq_refl)) as [e ->]. cbn [defined_names vget bind]. destruct (assoc "AttributeName" e) as [v|] eqn:E.
    + assert (Hv : (exists s, v = VStr s) \/ forall s, v <> VStr s) by (destruct v; eauto; right; discriminate). destruct Hv as [[s ->]|Hv].
      * destruct IH as [[ns [-> [H1 H2]]]|[-> H1]]; [intros y Hy; apply H; now right| |].
        -- left. cbn [bind]. eexists. split; [reflexivity|]. split; [intros y [<-|Hy]; [exists s, e; auto | now apply H1]|]. intros n. cbn [In]. rewrite H2. split.
           ++ intros [<-|[y [K1 K2]]]; [exists (VDict e); split; [now left | exists e; auto] | exists y; auto].
           ++ intros [y [[<-|K1] K2]]; [left; destruct K2 as [e' [[= <-] K]]; congruence | right; exists y; auto].
        -- right. cbn [bind]. split; [reflexivity|]. intros K. apply H1. intros y Hy. apply K. now right.
      * right. split; [destruct v; try reflexivity; now elim (Hv s)|]. intros K. destruct (K (VDict e) (or_introl eq_refl)) as [n [e' [[= <-] K']]]. elim (Hv n). congruence.
    + right. split; [reflexivity|]. intros K. destruct (K (VDict e) (or_introl eq_refl)) as [n [e' [[= <-] K']]]. congruence.
Qed.

Section Show.
Variable show_names : list string -> string.
Definition table_said (p : path) (sc : option scenario) (a : list string * list string) : rulematch :=
  mkRM p ("The set of Attributes in AttributeDefinitions: " ++ show_names (fst a) ++ " and KeySchemas: " ++ show_names (snd a) ++ " must match at " ++ path_text p).
Lemma table_says p sc d : table_shaped d -> says (table_set show_names p (sc, VDict d)) (fun m => exists a, table_fault d a /\ m = table_said p sc a).
Proof.
  intros [H1 [H2 H3]]. unfold table_set. cbn [snd].
  assert (Hdef : exists l, each_definition (match assoc "AttributeDefinitions" d with Some v => v | None => VList [] end) = Ok l /\ (forall y, In y l -> exists e, y = VDict e) /\
    (forall x, In x l <-> exists l', assoc "AttributeDefinitions" d = Some (VList l') /\ In x l')).
  { destruct (assoc "AttributeDefinitions" d) as [v|]; [destruct (H1 v eq_refl) as [l [-> Hl]]; exists l | exists []].
    - split; [reflexivity|]. split; [exact Hl|]. intros x. split; [eauto | intros [l' [[= <-] K]]; exact K].
    - split; [reflexivity|]. split; [intros y []|]. intros x. split; [intros [] | intros [l' [[=] _]]]. }
  destruct Hdef as [l [-> [Hl Hin]]]. cbn [bind].
  assert (Hall : (forall x, In x l -> exists n, names_attribute x n) <-> (forall l x, assoc "AttributeDefinitions" d = Some (VList l) -> In x l -> exists n, names_attribute x n)).
  { split; [intros K l' x E K'; apply K, Hin; eauto | intros K x Hx; apply Hin in Hx as [l' [E K']]; eauto]. }
  destruct (defined_says l Hl) as [[ns [-> [Hn Hns]]]|[-> Hn]]; cbn [bind].
  2:{ eapply says_ext; [apply says_none|]. intros m. split; [intros [] | intros [a [[K _] _]]; apply Hn; now apply Hall]. }
  assert (Ha : forall n, In n ns <-> defines d n).
  { intros n. rewrite Hns. unfold defines. split; [intros [x [K1 K2]]; apply Hin in K1 as [l' [E K]]; eauto 6 | intros [l' [x [E [K1 K2]]]]; exists x; split; [apply Hin; eauto | exact K2]]. }
  destruct (schema_says d H2) as [a [-> Ka]]. destruct (index_says d "GlobalSecondaryIndexes" p) as [b [-> Kb]]; [intros x l' y; apply (H3 "GlobalSecondaryIndexes"); now left|].
  destruct (index_says d "LocalSecondaryIndexes" p) as [c [-> Kc]]; [intros x l' y; apply (H3 "LocalSecondaryIndexes"); now right|]. cbn [bind].
  assert (Hk : forall n, In n (a ++ b ++ c)%list <-> uses_attribute d n).
  { intros n. rewrite !in_app_iff, Ka, Kb, Kc. unfold uses_attribute, index_of. split.
    - intros [K|[[x [l' [i [K1 [K2 [K3 K4]]]]]]|[x [l' [i [K1 [K2 [K3 K4]]]]]]]]; [now left | |]; right; exists i; (split; [|exact K4]); [exists "GlobalSecondaryIndexes" | exists "LocalSecondaryIndexes"]; exists x, l'; auto.
    - intros [K|[i [[key [x [l' [[->| ->] [K1 [K2 K3]]]]]] K4]]]; [now left | right; left | right; right]; exists x, l', i; auto. }
  pose proof (sorted_set_spec ns _ Ha) as Sa. pose proof (sorted_set_spec (a ++ b ++ c)%list _ Hk) as Sk.
  eexists. split; [reflexivity|]. intros m. destruct (same_set ns (a ++ b ++ c)%list) eqn:Es.
  - apply same_sorted in Es. split; [intros []|]. intros [[A K] [[_ [K1 [K2 K3]]] _]]. cbn [fst snd] in *. elim K3. rewrite (sequence_unique _ _ _ K1 Sa), (sequence_unique _ _ _ K2 Sk). exact Es.
  - split.
    + intros [<-|[]]. exists (sorted_set ns, sorted_set (a ++ b ++ c)%list). split; [|reflexivity]. split; [now apply Hall|]. cbn [fst snd]. split; [exact Sa|]. split; [exact Sk|]. intros E. apply same_sorted in E. congruence.
    + intros [[A K] [[_ [K1 [K2 K3]]] ->]]. left. unfold table_said. cbn [fst snd] in *. now rewrite (sequence_unique _ _ _ K1 Sa), (sequence_unique _ _ _ K2 Sk).
Qed.
Lemma table_part_if : ~ In "Fn::If" table_part.
Proof. cbn. intuition discriminate. Qed.
Lemma keyed_ext d e : assoc "KeySchema" d = assoc "KeySchema" e -> forall n, keyed_by d n <-> keyed_by e n.
Proof. intros H n. unfold keyed_by. now rewrite H. Qed.
Lemma index_ext d e : assoc "GlobalSecondaryIndexes" d = assoc "GlobalSecondaryIndexes" e -> assoc "LocalSecondaryIndexes" d = assoc "LocalSecondaryIndexes" e -> forall i, index_of d i -> index_of e i.
Proof. intros H1 H2 i [key [x [l [[->| ->] [K1 K2]]]]]; [exists "GlobalSecondaryIndexes" | exists "LocalSecondaryIndexes"]; exists x, l; rewrite <- ?H1, <- ?H2; auto. Qed.
Lemma part_eqs (d e : list (string * val)) : (forall k, in_part table_part k -> assoc k d = assoc k e) ->
  assoc "AttributeDefinitions" d = assoc "AttributeDefinitions" e /\ assoc "KeySchema" d = assoc "KeySchema" e /\
  assoc "GlobalSecondaryIndexes" d = assoc "GlobalSecondaryIndexes" e /\ assoc "LocalSecondaryIndexes" d = assoc "LocalSecondaryIndexes" e.
Proof. intros H. repeat split; apply H; right; cbn; auto. Qed.
Lemma table_ext d e : (forall k, in_part table_part k -> assoc k d = assoc k e) -> forall a, table_fault d a -> table_fault e a.
Proof.
  intros H a [F1 [F2 [F3 F4]]]. destruct (part_eqs d e H) as [E1 [E2 [E3 E4]]]. split; [intros l x; rewrite <- E1; apply F1|]. split; [|split; [|exact F4]].
  - destruct F2 as [N [S M]]. split; [exact N|]. split; [exact S|]. intros n. rewrite M. unfold defines. now rewrite E1.
  - destruct F3 as [N [S M]]. split; [exact N|]. split; [exact S|]. intros n. rewrite M. unfold uses_attribute. rewrite (keyed_ext d e E2). split; (intros [K|[i [K1 K2]]]; [now left | right; exists i; split; [|exact K2]]); [now apply (index_ext d e) | now apply (index_ext e d)].
Qed.
Lemma table_shape_ext d e : (forall k, in_part table_part k -> assoc k d = assoc k e) -> table_shaped d -> table_shaped e.
Proof.
  intros H [S1 [S2 S3]]. destruct (part_eqs d e H) as [E1 [E2 [E3 E4]]]. split; [intros x; rewrite <- E1; apply S1|]. split; [intros x l k; rewrite <- E2; apply S2|].
  intros key x l y Hk Hx. apply (S3 key x l y Hk). destruct Hk as [->| ->]; congruence.
Qed.
Lemma table_none a : ~ table_fault [] a.
Proof.
  intros [_ [[_ [_ K1]] [[_ [_ K2]] K]]]. apply K. destruct (fst a) as [|x l]; [destruct (snd a) as [|y r]; [reflexivity|]|].
  - destruct (proj1 (K2 y) (or_introl eq_refl)) as [[? [? [? [[=] _]]]]|[i [[? [? [? [_ [[=] _]]]]] _]]].
  - destruct (proj1 (K1 x) (or_introl eq_refl)) as [? [? [[=] _]]].
Qed.
Lemma c82_table order c d p : (forall l, Permutation (order l) l) -> plain_object d -> VDict d <> no_value -> (forall n, ~ group_looks_at d table_part n) -> table_shaped d ->
  exists ms, table_match show_names order c (VDict d) p = Ok ms /\
    forall m, In m ms <-> exists defined used, table_fault d (defined, used) /\
      m = mkRM p ("The set of Attributes in AttributeDefinitions: " ++ show_names defined ++ " and KeySchemas: " ++ show_names used ++ " must match at " ++ path_text p).
Proof.
  intros Ho Hd Hnv Hn Hs.
  destruct (scen_plain table_part table_part_if (table_set show_names p) table_fault table_shaped (table_said p) (table_says p) order Ho c d) as [ms [E H]]; auto.
  { intros n K. apply part_group in K; [exact (Hn n K) | discriminate]. }
  exists ms. split; [exact E|]. intros m. rewrite H. split; [intros [[a b] K]; exists a, b; exact K | intros [a [b K]]; exists (a, b); exact K].
Qed.
Lemma c82_table_conditional order hash template defs parameters d names w0 b0 p :
  (forall v, digest (hash v)) -> (forall l, Permutation (order l) l) ->
  section_of "Conditions" template defs -> section_of "Parameters" template parameters ->
  NoDup (keys defs) -> (forall n v, In (n, v) defs -> well_formed defs v) ->
  NoDup (keys parameters) -> (forall n p, In (n, p) parameters -> plain_parameter p) -> told_apart hash parameters ->
  plain_object d -> NoDup names -> names <> [] -> (forall n, In n names <-> group_looks_at d table_part n) -> (forall n, In n names -> In n (keys defs)) ->
  (List.length names <= 4 \/ some_related defs names) -> deployment hash parameters w0 -> gives defs w0 names b0 ->
  (forall b d', deployed b d d' -> table_shaped d') ->
  exists limit, forall fuel, limit <= fuel ->
  exists ms, table_match show_names order (load hash fuel template) (VDict d) p = Ok ms /\
    (forall w b d' defined used, deployment hash parameters w -> gives defs w names b -> deployed b d d' -> table_fault d' (defined, used) ->
       In (mkRM p ("The set of Attributes in AttributeDefinitions: " ++ show_names defined ++ " and KeySchemas: " ++ show_names used ++ " must match at " ++ path_text p)) ms) /\
    (forall m, In m ms -> exists b defined used, (forall d', deployed b d d' -> table_fault d' (defined, used)) /\
       m = mkRM p ("The set of Attributes in AttributeDefinitions: " ++ show_names defined ++ " and KeySchemas: " ++ show_names used ++ " must match at " ++ path_text p) /\
       ((some_related defs names \/ forall n, In n names -> exists w, deployment hash parameters w /\ gives defs w [n] b) ->
        exists w, deployment hash parameters w /\ gives defs w names b)).
Proof.
  intros Hh Ho Hc Hp Hcn Hcw Hpan Hpp Hta Hd Hnd Hne Hn Hdef Hsz Hw0 Hg0 Hsh.
  destruct (scen_both table_part table_part_if (table_set show_names p) table_fault table_shaped (table_said p) table_ext table_shape_ext table_none (table_says p) order Ho
    hash template defs parameters d names w0 b0) as [limit H]; auto.
  { intros n. rewrite part_group by discriminate. apply Hn. }
  exists limit. intros fuel Hf. destruct (H fuel Hf) as [ms [E [H1 H2]]]. exists ms. split; [exact E|]. split.
  - intros w b d' a u K1 K2 K3 K4. destruct (H1 w b d' (a, u) K1 K2 K3 K4) as [sc [_ K]]. exact K.
  - intros m Hm. destruct (H2 m Hm) as [b [sc [[a u] [_ [K1 [K2 K3]]]]]]. exists b, a, u. auto.
Qed.
Lemma c82_table_run hash order fuel sp k c raw name attrs pd m0 d0 defined used :
  (forall l, Permutation (order l) l) ->
  snd (coll_run sp k c) = Ok raw -> In (table_rule show_names hash order fuel) (k_all k) -> enabled (k_set k) (table_rule show_names hash order fuel) = true ->
  wf (template c) -> c_tmpl c = MDict m0 d0 -> resource_of (template c) name "AWS::DynamoDB::Table" attrs -> assoc "Properties" attrs = Some (VDict pd) ->
  plain_object pd -> VDict pd <> no_value -> (forall n, ~ group_looks_at pd table_part n) -> table_shaped pd ->
  table_fault pd (defined, used) ->
  exists f, locate_match c "E3039" (mkRM (props_path name) ("The set of Attributes in AttributeDefinitions: " ++ show_names defined ++ " and KeySchemas: " ++ show_names used ++ " must match at " ++ path_text (props_path name))) = Ok f /\ In f raw.
Proof.
  intros Ho Hrun Hr He Hw Hc Hres Hp Hd Hnv Hn Hs Hf. destruct (c82_table order (load hash fuel (template c)) pd (props_path name) Ho Hd Hnv Hn Hs) as [ms [E Hms]].
  refine (reported_props sp k c raw _ _ name _ attrs pd ms _ m0 d0 Hrun Hr He eq_refl _ Hc Hres Hp E _ _).
  - now left.
  - intros m Hm. apply Hms in Hm as [a [u [_ ->]]]. cbn [rm_path]. split; [discriminate|]. exists (VDict pd). exact (resource_at c name _ attrs pd Hw Hres Hp).
  - apply Hms. exists defined, used. auto.
Qed.
End Show.
