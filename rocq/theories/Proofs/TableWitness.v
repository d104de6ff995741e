(** C82: samples and deviations. *)
From Coq Require Import List Permutation Sorting.Sorted.
From Verif.Model Require Import Base Locate Helpers Node Conditions Search Resolve Rules Relationship PropertyRules DynamoDb.
From Verif.Spec Require Import Paths Branches References Required Walk Values Truth Resolved Groups Files Tables.
From Verif.Proofs Require Import BaseFacts WfDecide BranchProofs ConditionWitness Samples PropertyWitness GroupWitness PropertyRuleProofs IamWitness SubPropsWitness SetProofs GroupProofs FilesProofs TableProofs.
Import Verif.Model.Rules.
Import ListNotations.
Local Open Scope string_scope.

Definition table_type : string := "AWS::DynamoDB::Table".
Definition listed_names (l : list string) : string := "[" ++ join_str ", " l ++ "]".
Definition named (n : val) : val := VDict [("AttributeName", n)].
Definition table_run (pd : list (string * val)) : res (list string) :=
  rmap (map f_msg) (snd (coll_run sample_sp (mkColl [table_rule listed_names toy_hash (fun l => l) 9] default_settings) (cfn_of (with_resource table_type pd)))).
Definition sample_table : list (string * val) :=
  [("AttributeDefinitions", VList [named (VStr "b"); named (VStr "a")]); ("KeySchema", VList [named (VStr "a")]);
   ("GlobalSecondaryIndexes", VList [VDict [("KeySchema", VList [named (VStr "c"); named (VStr "a")])]])].
Lemma list_can_be l l' : can_be (VList l) l' -> l' = l.
Proof. intros [p [q H]]. apply branches_spec in H. destruct H as [[= <- _]|[]]. reflexivity. Qed.
Lemma can_be_list l : can_be (VList l) l.
Proof. exists [], []. apply branches_spec. now left. Qed.
Lemma named_texts s : exists kd, named (VStr s) = VDict kd /\ forall y t p q, assoc "AttributeName" kd = Some y -> branch y p (VStr t) q -> y = VStr t.
Proof. eexists. split; [reflexivity|]. intros y t p q [= <-] H. apply branches_spec in H. destruct H as [[= <- _]|[]]. reflexivity. Qed.
Lemma schema_of_texts d ns : assoc "KeySchema" d = Some (VList (map (fun n => named (VStr n)) ns)) -> keys_shaped d /\ forall n, keyed_by d n <-> In n ns.
Proof.
  intros E. split.
  - intros x l k Hx Hc Hk. rewrite E in Hx. injection Hx as <-. apply list_can_be in Hc as ->. apply in_map_iff in Hk as [n [<- _]]. apply named_texts.
  - intros n. split.
    + intros [x [l [k [Hx [Hc [Hk Hn]]]]]]. rewrite E in Hx. injection Hx as <-. apply list_can_be in Hc as ->. apply in_map_iff in Hk as [s [<- Hs]]. destruct Hn as [e [[= <-] [= <-]]]. exact Hs.
    + intros H. do 3 eexists. split; [exact E|]. split; [apply can_be_list|]. split; [apply in_map_iff; exists n; split; [reflexivity | exact H]|]. eexists. split; reflexivity.
Qed.
Lemma no_schema d : assoc "KeySchema" d = None -> keys_shaped d /\ forall n, ~ keyed_by d n.
Proof. intros E. split; [intros x l k Hx; congruence | intros n [x [l [k [Hx _]]]]; congruence]. Qed.
Lemma seq_two a b (P : string -> Prop) : a <> b -> text_le a b -> (forall n, P n <-> n = a \/ n = b) -> in_sequence P [a; b].
Proof.
  intros Hn Hl H. split; [|split].
  - constructor; [intros [E|[]]; congruence|]. constructor; [intros [] | constructor].
  - constructor; [constructor; [constructor | constructor] | constructor; [exact Hl | constructor]].
  - intros n. rewrite H. cbn. intuition.
Qed.
Lemma table_example : let t := with_resource table_type sample_table in
  wf (template (cfn_of t)) /\ plain_object sample_table /\ VDict sample_table <> no_value /\ (forall n, ~ group_looks_at sample_table table_part n) /\ table_shaped sample_table /\
  table_fault sample_table (["a"; "b"], ["a"; "c"]) /\
  table_run sample_table = Ok ["The set of Attributes in AttributeDefinitions: [a, b] and KeySchemas: [a, c] must match at Resources/R/Properties"] /\
  table_run [("AttributeDefinitions", VList [named (VStr "b"); named (VStr "a")]); ("KeySchema", VList [named (VStr "a")]); ("LocalSecondaryIndexes", VList [VDict [("KeySchema", VList [named (VStr "b")])]])] = Ok [].
Proof.
  cbv zeta.
  destruct (schema_of_texts sample_table ["a"] eq_refl) as [S1 S2].
  destruct (schema_of_texts [("KeySchema", VList [named (VStr "c"); named (VStr "a")])] ["c"; "a"] eq_refl) as [S3 S4].
  assert (HI : forall i, index_of sample_table i <-> i = [("KeySchema", VList [named (VStr "c"); named (VStr "a")])]).
  { intros i. split.
    - intros [key [x [l [[->| ->] [[= <-] [Hc Hi]]]]]]. apply list_can_be in Hc as ->. destruct Hi as [[= <-]|[]]. reflexivity.
    - intros ->. exists "GlobalSecondaryIndexes". do 2 eexists. split; [now left|]. split; [reflexivity|]. split; [apply can_be_list | now left]. }
  split; [apply wfb_sound; reflexivity|]. split; [|split; [discriminate | split; [|split; [|split; [|split]]]]].
  - split; [apply nodupb_sound; reflexivity|]. split; [discriminate|]. intros k x [[= <- <-]|[[= <- <-]|[[= <- <-]|[]]]]; apply pi_list; intros y [<-|Hy]; try (apply pi_object; discriminate); destruct Hy as [<-|[]] || destruct Hy; apply pi_object; discriminate.
  - intros n [k [x [Hi [_ H]]]]. destruct Hi as [[= <- <-]|[[= <- <-]|[[= <- <-]|[]]]]; inversion H as [| | |l y m Hy K]; subst; destruct Hy as [<-|Hy]; try (inversion K); destruct Hy as [<-|[]] || destruct Hy; inversion K.
  - split; [|split].
    + intros x [= <-]. eexists. split; [reflexivity|]. intros y [<-|[<-|[]]]; eexists; reflexivity.
    + exact S1.
    + intros key x l y Hk Hx Hc Hy. destruct Hk as [->| ->]; [|discriminate Hx]. injection Hx as <-. apply list_can_be in Hc as ->. destruct Hy as [<-|[]]. eexists. split; [reflexivity | exact S3].
  - split; [|split; [|split]].
    + intros l x [= <-] [<-|[<-|[]]]; eexists; eexists; split; reflexivity.
    + apply seq_two; [discriminate | apply leb_iff; reflexivity|]. intros n. split.
      * intros [l [x [[= <-] [[<-|[<-|[]]] [e [[= <-] [= <-]]]]]]]; auto.
      * intros [->| ->]; do 2 eexists; (split; [reflexivity|]); [split; [right; now left|] | split; [now left|]]; eexists; split; reflexivity.
    + apply seq_two; [discriminate | apply leb_iff; reflexivity|]. intros n. split.
      * intros [K|[i [K1 K2]]]; [apply S2 in K as [<-|[]]; auto|]. apply HI in K1 as ->. apply S4 in K2 as [<-|[<-|[]]]; auto.
      * intros [->| ->]; [left; apply S2; now left | right]. eexists. split; [now apply HI|]. apply S4. now left.
    + discriminate.
  - vm_compute. reflexivity.
  - vm_compute. reflexivity.
Qed.
Definition table_messages (d : list (string * val)) : res (list string) :=
  rmap (map rm_msg) (table_match listed_names (fun l => l) (load toy_hash 9 env) (VDict d) (props_path "R")).
Definition indexed_by (definitions keys : list val) : list (string * val) :=
  [("AttributeDefinitions", VList definitions); ("GlobalSecondaryIndexes", VList [VDict [("KeySchema", VList keys)]])].
(** A conditional key of a table is decided, and both deployments are judged. *)
Definition keyed_table (k : val) : list (string * val) := [("AttributeDefinitions", VList [named (VStr "a")]); ("KeySchema", VList [k])].
Definition conditional_table : list (string * val) := keyed_table (if_ "IsProd" (named (VStr "b")) (named (VStr "a"))).
Lemma named_resolved f s o : resolved f (named (VStr s)) o -> o = Some (named (VStr s)).
Proof. intros H. inversion H; subst; reflexivity. Qed.
Lemma one_resolved f x y l : resolved f x (Some y) -> (forall o, resolved f x o -> o = Some y) -> resolved_items f [x] l -> l = [y].
Proof. intros _ H K. inversion K as [|? ? ? ? K1 K2|? ? ? K1 K2]; subst; [inversion K2; subst; apply H in K1; now injection K1 as -> | apply H in K1; discriminate K1]. Qed.
Lemma choice_resolved (b : string -> bool) o : resolved (fun n => Some (b n)) (if_ "IsProd" (named (VStr "b")) (named (VStr "a"))) o -> o = Some (named (VStr (if b "IsProd" then "b" else "a"))).
Proof.
  intros H. inversion H as [? ? ? ? E R|? ? ? ? E R|? ? ? E| | | | | | |? N1 N2|]; subst; [| |discriminate E|now elim (N1 (VList [VStr "IsProd"; named (VStr "b"); named (VStr "a")]))]; injection E as E; rewrite E; now apply named_resolved in R.
Qed.
Lemma named_is f s : resolved f (named (VStr s)) (Some (named (VStr s))).
Proof. apply r_object; discriminate. Qed.
Lemma choice_is (b : string -> bool) : resolved (fun n => Some (b n)) (if_ "IsProd" (named (VStr "b")) (named (VStr "a"))) (Some (named (VStr (if b "IsProd" then "b" else "a")))).
Proof. destruct (b "IsProd") eqn:E; [apply r_then | apply r_else]; rewrite ?E; auto using named_is. Qed.
Lemma list_resolved f l o : resolved f (VList l) o -> exists l', o = Some (VList l') /\ resolved_items f l l'.
Proof. intros H. inversion H; subst. eauto. Qed.
Lemma conditional_deployed b d' : deployed b conditional_table d' -> d' = keyed_table (named (VStr (if b "IsProd" then "b" else "a"))).
Proof.
  intros H. inversion H as [|? ? y ? e H1 H2|? ? ? e H1 H2]; subst; apply list_resolved in H1 as [l1 [E1 H1]]; [|discriminate E1]. injection E1 as ->.
  inversion H2 as [|? ? z ? e' H3 H4|? ? ? e' H3 H4]; subst; apply list_resolved in H3 as [l2 [E2 H3]]; [|discriminate E2]. injection E2 as ->. inversion H4; subst.
  apply (one_resolved _ _ _ _ (named_is _ _) (fun o => named_resolved _ _ o)) in H1 as ->. apply (one_resolved _ _ _ _ (choice_is b) (choice_resolved b)) in H3 as ->. reflexivity.
Qed.
Lemma keyed_table_shaped s : table_shaped (keyed_table (named (VStr s))) /\ forall n, uses_attribute (keyed_table (named (VStr s))) n <-> n = s.
Proof.
  destruct (schema_of_texts (keyed_table (named (VStr s))) [s] eq_refl) as [S1 S2]. split; [split; [|split]|].
  - intros x [= <-]. eexists. split; [reflexivity|]. intros y [<-|[]]. eexists; reflexivity.
  - exact S1.
  - intros key x l y Hk Hx. destruct Hk as [->| ->]; discriminate Hx.
  - intros n. split; [intros [K|[i [[key [x [l [[->| ->] [[=] _]]]]] _]]]; apply S2 in K as [<-|[]]; reflexivity | intros ->; left; apply S2; now left].
Qed.
Lemma seq_one a (P : string -> Prop) : (forall n, P n <-> n = a) -> in_sequence P [a].
Proof. intros H. split; [constructor; [intros [] | constructor]|]. split; [constructor; constructor|]. intros n. rewrite H. cbn. intuition. Qed.
Lemma conditional_example :
  section_of "Conditions" env env_defs /\ section_of "Parameters" env env_params /\ plain_object conditional_table /\
  (forall n, In n ["IsProd"] <-> group_looks_at conditional_table table_part n) /\ deployment toy_hash env_params env_values /\ gives env_defs env_values ["IsProd"] env_bools /\
  (forall b d', deployed b conditional_table d' -> table_shaped d') /\
  (exists d', deployed env_bools conditional_table d' /\ table_fault d' (["a"], ["b"])) /\
  table_messages conditional_table = Ok ["The set of Attributes in AttributeDefinitions: [a] and KeySchemas: [b] must match at Resources/R/Properties"].
Proof.
  split; [apply toy_conditions|]. split; [apply toy_parameters|]. split; [|split; [|split; [exact env_deployment | split; [apply env_one; now left | split; [|split]]]]].
  - split; [apply nodupb_sound; reflexivity|]. split; [discriminate|]. intros k x [[= <- <-]|[[= <- <-]|[]]]; apply pi_list; intros y [<-|[]]; [apply pi_object; discriminate|]. apply pi_if; apply pi_object; discriminate.
  - intros n. split.
    + intros [<-|[]]. exists "KeySchema". eexists. split; [right; now left|]. split; [right; now left|]. eapply la_item; [now left | apply la_here].
    + intros [k [x [Hi [_ H]]]]. destruct Hi as [[= <- <-]|[[= <- <-]|[]]]; inversion H as [| | |l y m Hy K]; subst; destruct Hy as [<-|[]]; inversion K as [c t e|c t e m K'|c t e m K'|]; subst; try (now left); inversion K'.
  - intros b d' H. apply conditional_deployed in H as ->. apply keyed_table_shaped.
  - exists (keyed_table (named (VStr "b"))). split.
    + apply rm_keep; [|apply rm_keep; [|apply rm_nil]]; apply r_list; (apply ri_keep; [|apply ri_nil]); [apply r_object; discriminate|]. apply r_then; [reflexivity | apply r_object; discriminate].
    + split; [|split; [|split]].
      * intros l x [= <-] [<-|[]]. eexists; eexists; split; reflexivity.
      * apply seq_one. intros n. split; [intros [l [x [[= <-] [[<-|[]] [e [[= <-] [= <-]]]]]]]; reflexivity | intros ->; do 2 eexists; split; [reflexivity|]; split; [now left|]; eexists; split; reflexivity].
      * apply seq_one. apply keyed_table_shaped.
      * discriminate.
  - vm_compute. reflexivity.
Qed.
(** A conditional key of an index is not seen: each deployment of this table is right, yet it is reported. *)
Lemma index_key_witness : let key := if_ "IsProd" (named (VStr "a")) (named (VStr "b")) in
  table_messages (indexed_by [named (VStr "a")] [named (VStr "a")]) = Ok [] /\ table_messages (indexed_by [named (VStr "b")] [named (VStr "b")]) = Ok [] /\
  table_messages (indexed_by [key] [key]) =
    Ok ["The set of Attributes in AttributeDefinitions: [a] and KeySchemas: [] must match at Resources/R/Properties"; "The set of Attributes in AttributeDefinitions: [b] and KeySchemas: [] must match at Resources/R/Properties"].
Proof. vm_compute. repeat split. Qed.
(** A name of a key that is an Fn::If ends the check with an exception. *)
Lemma name_if_witness : table_messages (indexed_by [named (VStr "a")] [named (if_ "IsProd" (VStr "a") (VStr "a"))]) = Err ETypeErr.
Proof. vm_compute. reflexivity. Qed.
(** A name given by a reference is nobody's, in keys, and keeps everything from being judged, in definitions. *)
Lemma name_ref_witness : let r := named (VDict [("Ref", VStr "P")]) in
  table_messages (indexed_by [named (VStr "a")] [r]) = Ok ["The set of Attributes in AttributeDefinitions: [a] and KeySchemas: [] must match at Resources/R/Properties"] /\
  table_messages (indexed_by [named (VStr "a"); r] [named (VStr "b")]) = Ok [].
Proof. vm_compute. repeat split. Qed.
