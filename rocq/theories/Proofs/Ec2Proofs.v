(** C79: subnets with more than one route table, and sources of ingress rules. *)
From Coq Require Import List String Ascii Lia.
From Verif.Model Require Import Base Locate Helpers Node Search Rules Refs ConditionRules Relationship PropertyRules SubProps Ec2.
From Verif.Spec Require Import Paths Branches Required Walk Resolved Ec2.
From Verif.Proofs Require Import BaseFacts SearchProofs ConditionUseProofs PropertyRuleProofs MatchRun Says SubPropsProofs.
Import Verif.Model.Rules.
Import ListNotations.
Local Open Scope string_scope.

Definition tag_val (o : option string) : val := match o with Some s => VStr s | None => VNull end.
Lemma tag_eq a b : py_eq (tag_val a) (tag_val b) = true <-> a = b.
Proof. destruct a as [a|], b as [b|]; cbn; try (split; [discriminate | discriminate]); [|tauto]. rewrite String.eqb_eq. split; congruence. Qed.
Definition tuple_of (rc pc : option string) (s : string) : tuple := (tag_val rc, tag_val pc, VStr s).
Lemma tuple_eq_iff rc pc s rc' pc' s' : tuple_eq (tuple_of rc pc s) (tuple_of rc' pc' s') = true <-> rc = rc' /\ pc = pc' /\ s = s'.
Proof. unfold tuple_eq, tuple_of. rewrite !Bool.andb_true_iff, !tag_eq. cbn [py_eq]. rewrite String.eqb_eq. tauto. Qed.

Lemma map_strs ts : map_res (fun y => match y with VStr s => Ok s | _ => Err ETypeErr end) (map VStr ts) = Ok ts.
Proof. induction ts as [|t ts IH]; [reflexivity|]. cbn [map map_res bind]. now rewrite IH. Qed.
Lemma values_say sid rc : subnet_shaped sid -> forall pc, says (subnet_values sid rc (tag_val pc)) (fun x => exists tag s, subnet sid pc tag s /\ x = (rc, tag_val tag, VStr s)).
Proof.
  intros H. induction H as [s|s|n a ts|c a b Ha IHa Hb IHb|k x Hk]; intros pc.
  - cbn [subnet_values]. eapply says_ext; [apply says_one|]. intros m. split; [intros ->; exists pc, s; split; [constructor | reflexivity] | intros [tag [s' [K ->]]]; inversion K; subst; reflexivity].
  - cbn [subnet_values String.eqb Ascii.eqb Bool.eqb]. eapply says_ext; [apply says_one|]. intros m. split; [intros ->; exists pc, s; split; [constructor | reflexivity] | intros [tag [s' [K ->]]]; inversion K; subst; reflexivity].
  - cbn [subnet_values]. change (String.eqb "Fn::GetAtt" "Fn::If") with false. change (String.eqb "Fn::GetAtt" "Ref") with false. change (String.eqb "Fn::GetAtt" "Fn::GetAtt") with true. cbv iota.
    unfold joined_attribute. cbn [map nth_error]. change (VStr n :: VStr a :: map VStr ts) with (map VStr (n :: a :: ts)). rewrite map_strs. cbn [bind].
    eapply says_ext; [apply says_one|]. intros m. split; [intros ->; exists pc, (join_str "." (n :: a :: ts)); split; [apply sn_getatt | reflexivity]|].
    intros [tag [s' [K ->]]]. inversion K; subst.
    match goal with E : map VStr _ = map VStr _ |- _ => apply (f_equal (map (fun v => match v with VStr s => s | _ => "" end))) in E; rewrite !map_map, !map_id in E; now subst end.
  - cbn [subnet_values if_]. change (String.eqb "Fn::If" "Fn::If") with true. cbv iota. change (VStr c) with (tag_val (Some c)).
    eapply says_ext; [apply (says_app _ _ _ _ (IHa (Some c)) (IHb (Some c)))|]. intros m. split.
    + intros [[tag [s [K ->]]]|[tag [s [K ->]]]]; exists tag, s; (split; [|reflexivity]); [now apply sn_then | now apply sn_else].
    + intros [tag [s [K ->]]]. inversion K; subst; [left | right]; exists tag, s; auto.
  - assert (E : subnet_values (VDict [(k, x)]) rc (tag_val pc) = Ok []).
    { cbn [subnet_values]. destruct (String.eqb_spec k "Fn::If") as [->|_]; [elim Hk; now left|]. destruct (String.eqb_spec k "Ref") as [->|_]; [elim Hk; right; now left|].
      destruct (String.eqb_spec k "Fn::GetAtt") as [->|_]; [elim Hk; right; right; now left | reflexivity]. }
    rewrite E. eapply says_ext; [apply says_none|]. intros m. split; [intros [] | intros [tag [s [K _]]]]. inversion K; subst; apply Hk; cbn; auto.
Qed.
Lemma subnet_some sid pc tag s : subnet sid pc tag s -> pc <> None -> tag <> None.
Proof. induction 1; intros Hp; auto; apply IHsubnet; discriminate. Qed.
(** A resource that uses a subnet under no condition has no other. *)
Lemma subnet_none sid s tag s' : subnet sid None None s -> subnet sid None tag s' -> tag = None /\ s' = s.
Proof.
  intros H H'. inversion H as [pc s0|pc s0|pc n a ts|pc c a b t0 s0 K|pc c a b t0 s0 K]; subst; try (exfalso; exact (subnet_some _ _ _ _ K ltac:(discriminate) eq_refl)); inversion H'; subst; auto.
  match goal with E : map VStr _ = map VStr _ |- _ => apply (f_equal (map (fun v => match v with VStr s => s | _ => "" end))) in E; rewrite !map_map, !map_id in E; now subst end.
Qed.

Lemma resource_unique t name rt rt' attrs attrs' : wf t -> resource_of t name rt attrs -> resource_of t name rt' attrs' -> attrs = attrs'.
Proof.
  intros Hw [top [rs [-> [H1 [H2 _]]]]] [top' [rs' [[= <-] [H1' [H2' _]]]]]. rewrite H1 in H1'. injection H1' as <-.
  assert (N : NoDup (keys rs)). { apply wf_dict in Hw as [_ Hm]. specialize (Hm _ _ (assoc_In _ _ _ H1)). now apply wf_dict in Hm. }
  pose proof (assoc_NoDup _ _ _ N H2) as E. pose proof (assoc_NoDup _ _ _ N H2') as E'. congruence.
Qed.
Section Assoc.
Variable t : val.
Hypothesis Hw : wf t.
Hypothesis Hs : associations_shaped t.
Lemma association_unique name rc sid rc' sid' : association t name rc sid -> association t name rc' sid' -> rc = rc' /\ sid = sid'.
Proof using Hw.
  intros [a [pd [H1 [H2 [H3 H4]]]]] [a' [pd' [H1' [H2' [H3' H4']]]]]. pose proof (resource_unique _ _ _ _ _ _ Hw H1 H1') as <-. rewrite H2 in H2'. injection H2' as <-. rewrite H3 in H3'. injection H3' as <-.
  split; [|reflexivity]. rewrite H4 in H4'. destruct rc, rc'; cbn in H4'; congruence.
Qed.
Lemma associates_say : says (concat_res associate (resources_of ["AWS::EC2::SubnetRouteTableAssociation"] t)) (fun nx => exists name rc pc s, uses t name rc pc s /\ nx = (name, tuple_of rc pc s)).
Proof using Hw Hs.
  eapply says_ext; [apply says_concat with (P := fun nr nx => exists rc pc s, uses t (fst nr) rc pc s /\ nx = (fst nr, tuple_of rc pc s))|].
  - intros [name x] Hi. apply in_resources_of in Hi as [rt [attrs [[<-|[]] [-> Hres]]]]; [|exact Hw]. cbn [fst]. unfold associate. cbn [snd fst vget bind].
    destruct (Hs name attrs Hres) as [[Hp|[pd [sid [Hp [Hsid Hsh]]]]] Hcond]; rewrite Hp.
    + cbn [truthy]. eapply says_ext; [apply says_none|]. intros m. split; [intros []|]. intros [rc [pc [s [[sid [[a [pd [K1 [K2 _]]]] _]] _]]]]. rewrite <- (resource_unique _ _ _ _ _ _ Hw Hres K1) in K2. congruence.
    + assert (Ht : truthy (VDict pd) = true) by (destruct pd; [discriminate Hsid | reflexivity]). rewrite Ht. cbn [vget bind]. rewrite Hsid.
      assert (Hc : exists rc, match assoc "Condition" attrs with Some x => x | None => VNull end = tag_val rc /\ assoc "Condition" attrs = option_map VStr rc).
      { destruct Hcond as [E|[cn E]]; rewrite E; [exists None; auto | exists (Some cn); auto]. }
      destruct Hc as [rc [-> Hc]]. assert (Has : association t name rc sid) by (exists attrs, pd; auto).
      destruct (values_say sid (tag_val rc) Hsh None) as [vs [Ev Hv]]. cbn [tag_val] in Ev. rewrite Ev. cbn [bind].
      assert (Hh : forallb tuple_hashable vs = true).
      { apply forallb_forall. intros x Hx. apply Hv in Hx as [tag [s [_ ->]]]. cbn. destruct rc, tag; reflexivity. }
      rewrite Hh. eexists. split; [reflexivity|]. intros m. rewrite in_map_iff. split.
      * intros [x [<- Hx]]. apply Hv in Hx as [tag [s [K ->]]]. exists rc, tag, s. split; [exists sid; auto | reflexivity].
      * intros [rc' [pc [s [[sid' [K1 K2]] ->]]]]. destruct (association_unique _ _ _ _ _ Has K1) as [<- <-]. eexists. split; [reflexivity|]. apply Hv. exists pc, s. auto.
  - intros m. split; [intros [[name x] [_ [rc [pc [s K]]]]]; exists name, rc, pc, s; exact K|]. intros [name [rc [pc [s [K ->]]]]]. pose proof K as [sid [[attrs [pd [Hres _]]] _]].
    exists (name, VDict attrs). split; [apply in_resources_of; [exact Hw|]; exists association_type, attrs; split; [now left | auto]|]. exists rc, pc, s. auto.
Qed.
Lemma sharers_in all rc pc s o : (forall nx, In nx all <-> exists name rc pc s, uses t name rc pc s /\ nx = (name, tuple_of rc pc s)) ->
  In o (sharers all (tuple_of rc pc s)) <-> uses t o rc pc s.
Proof using.
  intros H. unfold sharers. rewrite in_map_iff. split.
  - intros [[n y] [<- K]]. apply filter_In in K as [K1 K2]. apply H in K1 as [n' [rc' [pc' [s' [Hu [= -> ->]]]]]]. cbn [snd fst] in *. apply tuple_eq_iff in K2 as [-> [-> ->]]. exact Hu.
  - intros Hu. exists (o, tuple_of rc pc s). split; [reflexivity|]. apply filter_In. split; [apply H; exists o, rc, pc, s; auto | now apply tuple_eq_iff].
Qed.
Lemma one_in_short {A} (l : list A) x y : In x l -> In y l -> x <> y -> 1 < List.length l.
Proof. destruct l as [|a [|b l]]; cbn; intros; [contradiction | | lia]. exfalso. intuition congruence. Qed.
Lemma others_in all name rc pc s o : (forall nx, In nx all <-> exists name rc pc s, uses t name rc pc s /\ nx = (name, tuple_of rc pc s)) -> uses t name rc pc s ->
  In o (other_resources all (name, tuple_of rc pc s)) <-> also_uses t name rc pc s o.
Proof using Hw.
  intros H Hu. unfold other_resources. cbn [snd tuple_of]. change (VNull, VNull, VStr s) with (tuple_of None None s). change (tag_val rc, tag_val pc, VStr s) with (tuple_of rc pc s). rewrite in_app_iff. unfold also_uses.
  assert (F : In o (if Nat.ltb 1 (List.length (sharers all (tuple_of rc pc s))) then filter (fun o => negb (String.eqb o name)) (sharers all (tuple_of rc pc s)) else []) <-> o <> name /\ uses t o rc pc s).
  { rewrite <- (sharers_in all rc pc s o H). split.
    - destruct (Nat.ltb 1 _); [|intros []]. intros K. apply filter_In in K as [K1 K2]. apply Bool.negb_true_iff, String.eqb_neq in K2. auto.
    - intros [K1 K2]. apply (sharers_in all rc pc s name H) in Hu. assert (E : Nat.ltb 1 (List.length (sharers all (tuple_of rc pc s))) = true) by (apply Nat.ltb_lt; eapply one_in_short; [exact K2 | exact Hu | exact K1]).
      rewrite E. apply filter_In. split; [exact K2|]. now apply Bool.negb_true_iff, String.eqb_neq. }
  rewrite F. destruct (tuple_eq (tuple_of rc pc s) (tuple_of None None s)) eqn:E.
  - apply tuple_eq_iff in E as [-> [-> _]]. cbn [In]. tauto.
  - rewrite (sharers_in all None None s o H). assert (G : uses t o None None s -> o <> name).
    { intros [sid' [K1 K2]] ->. destruct Hu as [sid [K3 K4]]. destruct (association_unique _ _ _ _ _ K1 K3) as [<- <-]. destruct (subnet_none _ _ _ _ K2 K4) as [-> _].
      assert (tuple_eq (tuple_of None None s) (tuple_of None None s) = true) by now apply tuple_eq_iff. congruence. }
    tauto.
Qed.
Lemma c79_routes : exists ms, associations_match t = Ok ms /\
  (forall m, In m ms -> exists name rc pc s os, uses t name rc pc s /\ os <> [] /\ (forall o, In o os <-> also_uses t name rc pc s o) /\
     m = mkRM [PKey "Resources"; PKey name; PKey "Properties"; PKey "SubnetId"] ("SubnetId in " ++ name ++ " is also associated with " ++ join_str ", " os)) /\
  (forall name rc pc s o, uses t name rc pc s -> also_uses t name rc pc s o -> exists os, (forall o, In o os <-> also_uses t name rc pc s o) /\
     In (mkRM [PKey "Resources"; PKey name; PKey "Properties"; PKey "SubnetId"] ("SubnetId in " ++ name ++ " is also associated with " ++ join_str ", " os)) ms).
Proof using Hw Hs.
  destruct associates_say as [all [Ea Ha]]. unfold associations_match. rewrite Ea. cbn [bind]. eexists. split; [reflexivity|]. split.
  - intros m Hm. apply in_flat_map in Hm as [nx [Hi Hm]]. apply Ha in Hi as [name [rc [pc [s [Hu ->]]]]]. pose proof (fun o => others_in all name rc pc s o Ha Hu) as Ho.
    unfold association_one in Hm. destruct (other_resources all (name, tuple_of rc pc s)) as [|o os] eqn:E; [destruct Hm|]. destruct Hm as [<-|[]]. exists name, rc, pc, s, (o :: os). split; [exact Hu|]. split; [discriminate|]. split; [exact Ho | reflexivity].
  - intros name rc pc s o Hu Ho'. pose proof (fun o => others_in all name rc pc s o Ha Hu) as Ho. exists (other_resources all (name, tuple_of rc pc s)). split; [exact Ho|].
    apply in_flat_map. exists (name, tuple_of rc pc s). split; [apply Ha; exists name, rc, pc, s; auto|]. unfold association_one. apply Ho in Ho'. destruct (other_resources all (name, tuple_of rc pc s)) as [|o1 os]; [destruct Ho' | now left].
Qed.
End Assoc.
Lemma c79_routes_run sp k c raw m0 d0 name rc pc s o :
  snd (coll_run sp k c) = Ok raw -> In association_rule (k_all k) -> enabled (k_set k) association_rule = true ->
  wf (template c) -> c_tmpl c = MDict m0 d0 -> associations_shaped (template c) -> uses (template c) name rc pc s -> also_uses (template c) name rc pc s o ->
  exists os f, (forall o, In o os <-> also_uses (template c) name rc pc s o) /\
    locate_match c "E3022" (mkRM [PKey "Resources"; PKey name; PKey "Properties"; PKey "SubnetId"] ("SubnetId in " ++ name ++ " is also associated with " ++ join_str ", " os)) = Ok f /\ In f raw.
Proof.
  intros Hrun Hr He Hw Hc Hs Hu Ho. destruct (c79_routes (template c) Hw Hs) as [ms [E [H1 H2]]]. destruct (H2 name rc pc s o Hu Ho) as [os [Hos Hm]].
  assert (F : exists f, locate_match c "E3022" (mkRM [PKey "Resources"; PKey name; PKey "Properties"; PKey "SubnetId"] ("SubnetId in " ++ name ++ " is also associated with " ++ join_str ", " os)) = Ok f /\ In f raw); [|destruct F as [f F]; exists os, f; auto].
  refine (reported_match_at sp k c raw association_rule _ ms _ m0 d0 Hrun Hr He eq_refl Hc E _ Hm).
  intros m K. apply H1 in K as [n [rc' [pc' [s' [os' [[sid [[attrs [pd [K1 [K2 [K3 _]]]]] _]] [_ [_ ->]]]]]]]]. cbn [rm_path]. split; [discriminate|]. exists sid.
    pose proof (resource_at c n _ attrs pd Hw K1 K2) as A. change [PKey "Resources"; PKey n; PKey "Properties"; PKey "SubnetId"] with (props_path n ++ [PKey "SubnetId"])%list. rewrite at_path_app, A. cbn [at_path]. now rewrite K3.
Qed.

(** * E2506 *)
Lemma ingress_says vpc d p : says (check_ingress vpc (VDict d) p) (fun m => exists key words x, source vpc key words /\ assoc key d = Some x /\ truthy x = true /\ m = mkRM (p ++ [PKey key])%list (words ++ path_text (p ++ [PKey key])%list)).
Proof.
  unfold check_ingress. cbn [vget bind]. eapply says_ext; [apply says_if|]. intros m. split.
  - intros [Ht ->]. destruct vpc.
    + exists "SourceSecurityGroupName". eexists. destruct (assoc "SourceSecurityGroupName" d) as [x|]; [|discriminate Ht]. exists x. split; [constructor|]. auto.
    + exists "SourceSecurityGroupId". eexists. destruct (assoc "SourceSecurityGroupId" d) as [x|]; [|discriminate Ht]. exists x. split; [constructor|]. auto.
  - intros [key [words [x [K [E [Ht ->]]]]]]. destruct K; rewrite E; auto.
Qed.
Lemma given_iff key d : (exists v, assoc key d = Some v /\ truthy v = true) <-> truthy (match assoc key d with Some x => x | None => VNull end) = true.
Proof. destruct (assoc key d) as [x|]; split; [intros [v [[= ->] H]]; exact H | intros H; eauto | intros [v [[=] _]] | discriminate]. Qed.
Lemma iff_unique (P : Prop) (b c : bool) : (P <-> b = true) -> (P <-> c = true) -> b = c.
Proof. intros H1 H2. destruct b, c; try reflexivity; exfalso; intuition discriminate. Qed.
Lemma c79_ingress t : wf t -> ingress_shaped t -> exists ms, ingress_match t = Ok ms /\ forall m, In m ms <-> exists q words, ingress_fault t q words /\ m = mkRM q (words ++ path_text q).
Proof.
  intros Hw [Hg Hi]. unfold ingress_match.
  assert (U : forall name rt rt' attrs attrs', resource_of t name rt attrs -> resource_of t name rt' attrs' -> attrs = attrs') by (intros; eapply resource_unique; eauto).
  eapply says_ext; [apply says_app with
    (P1 := fun m => exists name attrs pd l i d key words vpc x, resource_of t name "AWS::EC2::SecurityGroup" attrs /\ assoc "Properties" attrs = Some (VDict pd) /\ assoc "SecurityGroupIngress" pd = Some (VList l) /\ nth_error l i = Some (VDict d) /\
       ((exists v, assoc "VpcId" pd = Some v /\ truthy v = true) <-> vpc = true) /\ source vpc key words /\ assoc key d = Some x /\ truthy x = true /\ m = let q := [PKey "Resources"; PKey name; PKey "Properties"; PKey "SecurityGroupIngress"; PIdx i; PKey key] in mkRM q (words ++ path_text q))
    (P2 := fun m => exists name attrs pd key words vpc x, resource_of t name "AWS::EC2::SecurityGroupIngress" attrs /\ assoc "Properties" attrs = Some (VDict pd) /\
       ((exists v, assoc "GroupId" pd = Some v /\ truthy v = true) <-> vpc = true) /\ source vpc key words /\ assoc key pd = Some x /\ truthy x = true /\ m = let q := [PKey "Resources"; PKey name; PKey "Properties"; PKey key] in mkRM q (words ++ path_text q))|].
  - eapply says_ext; [apply says_concat with (P := fun nr m => exists attrs pd l i d key words vpc x, resource_of t (fst nr) "AWS::EC2::SecurityGroup" attrs /\ assoc "Properties" attrs = Some (VDict pd) /\ assoc "SecurityGroupIngress" pd = Some (VList l) /\ nth_error l i = Some (VDict d) /\
       ((exists v, assoc "VpcId" pd = Some v /\ truthy v = true) <-> vpc = true) /\ source vpc key words /\ assoc key d = Some x /\ truthy x = true /\ m = let q := [PKey "Resources"; PKey (fst nr); PKey "Properties"; PKey "SecurityGroupIngress"; PIdx i; PKey key] in mkRM q (words ++ path_text q))|].
    + intros [name y] Hy. apply in_resources_of in Hy as [rt [attrs [[<-|[]] [-> Hres]]]]; [|exact Hw]. cbn [fst]. unfold group_ingress. cbn [snd fst vget_def bind].
      assert (N : (forall pd l, assoc "Properties" attrs = Some (VDict pd) -> assoc "SecurityGroupIngress" pd = Some (VList l) -> False) -> says (@Ok (list rulematch) []) (fun m => exists attrs pd l i d key words vpc x, resource_of t name "AWS::EC2::SecurityGroup" attrs /\ assoc "Properties" attrs = Some (VDict pd) /\ assoc "SecurityGroupIngress" pd = Some (VList l) /\ nth_error l i = Some (VDict d) /\
         ((exists v, assoc "VpcId" pd = Some v /\ truthy v = true) <-> vpc = true) /\ source vpc key words /\ assoc key d = Some x /\ truthy x = true /\ m = let q := [PKey "Resources"; PKey name; PKey "Properties"; PKey "SecurityGroupIngress"; PIdx i; PKey key] in mkRM q (words ++ path_text q))).
      { intros Hn. eapply says_ext; [apply says_none|]. intros m. split; [intros []|]. intros [a' [pd [l [i [d [key [words [vpc [x [K1 [K2 [K3 _]]]]]]]]]]]]. rewrite <- (U _ _ _ _ _ Hres K1) in K2. exact (Hn pd l K2 K3). }
      destruct (Hg name attrs Hres) as [Hp|[pd [Hp Hl]]]; rewrite Hp; cbn [bind].
      * cbn [truthy negb]. apply N. congruence.
      * destruct (truthy (VDict pd)) eqn:Et.
        2:{ apply N. intros pd' l K0 K. rewrite Hp in K0. injection K0 as <-. destruct pd; [discriminate K | discriminate Et]. }
        cbn [vget bind]. destruct (assoc "SecurityGroupIngress" pd) as [z|] eqn:Ez; [|apply N; congruence].
        destruct z as [| | | | |l|]; try (apply N; congruence). clear N.
        eapply says_ext; [apply says_concat with (P := fun ix m => exists d key words x, snd ix = VDict d /\ source (truthy (match assoc "VpcId" pd with Some x => x | None => VNull end)) key words /\ assoc key d = Some x /\ truthy x = true /\
           m = let q := [PKey "Resources"; PKey name; PKey "Properties"; PKey "SecurityGroupIngress"; PIdx (fst ix); PKey key] in mkRM q (words ++ path_text q))|].
        -- intros [i y] Hiy. apply enum_nth in Hiy. cbn [fst snd]. destruct (Hl l y eq_refl (nth_error_In _ _ Hiy)) as [d ->]. eapply says_ext; [apply ingress_says|]. intros m. cbn [app]. split.
           ++ intros [key [words [x [K1 [K2 [K3 ->]]]]]]. exists d, key, words, x. auto.
           ++ intros [d' [key [words [x [[= <-] [K1 [K2 [K3 ->]]]]]]]]. exists key, words, x. auto.
        -- intros m. split.
           ++ intros [[i y] [Hiy [d [key [words [x [K0 [K1 [K2 [K3 ->]]]]]]]]]]. apply enum_nth in Hiy. cbn [fst snd] in *. subst y. exists attrs, pd, l, i, d, key, words. eexists. exists x. split; [exact Hres|]. split; [exact Hp|]. split; [exact Ez|]. split; [exact Hiy|]. split; [apply given_iff|]. auto.
           ++ intros [a' [pd' [l' [i [d [key [words [vpc [x [K1 [K2 [K3 [K4 [K5 [K6 [K7 [K8 ->]]]]]]]]]]]]]]]]]. rewrite <- (U _ _ _ _ _ Hres K1) in K2. rewrite Hp in K2. injection K2 as <-. rewrite Ez in K3. injection K3 as <-.
              exists (i, VDict d). split; [now apply enum_nth|]. exists d, key, words, x. split; [reflexivity|]. split; [|auto]. now rewrite (iff_unique _ _ _ (given_iff "VpcId" pd) K5).
    + intros m. split; [intros [[name y] [_ K]]; exists name; exact K|]. intros [name K]. pose proof K as [attrs [pd [l [i [d [key [words [vpc [x [K1 _]]]]]]]]]]. exists (name, VDict attrs). split; [|exact K]. apply in_resources_of; [exact Hw|]. eexists. exists attrs. split; [now left|]. auto.
  - eapply says_ext; [apply says_concat with (P := fun nr m => exists attrs pd key words vpc x, resource_of t (fst nr) "AWS::EC2::SecurityGroupIngress" attrs /\ assoc "Properties" attrs = Some (VDict pd) /\
       ((exists v, assoc "GroupId" pd = Some v /\ truthy v = true) <-> vpc = true) /\ source vpc key words /\ assoc key pd = Some x /\ truthy x = true /\ m = let q := [PKey "Resources"; PKey (fst nr); PKey "Properties"; PKey key] in mkRM q (words ++ path_text q))|].
    + intros [name y] Hy. apply in_resources_of in Hy as [rt [attrs [[<-|[]] [-> Hres]]]]; [|exact Hw]. cbn [fst]. unfold single_ingress. cbn [snd fst vget_def bind].
      destruct (Hi name attrs Hres) as [Hp|[pd Hp]]; rewrite Hp; cbn [bind vget assoc].
      * cbn [truthy negb]. eapply says_ext; [apply says_none|]. intros m. split; [intros []|]. intros [a' [pd [key [words [vpc [x [K1 [K2 _]]]]]]]]. rewrite <- (U _ _ _ _ _ Hres K1) in K2. congruence.
      * destruct (truthy (VDict pd)) eqn:Et.
        -- eapply says_ext; [apply ingress_says|]. intros m. cbn [app]. split.
           ++ intros [key [words [x [K1 [K2 [K3 ->]]]]]]. exists attrs, pd, key, words. eexists. exists x. split; [exact Hres|]. split; [exact Hp|]. split; [apply given_iff|]. auto.
           ++ intros [a' [pd' [key [words [vpc [x [K1 [K2 [K5 [K6 [K7 [K8 ->]]]]]]]]]]]]. rewrite <- (U _ _ _ _ _ Hres K1) in K2. rewrite Hp in K2. injection K2 as <-. exists key, words, x. split; [now rewrite (iff_unique _ _ _ (given_iff "GroupId" pd) K5) | auto].
        -- destruct pd; [|discriminate Et]. eapply says_ext; [apply says_none|]. intros m. split; [intros []|]. intros [a' [pd' [key [words [vpc [x [K1 [K2 [_ [_ [K7 _]]]]]]]]]]]. rewrite <- (U _ _ _ _ _ Hres K1) in K2. rewrite Hp in K2. injection K2 as <-. discriminate K7.
    + intros m. split; [intros [[name y] [_ K]]; exists name; exact K|]. intros [name K]. pose proof K as [attrs [pd [key [words [vpc [x [K1 _]]]]]]]. exists (name, VDict attrs). split; [|exact K]. apply in_resources_of; [exact Hw|]. eexists. exists attrs. split; [now left|]. auto.
  - intros m. split.
    + intros [[name [attrs [pd [l [i [d [key [words [vpc [x [K1 [K2 [K3 [K4 [K5 [K6 [K7 [K8 ->]]]]]]]]]]]]]]]]]]|[name [attrs [pd [key [words [vpc [x [K1 [K2 [K5 [K6 [K7 [K8 ->]]]]]]]]]]]]]]; (eexists; exists words; split; [|reflexivity]).
      * exact (if_group t name attrs pd l i d key words vpc x K1 K2 K3 K4 K5 K6 K7 K8).
      * exact (if_single t name attrs pd key words vpc x K1 K2 K5 K6 K7 K8).
    + intros [q [words [K ->]]]. destruct K as [name attrs pd l i d key words vpc x K1 K2 K3 K4 K5 K6 K7 K8|name attrs pd key words vpc x K1 K2 K5 K6 K7 K8].
      * left. exists name, attrs, pd, l, i, d, key, words, vpc, x. repeat (split; [assumption|]). reflexivity.
      * right. exists name, attrs, pd, key, words, vpc, x. repeat (split; [assumption|]). reflexivity.
Qed.
Lemma c79_ingress_run sp k c raw m0 d0 q words :
  snd (coll_run sp k c) = Ok raw -> In ingress_rule (k_all k) -> enabled (k_set k) ingress_rule = true ->
  wf (template c) -> c_tmpl c = MDict m0 d0 -> ingress_shaped (template c) -> ingress_fault (template c) q words ->
  exists f, locate_match c "E2506" (mkRM q (words ++ path_text q)) = Ok f /\ In f raw.
Proof.
  intros Hrun Hr He Hw Hc Hs Hf. destruct (c79_ingress (template c) Hw Hs) as [ms [E H]].
  refine (reported_match_at sp k c raw ingress_rule _ ms _ m0 d0 Hrun Hr He eq_refl Hc E _ _).
  - intros m K. apply H in K as [q' [w' [K ->]]]. cbn [rm_path]. destruct K as [name attrs pd l i d key words' vpc x K1 K2 K3 K4 K5 K6 K7 K8|name attrs pd key words' vpc x K1 K2 K5 K6 K7 K8]; (split; [discriminate|]); exists x; pose proof (resource_at c name _ attrs pd Hw K1 K2) as A.
    + change [PKey "Resources"; PKey name; PKey "Properties"; PKey "SecurityGroupIngress"; PIdx i; PKey key] with (props_path name ++ [PKey "SecurityGroupIngress"; PIdx i; PKey key])%list. rewrite at_path_app, A. cbn [at_path]. rewrite K3, K4. cbn [at_path]. now rewrite K7.
    + change [PKey "Resources"; PKey name; PKey "Properties"; PKey key] with (props_path name ++ [PKey key])%list. rewrite at_path_app, A. cbn [at_path]. now rewrite K7.
  - apply H. exists q, words. auto.
Qed.
