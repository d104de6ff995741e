(** C81: E3025 reports exactly the classes that are not offered. *)
From Coq Require Import List.
From Verif.Model Require Import Base Node Locate Helpers Search Rules PropertyRules SubProps Rds.
From Verif.Spec Require Import Paths Branches Required Walk Rds.
From Verif.Proofs Require Import BaseFacts SearchProofs BranchProofs PropertyRuleProofs GroupProofs Says Places ValueRun MatchRun SubPropsProofs.
Import Verif.Model.Rules.
Import ListNotations.
Local Open Scope string_scope.

Section Rds.
Variable table : class_table.
Variable regions : list string.
Lemma engine_listed_iff license engine : assoc license table <> None -> exists b, engine_listed table license engine = Ok b /\ (b = true <-> has_engine table license engine).
Proof.
  intros H. unfold engine_listed, has_engine. destruct (assoc license table) as [es|]; [|congruence]. eexists. split; [reflexivity|]. rewrite smem_iff. split.
  - intros K. destruct (assoc engine es) as [rs|] eqn:E; [now exists es, rs|]. now apply assoc_None in E.
  - intros [es' [rs [[= <-] E]]]. destruct (in_dec string_dec engine (keys es)) as [K|K]; [exact K|]. apply assoc_None in K. congruence.
Qed.
Lemma license_spec d e : assoc "license-included" table <> None -> assoc "bring-your-own-license" table <> None ->
  exists l, license_model table e (match assoc "LicenseModel" d with Some v => v | None => VNull end) = Ok l /\ forall s, l = VStr s <-> licensed table d e s.
Proof.
  intros H1 H2. unfold license_model. destruct (truthy (match assoc "LicenseModel" d with Some v => v | None => VNull end)) eqn:Et.
  - destruct (assoc "LicenseModel" d) as [v|] eqn:E; [|discriminate Et]. exists v. split; [reflexivity|]. intros s. split.
    + intros ->. apply li_given; [exact E|]. intros ->. discriminate Et.
    + intros K. inversion K as [l K1 K2|K1|K1|K1]; subst; [congruence| | |]; rewrite (K1 v E) in Et; discriminate Et.
  - assert (Hf : forall v, assoc "LicenseModel" d = Some v -> truthy v = false) by (intros v E; now rewrite E in Et).
    assert (Hg : forall l, assoc "LicenseModel" d = Some (VStr l) -> l = "") by (intros l E; apply Hf in E; destruct l; [reflexivity | discriminate E]). clear Et.
    destruct (engine_listed_iff "license-included" e H1) as [a [-> Ha]]. destruct (engine_listed_iff "bring-your-own-license" e H2) as [b [Eb Hb]]. cbn [bind].
    destruct a; [|rewrite Eb; cbn [bind]; destruct b]; eexists; (split; [reflexivity|]); intros s.
    + split; [intros [= <-]; apply li_included; tauto|]. intros K. inversion K as [l K1 K2|K1|K1 K2|K1 K2]; subst; [elim (K2 (Hg _ K1)) | reflexivity | tauto | tauto].
    + assert (~ has_engine table "license-included" e) by (intros K; apply Ha in K; discriminate K).
      split; [intros [= <-]; apply li_own; tauto|]. intros K. inversion K as [l K1 K2|K1|K1 K2|K1 K2]; subst; [elim (K2 (Hg _ K1)) | tauto | reflexivity | tauto].
    + assert (~ has_engine table "license-included" e) by (intros K; apply Ha in K; discriminate K). assert (~ has_engine table "bring-your-own-license" e) by (intros K; apply Hb in K; discriminate K).
      split; [intros [= <-]; apply li_public; tauto|]. intros K. inversion K as [l K1 K2|K1|K1 K2|K1 K2]; subst; [elim (K2 (Hg _ K1)) | tauto | tauto | reflexivity].
Qed.
Lemma check_db_in e c l p r m : In m (check_db table e c l p r) <-> exists classes, offers table l e r classes /\ ~ In c classes /\
  m = mkRM (p ++ [PKey "DBInstanceClass"])%list ("DBInstanceClass """ ++ c ++ """ is not compatible with engine type """ ++ e ++ """ and LicenseModel """ ++ l ++
                   """ in region """ ++ r ++ """. Use instance types [" ++ String.concat ", " classes ++ "]").
Proof.
  unfold check_db, offers. destruct (assoc l table) as [es|]; [destruct (assoc e es) as [rs|] eqn:E2; [destruct (assoc r rs) as [cs|] eqn:E3|]|].
  - destruct (smem c cs) eqn:Ec.
    + split; [intros [] | intros [cs' [[es' [rs' [[= <-] [K2 K3]]]] [K _]]]]. rewrite E2 in K2. injection K2 as <-. rewrite E3 in K3. injection K3 as <-. apply K. now apply smem_iff.
    + split.
      * intros [<-|[]]. exists cs. split; [now exists es, rs|]. split; [|now rewrite (concat_join ", " cs)]. intros K. apply smem_iff in K. congruence.
      * intros [cs' [[es' [rs' [[= <-] [K2 K3]]]] [K ->]]]. rewrite E2 in K2. injection K2 as <-. rewrite E3 in K3. injection K3 as <-. rewrite (concat_join ", " cs). now left.
  - split; [intros [] | intros [cs' [[es' [rs' [[= <-] [K2 K3]]]] _]]]. rewrite E2 in K2. injection K2 as <-. congruence.
  - split; [intros [] | intros [cs' [[es' [rs' [[= <-] [K2 K3]]]] _]]]. congruence.
  - split; [intros [] | intros [cs' [[es' [rs' [[=] _]]] _]]].
Qed.
Lemma db_one_says d q : assoc "license-included" table <> None -> assoc "bring-your-own-license" table <> None ->
  says (db_one table regions (VDict d, q)) (fun m => exists words, class_fault table regions d words /\ m = mkRM (q ++ [PKey "DBInstanceClass"])%list words).
Proof.
  intros H1 H2. unfold db_one. cbn [fst snd vget bind].
  assert (Hno : (forall e c, ~ (assoc "Engine" d = Some (VStr e) /\ assoc "DBInstanceClass" d = Some (VStr c))) ->
    says (Ok []) (fun m => exists words, class_fault table regions d words /\ m = mkRM (q ++ [PKey "DBInstanceClass"])%list words)).
  { intros K. eapply says_ext; [apply says_none|]. intros m. split; [intros [] | intros [words [F _]]]. destruct F as [e c l r cs F1 F2 _ _ _ _]. elim (K e c); auto. }
  destruct (assoc "Engine" d) as [[|?|?|?|e|?|?]|] eqn:Ee; try (apply Hno; intros e' c' [[=] _]).
  destruct (assoc "DBInstanceClass" d) as [[|?|?|?|c|?|?]|] eqn:Ec; try (apply Hno; intros e' c' [_ [=]]).
  destruct (license_spec d e H1 H2) as [l [-> Hl]]. cbn [bind]. eexists. split; [reflexivity|]. intros m. split.
  - destruct l as [|?|?|?|l|?|?]; try (intros []). intros K. apply in_flat_map in K as [r [Hr K]]. apply check_db_in in K as [cs [K1 [K2 ->]]].
    eexists. split; [|reflexivity]. apply (cf table regions d e c l r cs Ee Ec); auto. now apply Hl.
  - intros [words [F ->]]. destruct F as [e' c' l' r cs F1 F2 F3 F4 F5 F6]. rewrite Ee in F1. injection F1 as <-. rewrite Ec in F2. injection F2 as <-. apply Hl in F3. subst l.
    apply in_flat_map. exists r. split; [exact F4|]. apply check_db_in. exists cs. auto.
Qed.
Lemma c81_classes t : wf t -> instances_shaped table t ->
  exists ms, db_match table regions t = Ok ms /\ forall m, In m ms <->
    exists name d q words, db_instance t name d q /\ class_fault table regions d words /\ m = mkRM (q ++ [PKey "DBInstanceClass"])%list words.
Proof.
  intros Hw [H1 [H2 Hs]].
  destruct (says_concat (fun nr => do props <- vget "Properties" (snd nr); do sets <- obj_items_safe props [PKey "Resources"; PKey (fst nr); PKey "Properties"]; concat_res (db_one table regions) sets)
    (resources_of ["AWS::RDS::DBInstance"] t)
    (fun nr m => exists attrs pd d q words, snd nr = VDict attrs /\ assoc "Properties" attrs = Some (VDict pd) /\ branch (VDict pd) [PKey "Resources"; PKey (fst nr); PKey "Properties"] (VDict d) q /\
       class_fault table regions d words /\ m = mkRM (q ++ [PKey "DBInstanceClass"])%list words)) as [ms [E Hms]].
  - intros [name r] Hi. apply (in_resources_of _ _ _ _ Hw) in Hi as [rt [attrs [[<-|[]] [-> Hr]]]]. destruct (Hs name attrs Hr) as [pd [Hp Hb]]. cbn [fst snd vget bind]. rewrite Hp. cbn [bind obj_items_safe].
    eapply says_ext; [apply says_concat with (P := fun wq m => exists d words, fst wq = VDict d /\ class_fault table regions d words /\ m = mkRM (snd wq ++ [PKey "DBInstanceClass"])%list words)|].
    + intros [w q] Hi. apply items_safe_spec in Hi. destruct (Hb _ _ _ Hi) as [d ->]. eapply says_ext; [apply (db_one_says d q H1 H2)|]. intros m. cbn [fst snd]. split.
      * intros [words K]. exists d, words. tauto.
      * intros [d' [words [[= <-] K]]]. eauto.
    + intros m. cbv beta. split.
      * intros [[w q] [Hi [d [words [Ew [K1 K2]]]]]]. cbn [fst snd] in *. subst w. apply items_safe_spec in Hi. exists attrs, pd, d, q, words. auto.
      * intros [attrs' [pd' [d [q [words [[= <-] [Hp' [Hi [K1 K2]]]]]]]]]. rewrite Hp in Hp'. injection Hp' as <-. exists (VDict d, q). split; [now apply items_safe_spec|]. exists d, words. auto.
  - exists ms. split; [exact E|]. intros m. rewrite Hms. split.
    + intros [[name r] [Hi [attrs [pd [d [q [words [Er [Hp [Hb K]]]]]]]]]]. cbn [fst snd] in *. subst r. apply (in_resources_of _ _ _ _ Hw) in Hi as [rt [attrs' [[<-|[]] [[= <-] Hr]]]].
      exists name, d, q, words. split; [|exact K]. exists attrs, pd. auto.
    + intros [name [d [q [words [[attrs [pd [Hr [Hp Hb]]]] K]]]]]. exists (name, VDict attrs). split; [apply (in_resources_of _ _ _ _ Hw); exists "AWS::RDS::DBInstance", attrs; split; [now left|]; auto|].
      exists attrs, pd, d, q, words. tauto.
Qed.
Lemma c81_classes_run sp k c raw m0 d0 name d q words :
  snd (coll_run sp k c) = Ok raw -> In (db_rule table regions) (k_all k) -> enabled (k_set k) (db_rule table regions) = true ->
  wf (template c) -> c_tmpl c = MDict m0 d0 -> instances_shaped table (template c) -> db_instance (template c) name d q -> class_fault table regions d words ->
  exists f, locate_match c "E3025" (mkRM (q ++ [PKey "DBInstanceClass"])%list words) = Ok f /\ In f raw.
Proof.
  intros Hrun Hr He Hw Hc Hs Hi Hf. destruct (c81_classes (template c) Hw Hs) as [ms [E H]].
  refine (reported_match_at sp k c raw (db_rule table regions) _ ms _ m0 d0 Hrun Hr He eq_refl Hc E _ (proj2 (H _) _)); [|exists name, d, q, words; auto].
  intros m K. apply H in K as [n [d' [q' [ws [[attrs [pd [K1 [K2 K3]]]] [K4 ->]]]]]]. cbn [rm_path]. split; [destruct q'; discriminate|]. destruct K4 as [e cl l r cs _ F2 _ _ _ _].
  exists (VStr cl). pose proof (resource_at c n _ attrs pd Hw K1 K2) as A. apply (branch_member_at _ (VDict pd) (props_path n) d' q' "DBInstanceClass" (VStr cl) Hw K3 A). now apply assoc_In.
Qed.
End Rds.
