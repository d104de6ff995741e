(** What is said about one part of a template does not depend on the others (C110). *)
From Coq Require Import List String Permutation ZArith.
From Verif.Model Require Import Relationship ParameterValues BasedOn JsonDump Base Node Locate Helpers Rules Runner Config Core Refs Limits Shape Parameters Conditions Resolve PropertyRules ValueRules Standard.
From Verif.Spec Require Import ValueRefs ParameterValues Based Sensitive Pipeline Paths References Limited ConditionUse FunctionArguments Faults Protect Branches Walk Required Resolved Groups Sizes Values Shipped ShippedPlaces ShippedChecks Locality.
From Verif.Proofs Require Import BaseFacts SearchProofs PropertyRuleProofs ParameterValueProofs BranchProofs StandardProofs StandardRules StandardPlaces StandardTemplates StandardFunctions StandardNested ReorderedFacts.
Import Verif.Model.Rules.
Import ListNotations.
Local Open Scope string_scope.

Lemma part_step p r q : part_of (p ++ r)%list q -> part_of p q.
Proof. intros (s & ->). exists (r ++ s)%list. rewrite app_assoc. reflexivity. Qed.
(** Two beginnings of a path. *)
Lemma two_parts (p q : path) : forall r s, (p ++ r = q ++ s)%list -> (exists m, q = (p ++ m)%list) \/ (exists a m, p = (q ++ a :: m)%list).
Proof.
  revert q. induction p as [|a p IH]; intros q r s E; [left; exists q; reflexivity|]. destruct q as [|b q]; [right; exists a, p; reflexivity|].
  cbn in E. injection E as -> E. destruct (IH _ _ _ E) as [(m & ->) | (x & m & ->)]; [left; exists m; reflexivity | right; exists x, m; reflexivity].
Qed.

Section Part.
Variables (t t' : val) (p : path).
Hypothesis Same : at_path p t = at_path p t'.
Lemma same_inside r : at_path (p ++ r)%list t = at_path (p ++ r)%list t'.
Proof using Same. rewrite !at_path_app, Same. reflexivity. Qed.
Lemma same_occurs f q v r : ~ In (PKey f) p -> part_of p (q ++ PKey f :: r)%list -> occurs f t (VDict []) q v -> occurs f t' (VDict []) q v.
Proof using Same.
  intros N (s & E) [H | H]; [|destruct q as [|[k|i] q]; cbn in H; discriminate H]. left. symmetry in E.
  destruct (two_parts _ _ _ _ E) as [(m & ->) | (a & m & Ep)]; [rewrite <- app_assoc in *; rewrite <- same_inside; exact H|].
  rewrite Ep in E. rewrite <- app_assoc in E. apply app_inv_head in E. cbn in E. injection E as -> _. destruct N. rewrite Ep. apply in_or_app. right. left. reflexivity.
Qed.
Lemma same_faults f (fault : path -> val -> path -> Prop) q : ~ In (PKey f) p -> part_of p q -> faults_at f t fault q -> faults_at f t' fault q.
Proof using Same. intros N B (p0 & v & r & O & F & ->). exists p0, v, r. split; [exact (same_occurs _ _ _ _ N B O) | auto]. Qed.
Lemma same_conditions f q s : ~ In (PKey f) p -> part_of p q -> condition_faults f t q s -> condition_faults f t' q s.
Proof using Same. intros N B (p0 & v & r & O & F & ->). exists p0, v, r. split; [exact (same_occurs f (PKey "Conditions" :: p0) v r N B O) | auto]. Qed.
Lemma same_ifs q s : ~ In (PKey "Fn::If") p -> part_of p q -> if_faults t q s -> if_faults t' q s.
Proof using Same. intros N B (p0 & v & r & O & F & ->). exists p0, v, r. split; [exact (same_occurs _ _ _ _ N B O) | auto]. Qed.
End Part.

(** A member of a section. *)
Lemma member_there t d s ms n x : wf t -> t = VDict d -> assoc s d = Some (VDict ms) -> In (n, x) ms -> at_path [PKey s; PKey n] t = Some x.
Proof.
  intros W -> E I. apply wf_dict in W as [_ W]. rewrite Forall_forall in W. specialize (W _ (assoc_In _ _ _ E)). cbn [snd] in W.
  apply wf_dict in W as [N _]. cbn [at_path]. rewrite E. rewrite (assoc_in_nodup _ _ _ N I). reflexivity.
Qed.
Lemma there_member t s n x : at_path [PKey s; PKey n] t = Some x -> exists d ms, t = VDict d /\ assoc s d = Some (VDict ms) /\ In (n, x) ms.
Proof.
  intros H. destruct t as [| | | | | |d]; try discriminate H. cbn [at_path] in H. destruct (assoc s d) as [[| | | | | |ms]|] eqn:E; try discriminate H.
  destruct (assoc n ms) as [y|] eqn:G; [|discriminate H]. injection H as ->. exists d, ms. split; [reflexivity|]. split; [exact E | exact (assoc_In _ _ _ G)].
Qed.
Lemma same_member t t' s n ms ms' x : wf t -> at_path [PKey s; PKey n] t = at_path [PKey s; PKey n] t' -> section t s ms -> section t' s ms' -> In (n, x) ms -> In (n, x) ms'.
Proof.
  intros W E (d & Ht & S) (d' & Ht' & S') I. pose proof (member_there _ _ _ _ _ _ W Ht S I) as A. rewrite E in A.
  destruct (there_member _ _ _ _ A) as (d2 & ms2 & Ht2 & S2 & I2). rewrite Ht' in Ht2. injection Ht2 as <-. rewrite S' in S2. injection S2 as <-. exact I2.
Qed.
Lemma same_resource t t' n rt attrs : wf t -> at_path [PKey "Resources"; PKey n] t = at_path [PKey "Resources"; PKey n] t' -> resource_of t n rt attrs -> resource_of t' n rt attrs.
Proof.
  intros W E (d & ms & Ht & S & I & T). pose proof (member_there _ _ _ _ _ _ W Ht S I) as A. rewrite E in A.
  destruct (there_member _ _ _ _ A) as (d2 & ms2 & Ht2 & S2 & I2). exists d2, ms2. auto.
Qed.
Lemma part_name s n m r q : part_of [PKey s; PKey n] q -> part_of (PKey s :: PKey m :: r) q -> m = n.
Proof. intros (a & ->) (b & E). cbn in E. injection E as ->. reflexivity. Qed.
Lemma same_properties t t' n rt pd p q : wf t -> at_path [PKey "Resources"; PKey n] t = at_path [PKey "Resources"; PKey n] t' ->
  part_of [PKey "Resources"; PKey n] q -> part_of p q -> properties_of t rt pd p -> properties_of t' rt pd p.
Proof.
  intros W E B B2 (m & attrs & R & A & ->). pose proof (part_name _ _ _ _ _ B B2) as ->. exists n, attrs. split; [exact (same_resource _ _ _ _ _ W E R) | auto].
Qed.
Lemma same_nested sp t t' n ty v p q : wf t -> at_path [PKey "Resources"; PKey n] t = at_path [PKey "Resources"; PKey n] t' ->
  part_of [PKey "Resources"; PKey n] q -> part_of p q -> nested_of sp t ty v p -> nested_of sp t' ty v p.
Proof.
  intros W E B B2 (rt & pd & p0 & P & N & I). exists rt, pd, p0. split; [|auto]. destruct (resource_nested_below _ _ _ _ _ _ _ N) as (r & ->).
  exact (same_properties _ _ _ _ _ _ _ W E B (part_step _ _ _ B2) P).
Qed.
Lemma same_object {A} sp (rts pts : list (string * A)) t t' n ty d p a q : wf t -> at_path [PKey "Resources"; PKey n] t = at_path [PKey "Resources"; PKey n] t' ->
  part_of [PKey "Resources"; PKey n] q -> part_of p q -> object_with sp rts pts t ty d p a -> object_with sp rts pts t' ty d p a.
Proof.
  intros W E B B2 [[P H] | [P H]]; [left; split; [exact (same_properties _ _ _ _ _ _ _ W E B B2 P) | exact H] | right; split; [exact (same_nested _ _ _ _ _ _ _ _ W E B B2 P) | exact H]].
Qed.

(** Faults of objects that depend on the object only. *)
Lemma same_object_faults {A} sp (rts pts : list (string * A)) t t' n (F : string -> list (string * val) -> path -> A -> path -> string -> Prop) :
  wf t -> wf t' -> at_path [PKey "Resources"; PKey n] t = at_path [PKey "Resources"; PKey n] t' ->
  (forall ty d p a q words, F ty d p a q words -> part_of p q) ->
  forall q words, part_of [PKey "Resources"; PKey n] q ->
    ((exists ty d p a, object_with sp rts pts t ty d p a /\ F ty d p a q words) <-> (exists ty d p a, object_with sp rts pts t' ty d p a /\ F ty d p a q words)).
Proof.
  intros W W' E B q words Q. split; intros (ty & d & p & a & O & H); exists ty, d, p, a; (split; [|exact H]).
  - exact (same_object _ _ _ _ _ _ _ _ _ _ _ W E Q (B _ _ _ _ _ _ H) O).
  - exact (same_object _ _ _ _ _ _ _ _ _ _ _ W' (eq_sym E) Q (B _ _ _ _ _ _ H) O).
Qed.
Lemma single_part p prop x v q : single x (p ++ [PKey prop])%list v q -> part_of p q.
Proof. intros H. destruct (single_below _ _ _ _ H) as (r & ->). rewrite <- app_assoc. eexists; reflexivity. Qed.
Lemma value_part d p prop x r v q : property_of (VDict d) p prop x r -> single x (r ++ [PKey prop])%list v q -> part_of p q.
Proof. intros H S. destruct (value_below _ _ _ _ _ _ _ H S) as (s & ->). eexists; reflexivity. Qed.
Lemma part_refl p : part_of p p.
Proof. exists []. rewrite app_nil_r. reflexivity. Qed.
Lemma text_part ps v r s q : text_in ps v r s q -> part_of r q.
Proof. intros H. destruct H; [apply part_refl | eexists; reflexivity | eexists; reflexivity | eexists; reflexivity]. Qed.
Lemma part_trans p q r : part_of p q -> part_of q r -> part_of p r.
Proof. intros (a & ->) (b & ->). exists (a ++ b)%list. rewrite app_assoc. reflexivity. Qed.

Section Runs.
Variables (w : world) (sp : spec) (tr : translator) (k : collection) (rg man : list string) (c c' : cfn) (ds ds' : list directive) (l l' : list finding).
Hypothesis Hwf : wf (template c).
Hypothesis Hwf' : wf (template c').

(** Functions. *)
Lemma local_functions id f p : In (id, f) [("E1015", "Fn::GetAZs"); ("E1016", "Fn::ImportValue"); ("E1018", "Fn::Split"); ("E1020", "Ref"); ("E1021", "Fn::Base64"); ("E1023", "Fn::Not")] ->
  at_path p (template c) = at_path p (template c') -> ~ In (PKey f) p ->
  lints w sp tr k rg man c ds id l -> lints w sp tr k rg man c' ds' id l' -> same_places_about p c c' man ds ds' l l' id.
Proof using Hwf Hwf'.
  intros I E N H H'.
  assert (K : forall fault q, part_of p q -> (faults_at f (template c) fault q <-> faults_at f (template c') fault q)).
  { intros fault q B. split; apply same_faults with (p := p); try assumption. symmetry. exact E. }
  destruct I as [I|[I|[I|[I|[I|[I|[]]]]]]]; injection I as <- <-; eexists; eexists.
  - split; [exact (fn_getaz _ _ _ _ _ _ _ _ _ Hwf H)|]. split; [exact (fn_getaz _ _ _ _ _ _ _ _ _ Hwf' H') | exact (K _)].
  - split; [exact (fn_import _ _ _ _ _ _ _ _ _ Hwf H)|]. split; [exact (fn_import _ _ _ _ _ _ _ _ _ Hwf' H') | exact (K _)].
  - split; [exact (fn_split _ _ _ _ _ _ _ _ _ Hwf H)|]. split; [exact (fn_split _ _ _ _ _ _ _ _ _ Hwf' H') | exact (K _)].
  - split; [exact (fn_ref _ _ _ _ _ _ _ _ _ Hwf H)|]. split; [exact (fn_ref _ _ _ _ _ _ _ _ _ Hwf' H') | exact (K _)].
  - split; [exact (fn_base64 _ _ _ _ _ _ _ _ _ Hwf H)|]. split; [exact (fn_base64 _ _ _ _ _ _ _ _ _ Hwf' H') | exact (K _)].
  - split; [exact (fn_not _ _ _ _ _ _ _ _ _ Hwf H)|]. split; [exact (fn_not _ _ _ _ _ _ _ _ _ Hwf' H') | exact (K _)].
Qed.
Lemma local_condition_lists id f p : In (id, f) [("E8004", "Fn::And"); ("E8005", "Fn::Not"); ("E8006", "Fn::Or")] ->
  at_path p (template c) = at_path p (template c') -> ~ In (PKey f) p ->
  lints w sp tr k rg man c ds id l -> lints w sp tr k rg man c' ds' id l' -> same_about p c c' man ds ds' l l' id.
Proof using Hwf Hwf'.
  intros I E N H H'.
  assert (K : forall q s, part_of p q -> (condition_faults f (template c) q s <-> condition_faults f (template c') q s)).
  { intros q s B. split; apply same_conditions with (p := p); try assumption. symmetry. exact E. }
  destruct I as [I|[I|[I|[]]]]; injection I as <- <-; eexists; eexists.
  - split; [exact (fn_and _ _ _ _ _ _ _ _ _ Hwf H)|]. split; [exact (fn_and _ _ _ _ _ _ _ _ _ Hwf' H') | exact K].
  - split; [exact (fn_not_list _ _ _ _ _ _ _ _ _ Hwf H)|]. split; [exact (fn_not_list _ _ _ _ _ _ _ _ _ Hwf' H') | exact K].
  - split; [exact (fn_or _ _ _ _ _ _ _ _ _ Hwf H)|]. split; [exact (fn_or _ _ _ _ _ _ _ _ _ Hwf' H') | exact K].
Qed.
Lemma local_if p : at_path p (template c) = at_path p (template c') -> ~ In (PKey "Fn::If") p ->
  (forall q, ~ occurs "Fn::If" (template c) (VDict []) q (VList [])) -> (forall q, ~ occurs "Fn::If" (template c') (VDict []) q (VList [])) ->
  lints w sp tr k rg man c ds "E1028" l -> lints w sp tr k rg man c' ds' "E1028" l' -> same_about p c c' man ds ds' l l' "E1028".
Proof using Hwf Hwf'.
  intros E N O O' H H'. eexists. eexists. split; [exact (fn_if _ _ _ _ _ _ _ _ _ Hwf O H)|]. split; [exact (fn_if _ _ _ _ _ _ _ _ _ Hwf' O' H')|].
  intros q s B. split; apply same_ifs with (p := p); try assumption. symmetry. exact E.
Qed.

(** Members of sections: [fault n x] is what is wrong with the member [x] called [n]. *)
Lemma member_faults s n ms ms' (fault : string -> val -> path -> string -> Prop) : at_path [PKey s; PKey n] (template c) = at_path [PKey s; PKey n] (template c') ->
  section (template c) s ms -> section (template c') s ms' -> (forall m x q words, fault m x q words -> part_of [PKey s; PKey m] q) ->
  forall q words, part_of [PKey s; PKey n] q -> ((exists m x, In (m, x) ms /\ fault m x q words) <-> (exists m x, In (m, x) ms' /\ fault m x q words)).
Proof using Hwf Hwf'.
  intros E S S' F q words B. split; intros (m & x & I & H); pose proof (part_name _ _ _ [] _ B (F _ _ _ _ H)) as ->; exists n, x; (split; [|exact H]).
  - exact (same_member _ _ _ _ _ _ _ Hwf E S S' I).
  - exact (same_member _ _ _ _ _ _ _ Hwf' (eq_sym E) S' S I).
Qed.
Lemma local_names id s n ms ms' : In (id, s) [("E2003", "Parameters"); ("E3006", "Resources"); ("E6004", "Outputs"); ("E7002", "Mappings")] ->
  at_path [PKey s; PKey n] (template c) = at_path [PKey s; PKey n] (template c') -> section (template c) s ms -> section (template c') s ms' ->
  (forall m x, In (m, x) (ms ++ ms')%list -> forall t, m <> t ++ String "010" "") ->
  lints w sp tr k rg man c ds id l -> lints w sp tr k rg man c' ds' id l' -> same_about [PKey s; PKey n] c c' man ds ds' l l' id.
Proof using Hwf Hwf'.
  intros I E S S' N H H'. assert (N1 : forall m x, In (m, x) ms -> forall t, m <> t ++ String "010" "") by (intros m x J; apply (N m x); apply in_or_app; left; exact J).
  assert (N2 : forall m x, In (m, x) ms' -> forall t, m <> t ++ String "010" "") by (intros m x J; apply (N m x); apply in_or_app; right; exact J).
  pose proof (member_faults s n ms ms' (fun m x q words => ~ alphanumeric m /\ q = [PKey s; PKey m] /\ words = (singular s ++ " " ++ m ++ " has invalid name.  Name has to be alphanumeric.")) E S S') as K.
  assert (B : forall m (x : val) q words, ~ alphanumeric m /\ q = [PKey s; PKey m] /\ words = (singular s ++ " " ++ m ++ " has invalid name.  Name has to be alphanumeric.") -> part_of [PKey s; PKey m] q).
  { intros m x q words (_ & -> & _). apply part_refl. }
  specialize (K B). destruct I as [I|[I|[I|[I|[]]]]]; injection I as <- <-; eexists; eexists.
  - split; [exact (std_E2003 _ _ _ _ _ _ _ _ _ _ H S N1)|]. split; [exact (std_E2003 _ _ _ _ _ _ _ _ _ _ H' S' N2) | exact K].
  - split; [exact (std_E3006 _ _ _ _ _ _ _ _ _ _ H S N1)|]. split; [exact (std_E3006 _ _ _ _ _ _ _ _ _ _ H' S' N2) | exact K].
  - split; [exact (std_E6004 _ _ _ _ _ _ _ _ _ _ H S N1)|]. split; [exact (std_E6004 _ _ _ _ _ _ _ _ _ _ H' S' N2) | exact K].
  - split; [exact (std_E7002 _ _ _ _ _ _ _ _ _ _ H S N1)|]. split; [exact (std_E7002 _ _ _ _ _ _ _ _ _ _ H' S' N2) | exact K].
Qed.
Lemma local_mappings n ms ms' : at_path [PKey "Mappings"; PKey n] (template c) = at_path [PKey "Mappings"; PKey n] (template c') ->
  section (template c) "Mappings" ms -> section (template c') "Mappings" ms' ->
  lints w sp tr k rg man c ds "E7001" l -> lints w sp tr k rg man c' ds' "E7001" l' -> same_about [PKey "Mappings"; PKey n] c c' man ds ds' l l' "E7001".
Proof using Hwf Hwf'.
  intros E S S' H H'. eexists. eexists. split; [exact (std_E7001 _ _ _ _ _ _ _ _ _ _ H S)|]. split; [exact (std_E7001 _ _ _ _ _ _ _ _ _ _ H' S')|].
  apply (member_faults "Mappings" n ms ms' (mapping_fault (py_str (w_str w))) E S S'). intros m x q words F. destruct F; eexists; reflexivity.
Qed.
Lemma local_resources n rs rs' : at_path [PKey "Resources"; PKey n] (template c) = at_path [PKey "Resources"; PKey n] (template c') ->
  section (template c) "Resources" rs -> section (template c') "Resources" rs' -> known_regions (w_specs w) (w_regions w) ->
  lints w sp tr k rg man c ds "E3001" l -> lints w sp tr k rg man c' ds' "E3001" l' -> same_about [PKey "Resources"; PKey n] c c' man ds ds' l l' "E3001".
Proof using Hwf Hwf'.
  intros E S S' R H H'. eexists. eexists. split; [exact (std_E3001 _ _ _ _ _ _ _ _ _ _ H S (fun _ _ _ => or_intror R))|].
  split; [exact (std_E3001 _ _ _ _ _ _ _ _ _ _ H' S' (fun _ _ _ => or_intror R))|].
  apply (member_faults "Resources" n rs rs' (resource_fault (w_specs w) (w_registry_names w) (w_regions w)) E S S'). intros m x q words F. destruct F; eexists; reflexivity.
Qed.
Lemma local_definitions id s n ms ms' : In (id, s) [("E2001", "Parameters"); ("E2002", "Parameters"); ("E6002", "Outputs"); ("E6005", "Outputs")] ->
  at_path [PKey s; PKey n] (template c) = at_path [PKey s; PKey n] (template c') -> section (template c) s ms -> section (template c') s ms' ->
  (forall m x, In (m, x) (ms ++ ms')%list -> exists def, x = VDict def) ->
  lints w sp tr k rg man c ds id l -> lints w sp tr k rg man c' ds' id l' -> same_about [PKey s; PKey n] c c' man ds ds' l l' id.
Proof using Hwf Hwf'.
  intros I E S S' N H H'. assert (N1 : forall m x, In (m, x) ms -> exists def, x = VDict def) by (intros m x J; apply (N m x); apply in_or_app; left; exact J).
  assert (N2 : forall m x, In (m, x) ms' -> exists def, x = VDict def) by (intros m x J; apply (N m x); apply in_or_app; right; exact J).
  assert (K : forall fault : string -> list (string * val) -> path -> string -> Prop, (forall m def q words, fault m def q words -> part_of [PKey s; PKey m] q) ->
    forall q words, part_of [PKey s; PKey n] q -> ((exists m def, In (m, VDict def) ms /\ fault m def q words) <-> (exists m def, In (m, VDict def) ms' /\ fault m def q words))).
  { intros fault F q words B. pose proof (member_faults s n ms ms' (fun m x q words => exists def, x = VDict def /\ fault m def q words) E S S'
      (fun m x q words X => match X with ex_intro _ def (conj _ Y) => F m def q words Y end) q words B) as [X Y].
    split; intros (m & def & J & Z); [destruct X as (m2 & x & J2 & def2 & -> & Z2) | destruct Y as (m2 & x & J2 & def2 & -> & Z2)]; eauto 6. }
  destruct I as [I|[I|[I|[I|[]]]]]; injection I as <- <-; eexists; eexists.
  - split; [exact (std_E2001 _ _ _ _ _ _ _ _ _ _ H Hwf S N1)|]. split; [exact (std_E2001 _ _ _ _ _ _ _ _ _ _ H' Hwf' S' N2)|].
    apply K. intros m def q words F. destruct F; subst; eexists; reflexivity.
  - split; [exact (std_E2002 _ _ _ _ _ _ _ _ _ _ H S N1)|]. split; [exact (std_E2002 _ _ _ _ _ _ _ _ _ _ H' S' N2)|].
    intros q words B. pose proof (K (fun m def q words => exists t, assoc "Type" def = Some t /\
      ~ (exists s, t = VStr s /\ In s (VALID_PARAMETER_TYPES_SINGLE ++ VALID_PARAMETER_TYPES_LIST)%list) /\ q = [PKey "Parameters"; PKey m; PKey "Type"] /\ words = ("Parameter " ++ m ++ " has invalid type " ++ py_str (w_str w) t))) as [X Y]; [|exact B|].
    { intros m def q0 words0 (t & _ & _ & -> & _). eexists; reflexivity. }
    split; intros (m & def & t & J & Z); [destruct X as (m2 & def2 & J2 & t2 & Z2) | destruct Y as (m2 & def2 & J2 & t2 & Z2)]; eauto 8.
  - split; [exact (std_E6002 _ _ _ _ _ _ _ _ _ _ H S N1)|]. split; [exact (std_E6002 _ _ _ _ _ _ _ _ _ _ H' S' N2)|].
    apply (K (fun m def q words => ~ In "Value" (map fst def) /\ q = [PKey "Outputs"; PKey m; PKey "Value"] /\ words = ("Output " ++ m ++ " is missing property Value"))).
    intros m def q words (_ & -> & _). eexists; reflexivity.
  - split; [exact (std_E6005 _ _ _ _ _ _ _ _ _ _ H S N1)|]. split; [exact (std_E6005 _ _ _ _ _ _ _ _ _ _ H' S' N2)|].
    apply (K (fun m def q words => (exists v, assoc "Description" def = Some v /\ (forall s, v <> VStr s) /\ ~ empty v) /\ q = [PKey "Outputs"; PKey m; PKey "Description"] /\ words = "Output Description can only be a string")).
    intros m def q words (_ & -> & _). eexists; reflexivity.
Qed.

(** Policies of resources. *)
Lemma same_protected t t' n o : wf t -> at_path [PKey "Resources"; PKey n] t = at_path [PKey "Resources"; PKey n] t' -> Protect.resource t n o -> Protect.resource t' n o.
Proof using.
  clear. intros W E ((d & m & Ht & S & A) & T). split; [|exact T]. pose proof (member_there _ _ _ _ _ _ W Ht S (assoc_In _ _ _ A)) as X. rewrite E in X.
  destruct t' as [| | | | | |d']; try discriminate X. cbn [at_path] in X. destruct (assoc "Resources" d') as [[| | | | | |ms]|] eqn:G; try discriminate X.
  destruct (assoc n ms) as [y|] eqn:G2; [|discriminate X]. injection X as ->. exists d', ms. auto.
Qed.
Lemma resource_faults n (fault : string -> list (string * val) -> path -> string -> Prop) : at_path [PKey "Resources"; PKey n] (template c) = at_path [PKey "Resources"; PKey n] (template c') ->
  (forall m o q words, fault m o q words -> part_of [PKey "Resources"; PKey m] q) ->
  forall q words, part_of [PKey "Resources"; PKey n] q -> ((exists m o, Protect.resource (template c) m o /\ fault m o q words) <-> (exists m o, Protect.resource (template c') m o /\ fault m o q words)).
Proof using Hwf Hwf'.
  intros E F q words B. split; intros (m & o & R & H); pose proof (part_name _ _ _ [] _ B (F _ _ _ _ H)) as ->; exists n, o; (split; [|exact H]).
  - exact (same_protected _ _ _ _ Hwf E R).
  - exact (same_protected _ _ _ _ Hwf' (eq_sym E) R).
Qed.
Lemma local_protection id n : In id ["W3011"; "I3011"] -> at_path [PKey "Resources"; PKey n] (template c) = at_path [PKey "Resources"; PKey n] (template c') ->
  lints w sp tr k rg man c ds id l -> lints w sp tr k rg man c' ds' id l' -> same_about [PKey "Resources"; PKey n] c c' man ds ds' l l' id.
Proof using Hwf Hwf'.
  intros I E H H'. destruct I as [<-|[<-|[]]]; eexists; eexists.
  - split; [exact (std_W3011 _ _ _ _ _ _ _ _ _ H Hwf)|]. split; [exact (std_W3011 _ _ _ _ _ _ _ _ _ H' Hwf')|].
    apply (resource_faults n (fun n o q words => ~ Protect.of_type o ["AWS::Lambda::Version"; "AWS::Lambda::LayerVersion"] /\
      (Protect.keeps o "DeletionPolicy" /\ ~ Protect.given o "UpdateReplacePolicy" \/ Protect.keeps o "UpdateReplacePolicy" /\ ~ Protect.given o "DeletionPolicy") /\ q = [PKey "Resources"; PKey n] /\ words = ("Both UpdateReplacePolicy and DeletionPolicy are needed to protect Resources/" ++ n ++ " from deletion")) E).
    intros m o q words (_ & _ & -> & _). apply part_refl.
  - split; [exact (std_I3011 _ _ _ _ _ _ _ _ _ H Hwf)|]. split; [exact (std_I3011 _ _ _ _ _ _ _ _ _ H' Hwf')|].
    apply (resource_faults n (fun n o q words => Protect.of_type o Protect.stateful_types /\ ~ (Protect.given o "DeletionPolicy" /\ Protect.given o "UpdateReplacePolicy") /\ q = [PKey "Resources"; PKey n] /\ words = ("The default action when replacing/removing a resource is to delete it. Set explicit values for UpdateReplacePolicy / DeletionPolicy on potentially stateful resource: Resources/" ++ n)) E).
    intros m o q words (_ & _ & -> & _). apply part_refl.
Qed.
Lemma local_policies id attr n : In (id, attr) [("E3035", "DeletionPolicy"); ("E3036", "UpdateReplacePolicy")] ->
  at_path [PKey "Resources"; PKey n] (template c) = at_path [PKey "Resources"; PKey n] (template c') ->
  (forall t m o v, t = template c \/ t = template c' -> Protect.resource t m o -> assoc attr o = Some v -> ~ empty v) ->
  lints w sp tr k rg man c ds id l -> lints w sp tr k rg man c' ds' id l' -> same_about [PKey "Resources"; PKey n] c c' man ds ds' l l' id.
Proof using Hwf Hwf'.
  intros I E N H H'.
  assert (K : forall q words, part_of [PKey "Resources"; PKey n] q -> ((exists m o, Protect.resource (template c) m o /\ Protect.policy_fault (py_str (w_str w)) attr m o q words) <->
    (exists m o, Protect.resource (template c') m o /\ Protect.policy_fault (py_str (w_str w)) attr m o q words))).
  { apply (resource_faults n (Protect.policy_fault (py_str (w_str w)) attr) E). intros m o q words F. destruct F; subst; eexists; reflexivity. }
  destruct I as [I|[I|[]]]; injection I as <- <-; eexists; eexists.
  - split; [exact (std_E3035 _ _ _ _ _ _ _ _ _ H Hwf (fun m o v => N _ m o v (or_introl eq_refl)))|]. split; [exact (std_E3035 _ _ _ _ _ _ _ _ _ H' Hwf' (fun m o v => N _ m o v (or_intror eq_refl))) | exact K].
  - split; [exact (std_E3036 _ _ _ _ _ _ _ _ _ H Hwf (fun m o v => N _ m o v (or_introl eq_refl)))|]. split; [exact (std_E3036 _ _ _ _ _ _ _ _ _ H' Hwf' (fun m o v => N _ m o v (or_intror eq_refl))) | exact K].
Qed.

(** Properties. *)
Variable n : string.
Hypothesis Same : at_path [PKey "Resources"; PKey n] (template c) = at_path [PKey "Resources"; PKey n] (template c').
Lemma local_strings : ~ In "" (keys (rs_value_types (w_rspec w))) ->
  (each_object sp (rs_resource_types (w_rspec w)) (rs_property_types (w_rspec w)) (template c) (fun d p _ => ~ is_if (VDict d) /\ VDict d <> NoValue /\ no_null_member d p) /\ each_object sp (rs_resource_types (w_rspec w)) (rs_property_types (w_rspec w)) (template c') (fun d p _ => ~ is_if (VDict d) /\ VDict d <> NoValue /\ no_null_member d p)) ->
  lints w sp tr k rg man c ds "E3033" l -> lints w sp tr k rg man c' ds' "E3033" l' -> same_about [PKey "Resources"; PKey n] c c' man ds ds' l l' "E3033".
Proof using Hwf Hwf' Same.
  intros V ([N G] & [N' G']) H H'. eexists. eexists. split; [exact (prop_string _ _ _ _ _ _ _ _ _ H Hwf V N G)|]. split; [exact (prop_string _ _ _ _ _ _ _ _ _ H' Hwf' V N' G')|].
  refine (same_object_faults sp _ _ _ _ n (fun ty d p specs q words => exists prop ps x lo hi s, assoc prop d = Some x /\ assoc prop specs = Some ps /\ string_bounds (w_rspec w) ps lo hi /\ lo <> 0%Z /\ hi <> 0%Z /\
      single x (p ++ [PKey prop])%list (VStr s) q /\ ~ within lo hi (String.length s) /\
      words = "String has to have length between " ++ str_of_Z lo ++ " and " ++ str_of_Z hi ++ " at " ++ path_text q) Hwf Hwf' Same _).
  intros ty d p a q words (prop & ps & x & lo & hi & s & _ & _ & _ & _ & _ & S & _). exact (single_part _ _ _ _ _ S).
Qed.
Lemma local_numbers : ~ In "" (keys (rs_value_types (w_rspec w))) ->
  (each_object sp (rs_resource_types (w_rspec w)) (rs_property_types (w_rspec w)) (template c) (fun d p _ => ~ is_if (VDict d) /\ VDict d <> NoValue /\ no_null_member d p) /\ each_object sp (rs_resource_types (w_rspec w)) (rs_property_types (w_rspec w)) (template c') (fun d p _ => ~ is_if (VDict d) /\ VDict d <> NoValue /\ no_null_member d p)) ->
  lints w sp tr k rg man c ds "E3034" l -> lints w sp tr k rg man c' ds' "E3034" l' -> same_about [PKey "Resources"; PKey n] c c' man ds ds' l l' "E3034".
Proof using Hwf Hwf' Same.
  intros V ([N G] & [N' G']) H H'. eexists. eexists. split; [exact (prop_number _ _ _ _ _ _ _ _ _ H Hwf V N G)|]. split; [exact (prop_number _ _ _ _ _ _ _ _ _ H' Hwf' V N' G')|].
  refine (same_object_faults sp _ _ _ _ n (fun ty d p specs q words => exists prop ps x lo hi v, assoc prop d = Some x /\ assoc prop specs = Some ps /\ number_bounds (w_rspec w) ps lo hi /\
      single x (p ++ [PKey prop])%list v q /\ out_of_range (w_py_float w) (fst lo) (fst hi) v /\
      words = "Value has to be between " ++ snd lo ++ " and " ++ snd hi ++ " at " ++ path_text q) Hwf Hwf' Same _).
  intros ty d p a q words (prop & ps & x & lo & hi & s & _ & _ & _ & S & _). exact (single_part _ _ _ _ _ S).
Qed.
Lemma local_lists : (forall x, Permutation (w_order w x) x) -> ~ In "" (keys (rs_value_types (w_rspec w))) ->
  each_object sp (rs_resource_types (w_rspec w)) (rs_property_types (w_rspec w)) (template c) (fun d p _ => all_objects (VDict d) p /\
     forall e q, branch (VDict d) p (VDict e) q -> plain_object e /\ VDict e <> no_value /\ forall m, ~ members_look_at e m) /\ (each_object sp (rs_resource_types (w_rspec w)) (rs_property_types (w_rspec w)) (template c') (fun d p _ => all_objects (VDict d) p /\
     forall e q, branch (VDict d) p (VDict e) q -> plain_object e /\ VDict e <> no_value /\ forall m, ~ members_look_at e m)) ->
  lints w sp tr k rg man c ds "E3032" l -> lints w sp tr k rg man c' ds' "E3032" l' -> same_about [PKey "Resources"; PKey n] c c' man ds ds' l l' "E3032".
Proof using Hwf Hwf' Same.
  intros O V ([N G] & [N' G']) H H'. eexists. eexists. split; [exact (prop_list _ _ _ _ _ _ _ _ _ H Hwf O V N G)|]. split; [exact (prop_list _ _ _ _ _ _ _ _ _ H' Hwf' O V N' G')|].
  refine (same_object_faults sp _ _ _ _ n (fun ty d p specs q words => exists e r prop ps lo hi items, branch (VDict d) p (VDict e) r /\ assoc prop specs = Some ps /\ list_bounds (w_rspec w) ps lo hi /\
      assoc prop e = Some (VList items) /\ ~ within lo hi (List.length items) /\
      q = (r ++ [PKey prop])%list /\ words = prop ++ " has to have between " ++ str_of_Z lo ++ " and " ++ str_of_Z hi ++ " items specified") Hwf Hwf' Same _).
  intros ty d p a q words (e & r & prop & ps & lo & hi & items & B & _ & _ & _ & _ & -> & _). destruct (branch_below _ _ _ _ B) as (x & ->). rewrite <- app_assoc. eexists; reflexivity.
Qed.
Lemma local_values : ~ In "" (keys (w_values w)) ->
  (each_object sp (rs_resource_types (w_rspec w)) (rs_property_types (w_rspec w)) (template c) (fun d p _ => all_objects (VDict d) p /\ no_null_property (VDict d) p) /\ each_object sp (rs_resource_types (w_rspec w)) (rs_property_types (w_rspec w)) (template c') (fun d p _ => all_objects (VDict d) p /\ no_null_property (VDict d) p)) ->
  lints w sp tr k rg man c ds "E3030" l -> lints w sp tr k rg man c' ds' "E3030" l' -> same_about [PKey "Resources"; PKey n] c c' man ds ds' l l' "E3030".
Proof using Hwf Hwf' Same.
  intros V ([N G] & [N' G']) H H'. eexists. eexists. split; [exact (prop_allowed _ _ _ _ _ _ _ _ _ H Hwf V N G)|]. split; [exact (prop_allowed _ _ _ _ _ _ _ _ _ H' Hwf' V N' G')|].
  refine (same_object_faults sp _ _ _ _ n (fun ty d p specs q words => exists prop x r ps vr v, property_of (VDict d) p prop x r /\ assoc prop specs = Some ps /\ restricts (w_values w) "ValueType" ps vr /\
      vr_allowed vr <> [] /\ single x (r ++ [PKey prop])%list v q /\ ~ is_call v /\
      ~ mentions_resolve (py_str (w_str w) v) /\ ~ In (py_str (w_str w) v) (vr_allowed vr) /\
      words = "You must specify a valid value for " ++ prop ++ " (" ++ py_str (w_str w) v ++ "). Valid values are " ++ dumps (fun _ => "") (VList (map VStr (vr_allowed vr)))) Hwf Hwf' Same _).
  intros ty d p a q words (prop & x & r & ps & vr & v & B & _ & _ & _ & S & _). exact (value_part _ _ _ _ _ _ _ B S).
Qed.
Lemma local_patterns : ~ In "" (keys (w_values w)) ->
  (each_object sp (rs_resource_types (w_rspec w)) (rs_property_types (w_rspec w)) (template c) (fun d p _ => all_objects (VDict d) p /\ no_null_property (VDict d) p) /\ each_object sp (rs_resource_types (w_rspec w)) (rs_property_types (w_rspec w)) (template c') (fun d p _ => all_objects (VDict d) p /\ no_null_property (VDict d) p)) ->
  lints w sp tr k rg man c ds "E3031" l -> lints w sp tr k rg man c' ds' "E3031" l' -> same_about [PKey "Resources"; PKey n] c c' man ds ds' l l' "E3031".
Proof using Hwf Hwf' Same.
  intros V ([N G] & [N' G']) H H'. eexists. eexists. split; [exact (prop_pattern _ _ _ _ _ _ _ _ _ H Hwf V N G)|]. split; [exact (prop_pattern _ _ _ _ _ _ _ _ _ H' Hwf' V N' G')|].
  refine (same_object_faults sp _ _ _ _ n (fun ty d p specs q words => exists prop x r ps vr v, property_of (VDict d) p prop x r /\ assoc prop specs = Some ps /\ restricts (w_values w) "ValueType" ps vr /\
      vr_pattern vr <> "" /\ single x (r ++ [PKey prop])%list v q /\ Values.has_text v /\
      ~ mentions_resolve (py_str (w_str w) v) /\ w_matches w (vr_pattern vr) (py_str (w_str w) v) = false /\
      words = prop ++ " contains invalid characters (Pattern: " ++ match vr_pattern_text vr with Some t => t | None => vr_pattern vr end ++ ") at " ++ path_text q) Hwf Hwf' Same _).
  intros ty d p a q words (prop & x & r & ps & vr & v & B & _ & _ & _ & S & _). exact (value_part _ _ _ _ _ _ _ B S).
Qed.
Lemma local_secure :
  each_object sp (rs_resource_types (w_rspec w)) (rs_property_types (w_rspec w)) (template c) (fun d p _ => no_null_member d p /\
     forall prop x r, assoc prop d = Some x -> ~ single x (p ++ [PKey prop])%list (VDict [("Fn::Sub", VList [])]) r) /\ (each_object sp (rs_resource_types (w_rspec w)) (rs_property_types (w_rspec w)) (template c') (fun d p _ => no_null_member d p /\
     forall prop x r, assoc prop d = Some x -> ~ single x (p ++ [PKey prop])%list (VDict [("Fn::Sub", VList [])]) r)) ->
  lints w sp tr k rg man c ds "E1027" l -> lints w sp tr k rg man c' ds' "E1027" l' -> same_about [PKey "Resources"; PKey n] c c' man ds ds' l l' "E1027".
Proof using Hwf Hwf' Same.
  intros ([N G] & [N' G']) H H'. eexists. eexists. split; [exact (prop_secure _ _ _ _ _ _ _ _ _ H Hwf N G)|]. split; [exact (prop_secure _ _ _ _ _ _ _ _ _ H' Hwf' N' G')|].
  refine (same_object_faults sp _ _ _ _ n (fun ty d p specs q words => exists prop x ps t v r s, assoc prop d = Some x /\ assoc prop specs = Some ps /\ has_primitive ps t /\ ~ In (ty, prop) secure_places /\
      single x (p ++ [PKey prop])%list v r /\ text_in ps v r s q /\ versioned_reference "ssm-secure" s /\
      words = "Dynamic Reference secure strings are not supported for this property at " ++ path_text q) Hwf Hwf' Same _).
  intros ty d p a q words (prop & x & ps & t & v & r & s & _ & _ & _ & _ & S & T & _). exact (part_trans _ _ _ (single_part _ _ _ _ _ S) (text_part _ _ _ _ _ T)).
Qed.
Lemma local_exclusive : (forall x, Permutation (w_order w x) x) ->
  (each_object sp (fst (w_exclusive w)) (snd (w_exclusive w)) (template c) (fun d p _ => plain_object d /\ VDict d <> no_value /\ forall m, ~ members_look_at d m) /\ each_object sp (fst (w_exclusive w)) (snd (w_exclusive w)) (template c') (fun d p _ => plain_object d /\ VDict d <> no_value /\ forall m, ~ members_look_at d m)) ->
  lints w sp tr k rg man c ds "E2520" l -> lints w sp tr k rg man c' ds' "E2520" l' -> same_about [PKey "Resources"; PKey n] c c' man ds ds' l l' "E2520".
Proof using Hwf Hwf' Same.
  intros O ([N G] & [N' G']) H H'. eexists. eexists. split; [exact (prop_exclusive _ _ _ _ _ _ _ _ _ H Hwf O N G)|]. split; [exact (prop_exclusive _ _ _ _ _ _ _ _ _ H' Hwf' O N' G')|].
  refine (same_object_faults sp _ _ _ _ n (fun ty d p table q words => exists d' a e, pruned d d' /\ lists table a e /\ both (keys d') a e /\ q = (p ++ [PKey a])%list /\ words = "Property " ++ e ++ " should NOT exist with " ++ a ++ " for " ++ path_text p) Hwf Hwf' Same _).
  intros ty d p a q words (d' & x & e & _ & _ & _ & -> & _). eexists; reflexivity.
Qed.
Lemma local_inclusive : (forall x, Permutation (w_order w x) x) ->
  (each_object sp (fst (w_inclusive w)) (snd (w_inclusive w)) (template c) (fun d p _ => plain_object d /\ VDict d <> no_value /\ forall m, ~ members_look_at d m) /\ each_object sp (fst (w_inclusive w)) (snd (w_inclusive w)) (template c') (fun d p _ => plain_object d /\ VDict d <> no_value /\ forall m, ~ members_look_at d m)) ->
  lints w sp tr k rg man c ds "E2521" l -> lints w sp tr k rg man c' ds' "E2521" l' -> same_about [PKey "Resources"; PKey n] c c' man ds ds' l l' "E2521".
Proof using Hwf Hwf' Same.
  intros O ([N G] & [N' G']) H H'. eexists. eexists. split; [exact (prop_inclusive _ _ _ _ _ _ _ _ _ H Hwf O N G)|]. split; [exact (prop_inclusive _ _ _ _ _ _ _ _ _ H' Hwf' O N' G')|].
  refine (same_object_faults sp _ _ _ _ n (fun ty d p table q words => exists d' a e, pruned d d' /\ lists table a e /\ only_first (keys d') a e /\ q = p /\ words = "Property " ++ e ++ " should exist with " ++ a ++ " for " ++ path_text p) Hwf Hwf' Same _).
  intros ty d p a q words (d' & x & e & _ & _ & _ & -> & _). apply part_refl.
Qed.
Lemma local_at_least : (forall x, Permutation (w_order w x) x) -> (each_object sp (fst (w_at_least_one w)) (snd (w_at_least_one w)) (template c) (fun d p groups => groups_fit d p groups) /\ each_object sp (fst (w_at_least_one w)) (snd (w_at_least_one w)) (template c') (fun d p groups => groups_fit d p groups)) ->
  lints w sp tr k rg man c ds "E2522" l -> lints w sp tr k rg man c' ds' "E2522" l' -> same_about [PKey "Resources"; PKey n] c c' man ds ds' l l' "E2522".
Proof using Hwf Hwf' Same.
  intros O ([N G] & [N' G']) H H'. eexists. eexists. split; [exact (prop_at_least _ _ _ _ _ _ _ _ _ H Hwf O N G)|]. split; [exact (prop_at_least _ _ _ _ _ _ _ _ _ H' Hwf' O N' G')|].
  refine (same_object_faults sp _ _ _ _ n (fun ty d p groups q words => exists e r group, branch (VDict d) p (VDict e) r /\ In group groups /\ none_of group (keys e) /\
      q = p /\ words = "At least one of [" ++ join_str ", " group ++ "] should be specified for " ++ path_text r) Hwf Hwf' Same _).
  intros ty d p a q words (e & r & group & _ & _ & _ & -> & _). apply part_refl.
Qed.
Lemma local_only_one : (forall x, Permutation (w_order w x) x) -> (each_object sp (fst (w_only_one w)) (snd (w_only_one w)) (template c) (fun d p groups => groups_fit d p groups) /\ each_object sp (fst (w_only_one w)) (snd (w_only_one w)) (template c') (fun d p groups => groups_fit d p groups)) ->
  lints w sp tr k rg man c ds "E2523" l -> lints w sp tr k rg man c' ds' "E2523" l' -> same_about [PKey "Resources"; PKey n] c c' man ds ds' l l' "E2523".
Proof using Hwf Hwf' Same.
  intros O ([N G] & [N' G']) H H'. eexists. eexists. split; [exact (prop_only_one _ _ _ _ _ _ _ _ _ H Hwf O N G)|]. split; [exact (prop_only_one _ _ _ _ _ _ _ _ _ H' Hwf' O N' G')|].
  refine (same_object_faults sp _ _ _ _ n (fun ty d p groups q words => exists e r group, branch (VDict d) p (VDict e) r /\ In group groups /\ ~ exactly_one group (keys e) /\
      q = p /\ words = "Only one of [" ++ join_str ", " group ++ "] should be specified for " ++ path_text r) Hwf Hwf' Same _).
  intros ty d p a q words (e & r & group & _ & _ & _ & -> & _). apply part_refl.
Qed.
Lemma local_required :
  (forall t, t = template c \/ t = template c' -> types_are_texts t /\ objects_nested sp (rs_property_types (w_rspec w)) t /\
    (forall name rt attrs x, resource_of t name rt attrs -> custom_type (w_rspec w) rt -> assoc "Properties" attrs = Some x ->
       exists props, x = VDict props /\ all_members (VDict props) [PKey "Resources"; PKey name; PKey "Properties"]) /\
    (forall m d p specs, object_with sp (rs_resource_types (w_rspec w)) (rs_property_types (w_rspec w)) t m d p specs -> all_members (VDict d) p)) ->
  lints w sp tr k rg man c ds "E3003" l -> lints w sp tr k rg man c' ds' "E3003" l' -> same_about [PKey "Resources"; PKey n] c c' man ds ds' l l' "E3003".
Proof using Hwf Hwf' Same.
  intros Hyp H H'. destruct (Hyp _ (or_introl eq_refl)) as (A1 & A2 & A3 & A4). destruct (Hyp _ (or_intror eq_refl)) as (B1 & B2 & B3 & B4).
  eexists. eexists. split; [exact (prop_required _ _ _ _ _ _ _ _ _ H Hwf A1 A2 A3 A4)|]. split; [exact (prop_required _ _ _ _ _ _ _ _ _ H' Hwf' B1 B2 B3 B4)|].
  assert (K : forall t t', wf t -> at_path [PKey "Resources"; PKey n] t = at_path [PKey "Resources"; PKey n] t' -> forall q words, part_of [PKey "Resources"; PKey n] q ->
    (exists d p v name, branch (VDict d) p v q /\ lacks v name /\ words = "Property " ++ name ++ " missing at " ++ path_text q /\
    ((exists rt, properties_of t rt d p /\ requires (rs_resource_types (w_rspec w)) rt name) \/
     (exists m, nested_of sp t m (VDict d) p /\ requires (rs_property_types (w_rspec w)) m name) \/
     (exists rt, properties_of t rt d p /\ custom_type (w_rspec w) rt /\ requires (rs_resource_types (w_rspec w)) "AWS::CloudFormation::CustomResource" name))) ->
    exists d p v name, branch (VDict d) p v q /\ lacks v name /\ words = "Property " ++ name ++ " missing at " ++ path_text q /\
    ((exists rt, properties_of t' rt d p /\ requires (rs_resource_types (w_rspec w)) rt name) \/
     (exists m, nested_of sp t' m (VDict d) p /\ requires (rs_property_types (w_rspec w)) m name) \/
     (exists rt, properties_of t' rt d p /\ custom_type (w_rspec w) rt /\ requires (rs_resource_types (w_rspec w)) "AWS::CloudFormation::CustomResource" name))).
  { clear. intros t t' W E q words Q (d & p & v & name & B & L & X & C). exists d, p, v, name. split; [exact B|]. split; [exact L|]. split; [exact X|].
    assert (Bp : part_of p q) by (destruct (branch_below _ _ _ _ B) as (r & ->); eexists; reflexivity).
    destruct C as [(rt & P & R) | [(m & P & R) | (rt & P & R)]].
    - left. exists rt. split; [exact (same_properties _ _ _ _ _ _ _ W E Q Bp P) | exact R].
    - right. left. exists m. split; [exact (same_nested _ _ _ _ _ _ _ _ W E Q Bp P) | exact R].
    - right. right. exists rt. split; [exact (same_properties _ _ _ _ _ _ _ W E Q Bp P) | exact R]. }
  intros q words Q. split; apply K; [exact Hwf | exact Same | exact Q | exact Hwf' | exact (eq_sym Same) | exact Q].
Qed.
End Runs.
