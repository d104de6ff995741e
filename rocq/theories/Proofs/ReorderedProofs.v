(** The order of members does not matter to the rules (C109). *)
From Coq Require Import List String Permutation Lia.
From Verif.Model Require Import Base Node Locate Helpers Rules Runner Config Core Refs Limits Shape Standard.
From Verif.Spec Require Import Pipeline Paths References Limited ConditionUse ParameterUse FunctionArguments Faults Protect Shipped ShippedPlaces Reordered.
From Verif.Proofs Require Import BaseFacts SearchProofs StandardProofs StandardRules StandardPlaces StandardTemplates StandardFunctions RefProofs ReorderedFacts.
Import Verif.Model.Rules.
Import ListNotations.
Local Open Scope string_scope.

(** A kind of value that does not depend on the order. *)
Lemma keeps_not (P : val -> Prop) : (forall v v', alike v v' -> P v -> P v') -> forall v v', alike v v' -> ~ P v -> ~ P v'.
Proof. intros K v v' A N H. exact (N (K _ _ (alike_sym _ _ A) H)). Qed.
Lemma keep_text v v' : alike v v' -> text v -> text v'.
Proof. intros A (s & ->). rewrite (alike_text _ _ A). exists s. reflexivity. Qed.
Lemma keep_object v v' : alike v v' -> object v -> object v'.
Proof. intros A (d & ->). destruct (alike_dict _ _ A) as (d' & ->). exists d'. reflexivity. Qed.
Lemma keep_list v v' : alike v v' -> list_ok v -> list_ok v'.
Proof. intros A (l & ->). destruct (alike_list _ _ A) as (l' & -> & _). exists l'. reflexivity. Qed.
Lemma keep_one (K : string -> Prop) v v' : alike v v' -> (exists k x, v = VDict [(k, x)] /\ K k) -> exists k x, v' = VDict [(k, x)] /\ K k.
Proof. intros A (k & x & -> & H). destruct (alike_one _ _ _ A) as (x' & -> & _). exists k, x'. auto. Qed.
Lemma keep_base64 v v' : alike v v' -> base64_ok v -> base64_ok v'.
Proof. intros A [H | H]; [left; exact (keep_text _ _ A H) | right; exact (keep_one _ _ _ A H)]. Qed.
Lemma keep_import v v' : alike v v' -> import_ok v -> import_ok v'.
Proof. intros A [H | H]; [left; exact (keep_text _ _ A H) | right; exact (keep_one _ _ _ A H)]. Qed.
Lemma keep_getaz rg v v' : alike v v' -> getaz_ok rg v -> getaz_ok rg v'.
Proof.
  intros A [-> | [(s & -> & H) | ->]].
  - rewrite (alike_text _ _ A). left. reflexivity.
  - rewrite (alike_text _ _ A). right. left. exists s. auto.
  - destruct (alike_one _ _ _ A) as (x' & -> & R). rewrite (alike_text _ _ R). right. right. reflexivity.
Qed.
Lemma keep_empty v v' : alike v v' -> empty v -> empty v'.
Proof.
  intros A H. destruct v as [| | | | | l|d].
  1-5: rewrite (alike_single _ _ A Logic.I); exact H.
  - destruct H as [H|[H|[H|[(q & H & _)|[H|[H|H]]]]]]; try discriminate H. injection H as ->. destruct (alike_list _ _ A) as (l' & -> & F).
    inversion F; subst. right. right. right. right. right. left. reflexivity.
  - destruct H as [H|[H|[H|[(q & H & _)|[H|[H|H]]]]]]; try discriminate H. injection H as ->. destruct (alike_dict _ _ A) as (d' & ->).
    pose proof (alike_length _ _ A) as L. destruct d'; [|discriminate L]. right. right. right. right. right. right. reflexivity.
Qed.
Lemma not_one v v' : alike v v' -> (forall k x, v <> VDict [(k, x)]) -> forall k x, v' <> VDict [(k, x)].
Proof. intros A N k x ->. destruct (alike_one _ _ _ (alike_sym _ _ A)) as (x' & -> & _). exact (N _ _ eq_refl). Qed.
Lemma not_list v v' : alike v v' -> (forall l, v <> VList l) -> forall l, v' <> VList l.
Proof. intros A N l ->. destruct (alike_list _ _ (alike_sym _ _ A)) as (x' & -> & _). exact (N _ eq_refl). Qed.
Lemma not_text v v' : alike v v' -> (forall s, v <> VStr s) -> forall s, v' <> VStr s.
Proof. intros A N s ->. apply alike_sym, alike_text in A. exact (N _ A). Qed.
Lemma alike_pair a b v' : alike (VList [a; b]) v' -> exists a' b', v' = VList [a'; b'] /\ alike a a' /\ alike b b'.
Proof.
  intros A. destruct (alike_list _ _ A) as (l' & -> & F). inversion F as [|? a' ? m Ra Fb]; subst. inversion Fb as [|? b' ? m2 Rb Fc]; subst.
  inversion Fc; subst. exists a', b'. auto.
Qed.
Lemma keep_split p v v' r : alike v v' -> split_fault p v r -> split_fault p v' r.
Proof.
  intros A H. destruct H as [v N | d s N | d k x N | d s N M].
  - apply sf_shape. intros d s ->. destruct (alike_pair _ _ _ (alike_sym _ _ A)) as (a & b & -> & _). exact (N _ _ eq_refl).
  - destruct (alike_pair _ _ _ A) as (a & b & -> & Ra & Rb). apply sf_delimiter. exact (keeps_not _ keep_text _ _ Ra N).
  - destruct (alike_pair _ _ _ A) as (a & b & -> & Ra & Rb). destruct (alike_one _ _ _ Rb) as (x' & -> & _). apply sf_function. exact N.
  - destruct (alike_pair _ _ _ A) as (a & b & -> & Ra & Rb). apply sf_source; [exact (keeps_not _ keep_text _ _ Rb N) | exact (not_one _ _ Rb M)].
Qed.
Lemma forall2_len {A B} (P : A -> B -> Prop) l l' : Forall2 P l l' -> List.length l' = List.length l.
Proof. intros F. induction F; [reflexivity|]. cbn. congruence. Qed.
Lemma keep_list_fault f v v' r s : alike v v' -> list_fault f v r s -> list_fault f v' r s.
Proof.
  intros A H. destruct H as [v N | l E N | l E N | l i x B N M | l i k y B N M].
  - apply lf_list. exact (not_list _ _ A N).
  - destruct (alike_list _ _ A) as (l' & -> & F). apply lf_one; [exact E | rewrite (forall2_len _ _ _ F); exact N].
  - destruct (alike_list _ _ A) as (l' & -> & F). apply lf_many; [exact E | rewrite (forall2_len _ _ _ F); exact N].
  - destruct (alike_list _ _ A) as (l' & -> & F). destruct (alike_nth _ _ _ _ F N) as (x' & N' & R).
    apply (lf_item _ _ _ x'); [rewrite (forall2_len _ _ _ F); exact B | exact N' | exact (not_one _ _ R M)].
  - destruct (alike_list _ _ A) as (l' & -> & F). destruct (alike_nth _ _ _ _ F N) as (x' & N' & R). destruct (alike_one _ _ _ R) as (y' & -> & _).
    apply (lf_key _ _ _ k y'); [rewrite (forall2_len _ _ _ F); exact B | exact N' | exact M].
Qed.
Lemma keep_if_fault v v' r s : alike v v' -> if_fault v r s -> if_fault v' r s.
Proof.
  intros A H. destruct H as [v N | x rest N].
  - apply if_list. intros a b c ->. destruct (alike_list _ _ (alike_sym _ _ A)) as (l' & -> & F). apply forall2_len in F.
    destruct l' as [|a1 [|b1 [|c1 [|d1 l']]]]; try discriminate F. exact (N _ _ _ eq_refl).
  - destruct (alike_list _ _ A) as (l' & -> & F). inversion F; subst. apply if_name. eapply not_text; eassumption.
Qed.
Lemma keep_condition_fault n v v' r s : alike v v' -> condition_fault n v r s -> condition_fault n v' r s.
Proof.
  intros A H. destruct H as [k y N | d N | x N].
  - destruct (alike_one _ _ _ A) as (y' & -> & _). apply cn_key. exact N.
  - destruct (alike_dict _ _ A) as (d' & ->). apply cn_count. rewrite <- (alike_length _ _ A). exact N.
  - apply cn_value. intros d ->. destruct (alike_dict _ _ (alike_sym _ _ A)) as (d' & ->). exact (N _ eq_refl).
Qed.

(** Uses of functions. *)
Lemma faults_keep f t t' (fault : path -> val -> path -> Prop) : (forall p v v' r, alike v v' -> fault p v r -> fault p v' r) -> alike t t' ->
  forall q, faults_at f t fault q <-> faults_at f t' fault q.
Proof.
  intros K A q. split; intros (p & v & r & O & F & ->).
  - destruct (alike_occurs _ _ _ _ _ A O) as (v' & O' & R). exists p, v', r. split; [exact O'|]. split; [exact (K _ _ _ _ R F) | reflexivity].
  - destruct (alike_occurs _ _ _ _ _ (alike_sym _ _ A) O) as (v' & O' & R). exists p, v', r. split; [exact O'|]. split; [exact (K _ _ _ _ R F) | reflexivity].
Qed.
Lemma keep_unless (ok : val -> Prop) : (forall v v', alike v v' -> ok v -> ok v') -> forall p v v' r, alike v v' -> unless ok p v r -> unless ok p v' r.
Proof. intros K p v v' r A [E N]. exact (conj E (keeps_not _ K _ _ A N)). Qed.

(** An equivalence from one direction, as the relation is symmetric. *)
Lemma both (P : val -> path -> string -> Prop) : (forall t t' q s, alike t t' -> P t q s -> P t' q s) -> forall t t' q s, alike t t' -> (P t q s <-> P t' q s).
Proof. intros K t t' q s A. split; apply K; [exact A | exact (alike_sym _ _ A)]. Qed.

Lemma keep_condition_faults f t t' q s : alike t t' -> condition_faults f t q s -> condition_faults f t' q s.
Proof.
  intros A (p & v & r & O & F & ->). destruct (alike_occurs _ _ _ _ _ A O) as (v' & O' & R). exists p, v', r.
  split; [exact O'|]. split; [exact (keep_list_fault _ _ _ _ _ R F) | reflexivity].
Qed.
Lemma keep_if_faults t t' q s : alike t t' -> if_faults t q s -> if_faults t' q s.
Proof.
  intros A (p & v & r & O & F & ->). destruct (alike_occurs _ _ _ _ _ A O) as (v' & O' & R). exists p, v', r.
  split; [exact O'|]. split; [exact (keep_if_fault _ _ _ _ R F) | reflexivity].
Qed.
Lemma keep_resource t t' n o : alike t t' -> Protect.resource t n o -> exists o', Protect.resource t' n o' /\ alike (VDict o) (VDict o').
Proof.
  intros A (D & u & T & N). destruct (alike_defined _ _ _ _ _ A D) as (o' & D' & R). exists o'. split; [|exact R]. split; [exact D'|].
  destruct (alike_assoc _ _ _ _ R T) as (u' & T' & R2). exists u'. split; [exact T'|]. intros ->. apply N. exact (alike_single _ _ (alike_sym _ _ R2) Logic.I).
Qed.
Lemma keep_type o o' ts : alike (VDict o) (VDict o') -> of_type o ts -> of_type o' ts.
Proof. intros A (t & E & H). destruct (alike_assoc _ _ _ _ A E) as (v & E' & R). rewrite (alike_text _ _ R) in E'. exists t. auto. Qed.
Lemma keep_given o o' a : alike (VDict o) (VDict o') -> Protect.given o a -> Protect.given o' a.
Proof.
  intros A (v & E & N). destruct (alike_assoc _ _ _ _ A E) as (v' & E' & R). exists v'. split; [exact E'|]. exact (keeps_not _ keep_empty _ _ R N).
Qed.
Lemma keep_keeps o o' a : alike (VDict o) (VDict o') -> keeps o a -> keeps o' a.
Proof.
  intros A [G N]. split; [exact (keep_given _ _ _ A G)|]. intros E. destruct (alike_assoc _ _ _ _ (alike_sym _ _ A) E) as (v & E' & R).
  rewrite (alike_text _ _ R) in E'. exact (N E').
Qed.
Lemma keep_protected t t' q s : alike t t' -> (exists n o, Protect.resource t n o /\ ~ of_type o ["AWS::Lambda::Version"; "AWS::Lambda::LayerVersion"] /\
      (keeps o "DeletionPolicy" /\ ~ Protect.given o "UpdateReplacePolicy" \/ keeps o "UpdateReplacePolicy" /\ ~ Protect.given o "DeletionPolicy") /\ q = [PKey "Resources"; PKey n] /\ s = ("Both UpdateReplacePolicy and DeletionPolicy are needed to protect Resources/" ++ n ++ " from deletion")) ->
  exists n o, Protect.resource t' n o /\ ~ of_type o ["AWS::Lambda::Version"; "AWS::Lambda::LayerVersion"] /\
      (keeps o "DeletionPolicy" /\ ~ Protect.given o "UpdateReplacePolicy" \/ keeps o "UpdateReplacePolicy" /\ ~ Protect.given o "DeletionPolicy") /\ q = [PKey "Resources"; PKey n] /\ s = ("Both UpdateReplacePolicy and DeletionPolicy are needed to protect Resources/" ++ n ++ " from deletion").
Proof.
  intros A (n & o & R & T & K & Hq & Hs). destruct (keep_resource _ _ _ _ A R) as (o' & R' & Ao). pose proof (alike_sym _ _ Ao) as As. exists n, o'.
  split; [exact R'|]. split; [intros H; exact (T (keep_type _ _ _ As H))|]. split; [|auto].
  destruct K as [[K N] | [K N]]; [left | right]; (split; [exact (keep_keeps _ _ _ Ao K) | intros H; exact (N (keep_given _ _ _ As H))]).
Qed.
Lemma keep_stateful t t' q s : alike t t' ->
  (exists n o, Protect.resource t n o /\ of_type o stateful_types /\ ~ (Protect.given o "DeletionPolicy" /\ Protect.given o "UpdateReplacePolicy") /\ q = [PKey "Resources"; PKey n] /\ s = ("The default action when replacing/removing a resource is to delete it. Set explicit values for UpdateReplacePolicy / DeletionPolicy on potentially stateful resource: Resources/" ++ n)) ->
  exists n o, Protect.resource t' n o /\ of_type o stateful_types /\ ~ (Protect.given o "DeletionPolicy" /\ Protect.given o "UpdateReplacePolicy") /\ q = [PKey "Resources"; PKey n] /\ s = ("The default action when replacing/removing a resource is to delete it. Set explicit values for UpdateReplacePolicy / DeletionPolicy on potentially stateful resource: Resources/" ++ n).
Proof.
  intros A (n & o & R & T & K & Hq & Hs). destruct (keep_resource _ _ _ _ A R) as (o' & R' & Ao). pose proof (alike_sym _ _ Ao) as As. exists n, o'.
  split; [exact R'|]. split; [exact (keep_type _ _ _ Ao T)|]. split; [|auto].
  intros [H1 H2]. exact (K (conj (keep_given _ _ _ As H1) (keep_given _ _ _ As H2))).
Qed.
Lemma keep_shared t t' q s : alike t t' ->
  (exists n o d ps, Protect.resource t n o /\ t = VDict d /\ assoc "Parameters" d = Some (VDict ps) /\ In n (map fst ps) /\ q = [PKey "Resources"; PKey n] /\ s = ("Resources and Parameters must not share name: " ++ n)) ->
  exists n o d ps, Protect.resource t' n o /\ t' = VDict d /\ assoc "Parameters" d = Some (VDict ps) /\ In n (map fst ps) /\ q = [PKey "Resources"; PKey n] /\ s = ("Resources and Parameters must not share name: " ++ n).
Proof.
  intros A (n & o & d & ps & R & -> & E & I & Hq & Hs). destruct (keep_resource _ _ _ _ A R) as (o' & R' & Ao). destruct (alike_dict _ _ A) as (d' & ->).
  destruct (alike_assoc _ _ _ _ A E) as (x & E' & Ap). destruct (alike_dict _ _ Ap) as (ps' & ->). exists n, o', d', ps'.
  split; [exact R'|]. split; [reflexivity|]. split; [exact E'|]. split; [exact (alike_keys _ _ _ Ap I) | auto].
Qed.
Lemma keep_template d d' q s : alike (VDict d) (VDict d') -> template_fault d q s -> template_fault d' q s.
Proof.
  intros A [k I N | N]; [apply tf_unknown; [exact (alike_keys _ _ _ A I) | exact N] | apply tf_missing; intros I; exact (N (alike_keys _ _ _ (alike_sym _ _ A) I))].
Qed.
Lemma keep_section t t' s ms : alike t t' -> section t s ms -> exists ms', section t' s ms' /\ alike (VDict ms) (VDict ms').
Proof.
  intros A (d & -> & E). destruct (alike_dict _ _ A) as (d' & ->). destruct (alike_assoc _ _ _ _ A E) as (x & E' & R). destruct (alike_dict _ _ R) as (ms' & ->).
  exists ms'. split; [exists d'; auto | exact R].
Qed.
Lemma keep_parameter n def def' q s : alike (VDict def) (VDict def') -> parameter_fault n def q s -> parameter_fault n def' q s.
Proof.
  intros A H. destruct H as [k v I N | k v p I T C E | v p I N E | l i x p I Nt C E | k v p I T N E | v p I N E | k v t u I O T N M | N].
  - destruct (alike_in _ _ _ _ A I) as (v' & I' & _). exact (pf_unknown _ _ _ _ I' N).
  - destruct (alike_in _ _ _ _ A I) as (v' & I' & R). refine (pf_text _ _ _ _ _ I' T _ E).
    destruct C as [(d & ->) | (l & ->)]; [left; exact (alike_dict _ _ R) | right; destruct (alike_list _ _ R) as (l' & -> & _); exists l'; reflexivity].
  - destruct (alike_in _ _ _ _ A I) as (v' & I' & R). exact (pf_list _ _ _ _ I' (not_list _ _ R N) E).
  - destruct (alike_in _ _ _ _ A I) as (v' & I' & R). destruct (alike_list _ _ R) as (l' & -> & F). destruct (alike_nth _ _ _ _ F Nt) as (x' & Nt' & Rx).
    refine (pf_item _ _ _ _ _ _ I' Nt' _ E).
    destruct C as [(d & ->) | (m & ->)]; [left; exact (alike_dict _ _ Rx) | right; destruct (alike_list _ _ Rx) as (m' & -> & _); exists m'; reflexivity].
  - destruct (alike_in _ _ _ _ A I) as (v' & I' & R). refine (pf_integer _ _ _ _ _ I' T _ E). intros H. apply N. apply alike_sym in R.
    destruct H; rewrite (alike_single _ _ R Logic.I); [constructor | constructor | econstructor; eassumption].
  - destruct (alike_in _ _ _ _ A I) as (v' & I' & R). refine (pf_logical _ _ _ _ I' _ E). intros H. apply N. apply alike_sym in R.
    destruct H; rewrite (alike_single _ _ R Logic.I); constructor; assumption.
  - destruct (alike_in _ _ _ _ A I) as (v' & I' & R). destruct (alike_assoc _ _ _ _ A T) as (u' & T' & Ru).
    refine (pf_only_for _ _ _ _ _ _ I' O T' (keeps_not _ keep_empty _ _ Ru N) _). intros ->. apply M. exact (alike_text _ _ (alike_sym _ _ Ru)).
  - apply pf_type. intros I. exact (N (alike_keys _ _ _ (alike_sym _ _ A) I)).
Qed.
Lemma keep_sub_text v v' s : alike v v' -> sub_text v s -> sub_text v' s.
Proof.
  intros A H. destruct H as [s | s rest]; [rewrite (alike_text _ _ A); constructor|]. destruct (alike_list _ _ A) as (l' & -> & F).
  inversion F as [|? a ? m Ra Fm]; subst. rewrite (alike_text _ _ Ra). constructor.
Qed.
Lemma keep_uses t t' n : alike t t' -> uses_parameter t n -> uses_parameter t' n.
Proof.
  intros A [p O | p v s O T I]; destruct (alike_occurs _ _ _ _ _ A O) as (v' & O' & R).
  - rewrite (alike_text _ _ R) in O'. exact (up_ref _ _ _ O').
  - exact (up_sub _ _ _ _ _ O' (keep_sub_text _ _ _ R T) I).
Qed.
Lemma keep_head f t t' p s rest : alike t t' -> occurs f t (VDict []) p (VList (VStr s :: rest)) -> exists rest', occurs f t' (VDict []) p (VList (VStr s :: rest')).
Proof.
  intros A O. destruct (alike_occurs _ _ _ _ _ A O) as (v' & O' & R). destruct (alike_list _ _ R) as (l' & -> & F).
  inversion F as [|? a ? m Ra Fm]; subst. rewrite (alike_text _ _ Ra) in O'. exists m. exact O'.
Qed.
Lemma keep_mapping t t' n : alike t t' -> names_mapping t n -> names_mapping t' n.
Proof.
  intros A (p & [O | (rest & O)]).
  - destruct (alike_occurs _ _ _ _ _ A O) as (v' & O' & R). rewrite (alike_text _ _ R) in O'. exists p. left. exact O'.
  - destruct (keep_head _ _ _ _ _ _ A O) as (rest' & O'). exists p. right. exists rest'. exact O'.
Qed.
Lemma keep_computed t t' : alike t t' -> computes_mapping t -> computes_mapping t'.
Proof.
  intros A (p & d & rest & O). destruct (alike_occurs _ _ _ _ _ A O) as (v' & O' & R). destruct (alike_list _ _ R) as (l' & -> & F).
  inversion F as [|? a ? m Ra Fm]; subst. destruct (alike_dict _ _ Ra) as (d' & ->). exists p, d', m. exact O'.
Qed.
Lemma keep_condition t t' n : alike t t' -> uses_condition t (VDict []) n -> uses_condition t' (VDict []) n.
Proof.
  intros A [p rest O | r o u D T N C | p P | r o D C].
  - destruct (keep_head _ _ _ _ _ _ A O) as (rest' & O'). exact (uc_if _ _ _ _ _ O').
  - destruct (alike_defined _ _ _ _ _ A D) as (o' & D' & R). destruct (alike_assoc _ _ _ _ R T) as (u' & T' & Ru). destruct (alike_assoc _ _ _ _ R C) as (x & C' & Rx).
    rewrite (alike_text _ _ Rx) in C'. refine (uc_resource _ _ _ _ _ _ D' T' _ C'). intros ->. apply N. exact (alike_single _ _ (alike_sym _ _ Ru) Logic.I).
  - destruct (alike_at _ _ _ _ A P) as (x & P' & R). rewrite (alike_text _ _ R) in P'. exact (uc_reference _ _ _ _ P').
  - destruct (alike_defined _ _ _ _ _ A D) as (o' & D' & R). destruct (alike_assoc _ _ _ _ R C) as (x & C' & Rx). rewrite (alike_text _ _ Rx) in C'.
    exact (uc_output _ _ _ _ _ D' C').
Qed.
Lemma keep_defined t t' n : alike t t' -> condition_defined t n -> condition_defined t' n.
Proof.
  intros A (d & cs & -> & E & I). destruct (alike_dict _ _ A) as (d' & ->). destruct (alike_assoc _ _ _ _ A E) as (x & E' & R). destruct (alike_dict _ _ R) as (cs' & ->).
  exists d', cs'. split; [reflexivity|]. split; [exact E' | exact (alike_keys _ _ _ R I)].
Qed.
Lemma keep_no_if t t' : alike t t' -> (forall p, ~ occurs "Fn::If" t (VDict []) p (VList [])) -> forall p, ~ occurs "Fn::If" t' (VDict []) p (VList []).
Proof.
  intros A N p O. destruct (alike_occurs _ _ _ _ _ (alike_sym _ _ A) O) as (v' & O' & R). destruct (alike_list _ _ R) as (l' & -> & F). inversion F; subst. exact (N _ O').
Qed.
Lemma keep_names t t' n : alike t t' -> References.names t n -> References.names t' n.
Proof.
  intros A [m o u D T | m o u D T N E | m I].
  - destruct (alike_defined _ _ _ _ _ A D) as (o' & D' & R). destruct (alike_assoc _ _ _ _ R T) as (u' & T' & _). exact (nm_parameter _ _ _ _ D' T').
  - destruct (alike_defined _ _ _ _ _ A D) as (o' & D' & R). destruct (alike_assoc _ _ _ _ R T) as (u' & T' & Ru). rewrite (alike_text _ _ Ru) in T'.
    exact (nm_resource _ _ _ _ D' T' N E).
  - exact (nm_pseudo _ _ I).
Qed.
Lemma keep_module t t' n : alike t t' -> References.module t n -> References.module t' n.
Proof.
  intros A (o & u & D & T & E). destruct (alike_defined _ _ _ _ _ A D) as (o' & D' & R). destruct (alike_assoc _ _ _ _ R T) as (u' & T' & Ru).
  rewrite (alike_text _ _ Ru) in T'. exists o', u. auto.
Qed.
Lemma keep_plain_uses t t' : alike t t' -> plain_uses t (VDict []) -> plain_uses t' (VDict []).
Proof.
  intros A ((d & -> & Hc & Ho) & G & N). destruct (alike_dict _ _ A) as (d' & ->). pose proof (alike_sym _ _ A) as As.
  split; [|split; [exact G | exact (keep_no_if _ _ A N)]]. exists d'. split; [reflexivity|]. split.
  - intros s E. destruct (alike_assoc _ _ _ _ As E) as (s0 & E0 & R). destruct (Hc _ E0) as (m & ->). exact (alike_dict _ _ (alike_sym _ _ R)).
  - intros s E. destruct (alike_assoc _ _ _ _ As E) as (s0 & E0 & R). destruct (Ho _ E0) as (m & -> & Hm). destruct (alike_dict _ _ (alike_sym _ _ R)) as (m' & ->).
    exists m'. split; [reflexivity|]. intros n x I. destruct (alike_in _ _ _ _ R I) as (x0 & I0 & Rx). destruct (Hm _ _ I0) as (o & -> & Hd).
    destruct (alike_dict _ _ (alike_sym _ _ Rx)) as (o' & ->). exists o'. split; [reflexivity|]. intros c C.
    destruct (alike_assoc _ _ _ _ Rx C) as (c0 & C0 & Rc). destruct (Hd _ C0) as (u & ->). exists u. exact (alike_text _ _ (alike_sym _ _ Rc)).
Qed.
Lemma keep_plain_sections t t' : alike t t' -> plain_sections t -> plain_sections t'.
Proof.
  intros A (d & -> & H). destruct (alike_dict _ _ A) as (d' & ->). pose proof (alike_sym _ _ A) as As. exists d'. split; [reflexivity|].
  intros sec s I E. destruct (alike_assoc _ _ _ _ As E) as (s0 & E0 & R). destruct (H _ _ I E0) as (m & -> & Hm). destruct (alike_dict _ _ (alike_sym _ _ R)) as (m' & ->).
  exists m'. split; [reflexivity|]. intros n x In1. destruct (alike_in _ _ _ _ R In1) as (x0 & I0 & Rx). destruct (Hm _ _ I0) as (o & -> & Ht & He).
  destruct (alike_dict _ _ (alike_sym _ _ Rx)) as (o' & ->). exists o'. split; [reflexivity|]. split; [|exact He]. intros S t T.
  destruct (alike_assoc _ _ _ _ Rx T) as (t0 & T0 & Rt). destruct (Ht S _ T0) as (u & ->). exists u. exact (alike_text _ _ (alike_sym _ _ Rt)).
Qed.

Section Runs.
Variables (w : world) (sp : spec) (tr : translator) (k : collection) (rg man : list string) (c c' : cfn) (ds ds' : list directive) (l l' : list finding).
Hypothesis Hwf : wf (template c).
Hypothesis Hre : reordered (template c) (template c').

(** Functions. *)
Lemma order_functions id : In id ["E1015"; "E1016"; "E1018"; "E1020"; "E1021"; "E1023"] ->
  lints w sp tr k rg man c ds id l -> lints w sp tr k rg man c' ds' id l' -> same_places c c' man ds ds' l l' id.
Proof using Hwf Hre.
  intros I H H'. pose proof (alike_of _ _ Hwf Hre) as A. pose proof (proj1 (proj2 A)) as Hwf'.
  destruct I as [<-|[<-|[<-|[<-|[<-|[<-|[]]]]]]].
  - eapply places_of; [|exact (fn_getaz _ _ _ _ _ _ _ _ _ Hwf H) | exact (fn_getaz _ _ _ _ _ _ _ _ _ Hwf' H')]. apply faults_keep; [|exact A].
    intros p v v' r R (E & T & N). split; [exact E|]. split; [|exact (keeps_not _ (keep_getaz _) _ _ R N)].
    destruct T as [T|T]; [left; exact (keep_text _ _ R T) | right; exact (keep_object _ _ R T)].
  - eapply places_of; [|exact (fn_import _ _ _ _ _ _ _ _ _ Hwf H) | exact (fn_import _ _ _ _ _ _ _ _ _ Hwf' H')]. apply faults_keep; [|exact A].
    intros p v v' r R (E & [N|N]); (split; [exact E|]); [left; exact (keeps_not _ keep_import _ _ R N) | right; exact N].
  - eapply places_of; [|exact (fn_split _ _ _ _ _ _ _ _ _ Hwf H) | exact (fn_split _ _ _ _ _ _ _ _ _ Hwf' H')]. apply faults_keep; [exact keep_split | exact A].
  - eapply places_of; [|exact (fn_ref _ _ _ _ _ _ _ _ _ Hwf H) | exact (fn_ref _ _ _ _ _ _ _ _ _ Hwf' H')]. apply faults_keep; [exact (keep_unless _ keep_text) | exact A].
  - eapply places_of; [|exact (fn_base64 _ _ _ _ _ _ _ _ _ Hwf H) | exact (fn_base64 _ _ _ _ _ _ _ _ _ Hwf' H')]. apply faults_keep; [exact (keep_unless _ keep_base64) | exact A].
  - eapply places_of; [|exact (fn_not _ _ _ _ _ _ _ _ _ Hwf H) | exact (fn_not _ _ _ _ _ _ _ _ _ Hwf' H')]. apply faults_keep; [exact (keep_unless _ keep_list) | exact A].
Qed.

(** Rules about conditions, sections and policies. *)
Lemma order_sections id : In id ["E8004"; "E8005"; "E8006"; "W3011"; "I3011"; "E1001"; "E1004"] ->
  lints w sp tr k rg man c ds id l -> lints w sp tr k rg man c' ds' id l' -> same_reports c c' man ds ds' l l' id.
Proof using Hwf Hre.
  intros I H H'. pose proof (alike_of _ _ Hwf Hre) as A. pose proof (proj1 (proj2 A)) as Hwf'.
  destruct I as [<-|[<-|[<-|[<-|[<-|[<-|[<-|[]]]]]]]].
  - eapply same_of; [|exact (fn_and _ _ _ _ _ _ _ _ _ Hwf H) | exact (fn_and _ _ _ _ _ _ _ _ _ Hwf' H')].
    intros q s. exact (both _ (fun t t' q s => keep_condition_faults "Fn::And" t t' q s) _ _ q s A).
  - eapply same_of; [|exact (fn_not_list _ _ _ _ _ _ _ _ _ Hwf H) | exact (fn_not_list _ _ _ _ _ _ _ _ _ Hwf' H')].
    intros q s. exact (both _ (fun t t' q s => keep_condition_faults "Fn::Not" t t' q s) _ _ q s A).
  - eapply same_of; [|exact (fn_or _ _ _ _ _ _ _ _ _ Hwf H) | exact (fn_or _ _ _ _ _ _ _ _ _ Hwf' H')].
    intros q s. exact (both _ (fun t t' q s => keep_condition_faults "Fn::Or" t t' q s) _ _ q s A).
  - eapply same_of; [|exact (std_W3011 _ _ _ _ _ _ _ _ _ H Hwf) | exact (std_W3011 _ _ _ _ _ _ _ _ _ H' Hwf')].
    intros q s. cbv beta. split; apply keep_protected; [exact A | exact (alike_sym _ _ A)].
  - eapply same_of; [|exact (std_I3011 _ _ _ _ _ _ _ _ _ H Hwf) | exact (std_I3011 _ _ _ _ _ _ _ _ _ H' Hwf')].
    intros q s. cbv beta. split; apply keep_stateful; [exact A | exact (alike_sym _ _ A)].
  - assert (D : exists d, template c = VDict d) by (destruct H as (_ & _ & _ & _ & _ & (m & d & E) & _); unfold template; rewrite E; eexists; reflexivity).
    destruct D as (d & D). rewrite D in A. destruct (alike_dict _ _ A) as (d' & D'). rewrite D' in A.
    eapply same_of; [|exact (tmpl_E1001 _ _ _ _ _ _ _ _ _ _ H D) | exact (tmpl_E1001 _ _ _ _ _ _ _ _ _ _ H' D')].
    intros q s. split; apply keep_template; [exact A | exact (alike_sym _ _ A)].
  - assert (D : exists d, template c = VDict d) by (destruct H as (_ & _ & _ & _ & _ & (m & d & E) & _); unfold template; rewrite E; eexists; reflexivity).
    destruct D as (d & D). rewrite D in A. destruct (alike_dict _ _ A) as (d' & D'). rewrite D' in A.
    eapply same_of; [|exact (tmpl_E1004 _ _ _ _ _ _ _ _ _ _ H D) | exact (tmpl_E1004 _ _ _ _ _ _ _ _ _ _ H' D')].
    enough (K : forall d d', alike (VDict d) (VDict d') -> (exists v, assoc "Description" d = Some v /\ (forall s, v <> VStr s) /\ ~ empty v) -> exists v, assoc "Description" d' = Some v /\ (forall s, v <> VStr s) /\ ~ empty v).
    { intros q s. cbv beta. split; intros [X Y]; (split; [|exact Y]); eapply K; [exact A | exact X | exact (alike_sym _ _ A) | exact X]. }
    clear. intros d d' A (v & E & N & M). destruct (alike_assoc _ _ _ _ A E) as (v' & E' & R). exists v'. split; [exact E'|].
    split; [exact (not_text _ _ R N) | exact (keeps_not _ keep_empty _ _ R M)].
Qed.

(** Names. *)
Lemma order_names id s ms : In (id, s) [("E2003", "Parameters"); ("E3006", "Resources"); ("E6004", "Outputs"); ("E7002", "Mappings")] ->
  section (template c) s ms -> (forall n x, In (n, x) ms -> forall t, n <> t ++ String "010" "") ->
  lints w sp tr k rg man c ds id l -> lints w sp tr k rg man c' ds' id l' -> same_reports c c' man ds ds' l l' id.
Proof using Hwf Hre.
  intros I S N H H'. pose proof (alike_of _ _ Hwf Hre) as A. destruct (keep_section _ _ _ _ A S) as (ms' & S' & R).
  assert (N' : forall n x, In (n, x) ms' -> forall t, n <> t ++ String "010" "").
  { intros n x In1. destruct (alike_in _ _ _ _ (alike_sym _ _ R) In1) as (x' & I' & _). exact (N _ _ I'). }
  assert (K : forall ms ms', alike (VDict ms) (VDict ms') -> forall q words, (exists n x, In (n, x) ms /\ ~ alphanumeric n /\ q = [PKey s; PKey n] /\ words = (singular s ++ " " ++ n ++ " has invalid name.  Name has to be alphanumeric.")) ->
    exists n x, In (n, x) ms' /\ ~ alphanumeric n /\ q = [PKey s; PKey n] /\ words = (singular s ++ " " ++ n ++ " has invalid name.  Name has to be alphanumeric.")).
  { clear. intros ms ms' R q words (n & x & I & Na & Hq). destruct (alike_in _ _ _ _ R I) as (x' & I' & _). exists n, x'. auto. }
  destruct I as [I|[I|[I|[I|[]]]]]; injection I as <- <-.
  - eapply same_of; [|exact (std_E2003 _ _ _ _ _ _ _ _ _ _ H S N) | exact (std_E2003 _ _ _ _ _ _ _ _ _ _ H' S' N')]. intros q words. split; apply K; [exact R | exact (alike_sym _ _ R)].
  - eapply same_of; [|exact (std_E3006 _ _ _ _ _ _ _ _ _ _ H S N) | exact (std_E3006 _ _ _ _ _ _ _ _ _ _ H' S' N')]. intros q words. split; apply K; [exact R | exact (alike_sym _ _ R)].
  - eapply same_of; [|exact (std_E6004 _ _ _ _ _ _ _ _ _ _ H S N) | exact (std_E6004 _ _ _ _ _ _ _ _ _ _ H' S' N')]. intros q words. split; apply K; [exact R | exact (alike_sym _ _ R)].
  - eapply same_of; [|exact (std_E7002 _ _ _ _ _ _ _ _ _ _ H S N) | exact (std_E7002 _ _ _ _ _ _ _ _ _ _ H' S' N')]. intros q words. split; apply K; [exact R | exact (alike_sym _ _ R)].
Qed.

(** Parameters and outputs that are objects. *)
Lemma keep_objects ms ms' : alike (VDict ms) (VDict ms') -> (forall n x, In (n, x) ms -> exists def, x = VDict def) -> forall n x, In (n, x) ms' -> exists def : list (string * val), x = VDict def.
Proof using.
  clear. intros R N n x I. destruct (alike_in _ _ _ _ (alike_sym _ _ R) I) as (x' & I' & Rx). destruct (N _ _ I') as (def & ->). exact (alike_dict _ _ (alike_sym _ _ Rx)).
Qed.
Lemma order_definitions id s ms : In (id, s) [("E2001", "Parameters"); ("E6002", "Outputs"); ("E6005", "Outputs")] ->
  section (template c) s ms -> (forall n x, In (n, x) ms -> exists def, x = VDict def) ->
  lints w sp tr k rg man c ds id l -> lints w sp tr k rg man c' ds' id l' -> same_reports c c' man ds ds' l l' id.
Proof using Hwf Hre.
  intros I S N H H'. pose proof (alike_of _ _ Hwf Hre) as A. destruct (keep_section _ _ _ _ A S) as (ms' & S' & R). pose proof (keep_objects _ _ R N) as N'.
  assert (K : forall (P : string -> list (string * val) -> path -> string -> Prop), (forall n def def' q words, alike (VDict def) (VDict def') -> P n def q words -> P n def' q words) ->
    forall q words, (exists n def, In (n, VDict def) ms /\ P n def q words) <-> exists n def, In (n, VDict def) ms' /\ P n def q words).
  { clear - R. intros P K q words. split; intros (n & def & I & Hp).
    - destruct (alike_in _ _ _ _ R I) as (x & I' & Rx). destruct (alike_dict _ _ Rx) as (def' & ->). exists n, def'. split; [exact I' | exact (K _ _ _ _ _ Rx Hp)].
    - destruct (alike_in _ _ _ _ (alike_sym _ _ R) I) as (x & I' & Rx). destruct (alike_dict _ _ Rx) as (def' & ->). exists n, def'. split; [exact I' | exact (K _ _ _ _ _ Rx Hp)]. }
  destruct I as [I|[I|[I|[]]]]; injection I as <- <-.
  - eapply same_of; [|exact (std_E2001 _ _ _ _ _ _ _ _ _ _ H Hwf S N) | exact (std_E2001 _ _ _ _ _ _ _ _ _ _ H' (proj1 (proj2 A)) S' N')].
    apply (K parameter_fault). intros n def def' q words Rd. apply keep_parameter. exact Rd.
  - eapply same_of; [|exact (std_E6002 _ _ _ _ _ _ _ _ _ _ H S N) | exact (std_E6002 _ _ _ _ _ _ _ _ _ _ H' S' N')].
    apply (K (fun n def q words => ~ In "Value" (map fst def) /\ q = [PKey "Outputs"; PKey n; PKey "Value"] /\ words = ("Output " ++ n ++ " is missing property Value"))).
    intros n def def' q words Rd (M & X). split; [|exact X]. intros Z. exact (M (alike_keys _ _ _ (alike_sym _ _ Rd) Z)).
  - eapply same_of; [|exact (std_E6005 _ _ _ _ _ _ _ _ _ _ H S N) | exact (std_E6005 _ _ _ _ _ _ _ _ _ _ H' S' N')].
    apply (K (fun n def q words => (exists v, assoc "Description" def = Some v /\ (forall s, v <> VStr s) /\ ~ empty v) /\ q = [PKey "Outputs"; PKey n; PKey "Description"] /\ words = "Output Description can only be a string")).
    intros n def def' q words Rd ((v & E & M & Z) & X). split; [|exact X]. destruct (alike_assoc _ _ _ _ Rd E) as (v' & E' & Rv). exists v'.
    split; [exact E'|]. split; [exact (not_text _ _ Rv M) | exact (keeps_not _ keep_empty _ _ Rv Z)].
Qed.

(** Names that resources and parameters share. *)
Lemma order_shared : (forall d v, template c = VDict d -> assoc "Parameters" d = Some v -> exists ps, v = VDict ps) ->
  lints w sp tr k rg man c ds "E3007" l -> lints w sp tr k rg man c' ds' "E3007" l' -> same_reports c c' man ds ds' l l' "E3007".
Proof using Hwf Hre.
  intros N H H'. pose proof (alike_of _ _ Hwf Hre) as A.
  assert (N' : forall d v, template c' = VDict d -> assoc "Parameters" d = Some v -> exists ps, v = VDict ps).
  { intros d v E G. rewrite E in A. destruct (alike_dict _ _ (alike_sym _ _ A)) as (d0 & E0). rewrite E0 in A. destruct (alike_assoc _ _ _ _ (alike_sym _ _ A) G) as (v0 & G0 & R).
    destruct (N _ _ E0 G0) as (ps & ->). exact (alike_dict _ _ (alike_sym _ _ R)). }
  eapply same_of; [|exact (std_E3007 _ _ _ _ _ _ _ _ _ H Hwf N) | exact (std_E3007 _ _ _ _ _ _ _ _ _ H' (proj1 (proj2 A)) N')].
  intros q s. cbv beta. split; apply keep_shared; [exact A | exact (alike_sym _ _ A)].
Qed.

(** Fn::If and uses of conditions. *)
Lemma order_if : (forall p, ~ occurs "Fn::If" (template c) (VDict []) p (VList [])) ->
  lints w sp tr k rg man c ds "E1028" l -> lints w sp tr k rg man c' ds' "E1028" l' -> same_reports c c' man ds ds' l l' "E1028".
Proof using Hwf Hre.
  intros N H H'. pose proof (alike_of _ _ Hwf Hre) as A. pose proof (keep_no_if _ _ A N) as N'.
  eapply same_of; [|exact (fn_if _ _ _ _ _ _ _ _ _ Hwf N H) | exact (fn_if _ _ _ _ _ _ _ _ _ (proj1 (proj2 A)) N' H')].
  intros q s. exact (both _ keep_if_faults _ _ q s A).
Qed.
Lemma order_conditions : plain_uses (template c) (VDict []) ->
  lints w sp tr k rg man c ds "W8001" l -> lints w sp tr k rg man c' ds' "W8001" l' -> same_reports c c' man ds ds' l l' "W8001".
Proof using Hwf Hre.
  intros N H H'. pose proof (alike_of _ _ Hwf Hre) as A. pose proof (keep_plain_uses _ _ A N) as N'.
  eapply same_of; [|exact (std_W8001 _ _ _ _ _ _ _ _ _ H Hwf N) | exact (std_W8001 _ _ _ _ _ _ _ _ _ H' (proj1 (proj2 A)) N')].
  enough (K : forall t t', alike t t' -> forall q s, (exists n, condition_defined t n /\ ~ uses_condition t (VDict []) n /\ (forall p, ~ occurs "Fn::If" t (VDict []) p (VStr n)) /\
      q = [PKey "Conditions"; PKey n] /\ s = "Condition " ++ n ++ " not used") -> exists n, condition_defined t' n /\ ~ uses_condition t' (VDict []) n /\ (forall p, ~ occurs "Fn::If" t' (VDict []) p (VStr n)) /\
      q = [PKey "Conditions"; PKey n] /\ s = "Condition " ++ n ++ " not used").
  { intros q s. split; apply K; [exact A | exact (alike_sym _ _ A)]. }
  clear. intros t t' A q s (n & D & U & O & X). pose proof (alike_sym _ _ A) as As. exists n. split; [exact (keep_defined _ _ _ A D)|].
  split; [intros Z; exact (U (keep_condition _ _ _ As Z))|]. split; [|exact X]. intros p Z. destruct (alike_occurs _ _ _ _ _ As Z) as (v & Z' & R).
  rewrite (alike_text _ _ R) in Z'. exact (O _ Z').
Qed.

(** Parameters and mappings that are not used. *)
Lemma order_unused ps : section (template c) "Parameters" ps -> (forall n x, In (n, x) ps -> n <> "" /\ alphanumeric n) ->
  (forall p v, occurs "Fn::Sub" (template c) (VDict []) p v -> exists s, sub_text v s /\ closed s) ->
  lints w sp tr k rg man c ds "W2001" l -> lints w sp tr k rg man c' ds' "W2001" l' -> same_reports c c' man ds ds' l l' "W2001".
Proof using Hwf Hre.
  intros S N C H H'. pose proof (alike_of _ _ Hwf Hre) as A. destruct (keep_section _ _ _ _ A S) as (ps' & S' & R). pose proof (alike_sym _ _ A) as As. pose proof (alike_sym _ _ R) as Rs.
  assert (N' : forall n x, In (n, x) ps' -> n <> "" /\ alphanumeric n) by (intros n x I; destruct (alike_in _ _ _ _ Rs I) as (x' & I' & _); exact (N _ _ I')).
  assert (C' : forall p v, occurs "Fn::Sub" (template c') (VDict []) p v -> exists s, sub_text v s /\ closed s).
  { intros p v O. destruct (alike_occurs _ _ _ _ _ As O) as (v' & O' & Rv). destruct (C _ _ O') as (s & T & Z). exists s. split; [exact (keep_sub_text _ _ _ (alike_sym _ _ Rv) T) | exact Z]. }
  eapply same_of; [|exact (std_W2001 _ _ _ _ _ _ _ _ _ _ H Hwf S N C) | exact (std_W2001 _ _ _ _ _ _ _ _ _ _ H' (proj1 (proj2 A)) S' N' C')].
  intros q s. split; intros (n & x & I & U & X).
  - destruct (alike_in _ _ _ _ R I) as (x' & I' & _). exists n, x'. split; [exact I'|]. split; [intros Z; exact (U (keep_uses _ _ _ As Z)) | exact X].
  - destruct (alike_in _ _ _ _ Rs I) as (x' & I' & _). exists n, x'. split; [exact I'|]. split; [intros Z; exact (U (keep_uses _ _ _ A Z)) | exact X].
Qed.
Lemma order_mappings ms : section (template c) "Mappings" ms -> (forall p, ~ occurs "Fn::FindInMap" (template c) (VDict []) p (VList [])) ->
  lints w sp tr k rg man c ds "W7001" l -> lints w sp tr k rg man c' ds' "W7001" l' -> same_reports c c' man ds ds' l l' "W7001".
Proof using Hwf Hre.
  intros S N H H'. pose proof (alike_of _ _ Hwf Hre) as A. destruct (keep_section _ _ _ _ A S) as (ms' & S' & R). pose proof (alike_sym _ _ A) as As. pose proof (alike_sym _ _ R) as Rs.
  assert (N' : forall p, ~ occurs "Fn::FindInMap" (template c') (VDict []) p (VList [])).
  { intros p O. destruct (alike_occurs _ _ _ _ _ As O) as (v' & O' & Rv). destruct (alike_list _ _ Rv) as (m & -> & F). inversion F; subst. exact (N _ O'). }
  eapply same_of; [|exact (std_W7001 _ _ _ _ _ _ _ _ _ _ H Hwf S N) | exact (std_W7001 _ _ _ _ _ _ _ _ _ _ H' (proj1 (proj2 A)) S' N')].
  intros q s. split; intros (n & x & I & U & V & X).
  - destruct (alike_in _ _ _ _ R I) as (x' & I' & _). exists n, x'. split; [exact I'|].
    split; [intros Z; exact (U (keep_mapping _ _ _ As Z)) | split; [intros Z; exact (V (keep_computed _ _ As Z)) | exact X]].
  - destruct (alike_in _ _ _ _ Rs I) as (x' & I' & _). exists n, x'. split; [exact I'|].
    split; [intros Z; exact (U (keep_mapping _ _ _ A Z)) | split; [intros Z; exact (V (keep_computed _ _ A Z)) | exact X]].
Qed.

(** References to what is not there. *)
Lemma order_refs : plain_sections (template c) -> at_path [PKey "Ref"] (template c) = None ->
  (forall p v, occurs "Ref" (template c) (VDict []) p v -> (forall z, v <> VInt z) /\ forall b, v <> VBool b) ->
  lints w sp tr k rg man c ds "E1012" l -> lints w sp tr k rg man c' ds' "E1012" l' -> same_reports c c' man ds ds' l l' "E1012".
Proof using Hwf Hre.
  intros S N C H H'. pose proof (alike_of _ _ Hwf Hre) as A. pose proof (alike_sym _ _ A) as As. pose proof (keep_plain_sections _ _ A S) as S'.
  pose proof (alike_nowhere _ _ _ A N) as N'. pose proof (proj1 (proj2 A)) as Hwf'.
  assert (C' : forall p v, occurs "Ref" (template c') (VDict []) p v -> (forall z, v <> VInt z) /\ forall b, v <> VBool b).
  { intros p v O. destruct (alike_occurs _ _ _ _ _ As O) as (v' & O' & Rv). destruct (C _ _ O') as [C1 C2].
    split; [intros z -> | intros b ->]; rewrite (alike_single _ _ Rv Logic.I) in *; [exact (C1 _ eq_refl) | exact (C2 _ eq_refl)]. }
  destruct (c21_runs (template c) (VDict []) Hwf wf_empty S C) as (ms & E). destruct (c21_runs (template c') (VDict []) Hwf' wf_empty S' C') as (ms' & E').
  eapply same_of; [|exact (std_E1012 _ _ _ _ _ _ _ _ _ _ H Hwf S N E) | exact (std_E1012 _ _ _ _ _ _ _ _ _ _ H' Hwf' S' N' E')].
  enough (K : forall t t', alike t t' -> forall q words, (exists s, at_path (q ++ [PKey "Ref"])%list t = Some (VStr s) /\ words = "Ref " ++ s ++ " not found as a resource or parameter" /\
      forall n rest, References.names t n \/ References.module t n -> s <> n ++ rest) -> exists s, at_path (q ++ [PKey "Ref"])%list t' = Some (VStr s) /\ words = "Ref " ++ s ++ " not found as a resource or parameter" /\
      forall n rest, References.names t' n \/ References.module t' n -> s <> n ++ rest).
  { intros q words. split; apply K; [exact A | exact As]. }
  clear. intros t t' A q words (s & P & X & Y). pose proof (alike_sym _ _ A) as As. destruct (alike_at _ _ _ _ A P) as (v & P' & R). rewrite (alike_text _ _ R) in P'.
  exists s. split; [exact P'|]. split; [exact X|]. intros n rest [Z|Z]; apply Y; [left; exact (keep_names _ _ _ As Z) | right; exact (keep_module _ _ _ As Z)].
Qed.
End Runs.
