(** C75: block devices (E2504). *)
From Coq Require Import List Lia Ascii.
From Verif.Model Require Import Base Locate Helpers Node Search Rules Refs Relationship Functions PropertyRules SubProps.
From Verif.Spec Require Import Paths Branches References Walk Values Permissions SubProps.
From Verif.Proofs Require Import BaseFacts SearchProofs BranchProofs PropertyRuleProofs UpdatePolicyProofs CidrProofs Says PermissionProofs ValueRun TargetProofs MatchRun SubPropsProofs.
Import Verif.Model.Rules.
Import ListNotations.
Local Open Scope string_scope.

Lemma append_newline_inj a b : a ++ String newline_char "" = b ++ String newline_char "" -> a = b.
Proof.
  revert b. induction a as [|x a IH]; intros [|y b] E; cbn [append] in E; [reflexivity| | |].
  - injection E as _ E. destruct b; discriminate.
  - injection E as _ E. destruct a; discriminate.
  - injection E as -> E. f_equal. now apply IH.
Qed.
(** What a text is without a last newline, if that is of one line. *)
Lemma drop_exact s x : without newline_char x -> (drop_last_newline s = x <-> s = x \/ s = x ++ String newline_char "").
Proof.
  intros Hx. assert (Hn : forall t, x <> t ++ String newline_char "").
  { intros t ->. apply Hx. clear. induction t as [|a t IH]; [now left | right; exact IH]. }
  destruct (drop_spec s) as [[t [-> ->]]|[Ht ->]].
  - split; [intros ->; now right|]. intros [E|E]; [now elim (Hn t) | now apply append_newline_inj].
  - split; [now left|]. intros [E|E]; [exact E | now elim (Ht x)].
Qed.
Lemma ephemeral_iff s : ephemeral s = true <-> ephemeral_name s.
Proof.
  unfold ephemeral, ephemeral_name. rewrite smem_iff. unfold ephemeral_names. rewrite in_map_iff.
  assert (Hw : forall n, n < 24 -> without newline_char ("ephemeral" ++ str_of_Z (Z.of_nat n))).
  { intros n Hn. apply without_iff. do 24 (destruct n as [|n]; [reflexivity|]). lia. }
  split.
  - intros [n [E Hn]]. apply in_seq in Hn. assert (Hn' : n < 24) by lia. exists n. split; [exact Hn'|]. symmetry in E. apply drop_exact in E; [|now apply Hw].
    destruct E as [E|E]; [now left | right; now rewrite append_assoc in E].
  - intros [n [Hn E]]. exists n. split; [|apply in_seq; lia]. symmetry. apply drop_exact; [now apply Hw|]. rewrite append_assoc. exact E.
Qed.
(** The values of a member that is not null. *)
Lemma left_out_iff key d : left_out key d <-> forall x, assoc key d = Some x -> x = VNull.
Proof.
  unfold left_out. destruct (assoc key d) as [x|]; split; [intros [[=]|[= ->]]; congruence | intros H; right; now rewrite (H x eq_refl) | intros _; discriminate | now left].
Qed.
Lemma left_out_dec key d : left_out key d \/ exists x, assoc key d = Some x /\ x <> VNull.
Proof. unfold left_out. destruct (assoc key d) as [x|]; [|now left; left]. destruct x; (now left; right) || (right; eexists; split; [reflexivity | discriminate]). Qed.
Lemma given_not_left key d x : assoc key d = Some x -> x <> VNull -> ~ left_out key d.
Proof. intros E Hx [K|K]; congruence. Qed.
Lemma values_left key d p : left_out key d -> get_values (VDict d) key p = Ok None.
Proof. intros [H|H]; unfold get_values; now rewrite H. Qed.
Definition device_words (d : list (string * val)) (p : path) (m : rulematch) : Prop :=
  exists q words, device_fault d p q words /\ m = mkRM q (words ++ path_text q).
Definition device_shaped (d : list (string * val)) : Prop :=
  (left_out "VirtualName" d \/ exists s, assoc "VirtualName" d = Some (VStr s)) /\
  forall e key y r, assoc "Ebs" d = Some (VDict e) -> In key ["VolumeType"; "Iops"] -> assoc key e = Some y -> y = VNull \/ ~ alternative y [] VNull r.
Lemma ebs_says d e p : left_out "VirtualName" d \/ assoc "VirtualName" d = Some (VStr "") -> assoc "Ebs" d = Some (VDict e) ->
  (forall key y r, In key ["VolumeType"; "Iops"] -> assoc key e = Some y -> y = VNull \/ ~ alternative y [] VNull r) ->
  says (check_ebs (VDict e) (p ++ [PKey "Ebs"])%list) (device_words d p).
Proof.
  intros Hv Hd He. unfold check_ebs.
  assert (Hvals : forall key, In key ["VolumeType"; "Iops"] -> (left_out key e /\ get_values (VDict e) key [] = Ok None) \/
    exists x l, assoc key e = Some x /\ x <> VNull /\ get_values (VDict e) key [] = Ok (Some l) /\ forall w q, In (q, w) l <-> single x [] w q).
  { intros key Hk. destruct (left_out_dec key e) as [H|[x [Hx Hn]]]; [left; split; [exact H | now apply values_left]|]. right.
    destruct (get_values_spec e key x [] Hx Hn) as [H1 [H2 _]]. destruct (proj2 H2) as [l Hl].
    - intros q. destruct (He key x q Hk Hx) as [->|H]; [now elim Hn | exact H].
    - exists x, l. split; [exact Hx|]. split; [exact Hn|]. split; [exact Hl | exact (H1 l Hl)]. }
  destruct (Hvals "Iops" ltac:(right; left; reflexivity)) as [[Io Iv]|[y [li [Iy [In' [Iv _]]]]]]; rewrite Iv;
    (destruct (Hvals "VolumeType" ltac:(left; reflexivity)) as [[Vo Vv]|[x [l [Vx [Vn [Vv Hl]]]]]]; rewrite Vv; cbn [bind]).
  - eapply says_ext; [apply says_none|]. intros m. split; [intros []|]. intros [q0 [words [[s H1 H2 H3|e' x r _ H2 H3 H4 _|e' x s r _ H2 H3 H4 _ _ _] _]]];
      [destruct Hv as [[K|K]|K]; congruence| |]; rewrite Hd in H2; injection H2 as <-; apply (proj1 (left_out_iff _ _) Vo) in H3; subst x; inversion H4 as [? ? ? ? K _|? ? ? ? ? ? ? ? K _ _]; inversion K.
  - eexists. split; [reflexivity|]. intros m. rewrite in_flat_map. split.
    + intros [[q w] [Hi Hm]]. apply Hl in Hi. cbn [snd] in Hm. destruct w as [| | | |s| |]; try destruct Hm. destruct (String.eqb_spec s "io1") as [->|Hs].
      * destruct Hm as [<-|[]]. do 2 eexists. split; [exact (df_missing d p e x q Hv Hd Vx Hi Io) | now rewrite <- app_assoc].
      * destruct (String.eqb s ""); destruct Hm.
    + intros [q0 [words [[s H1 H2 H3|e' x' r _ H2 H3 H4 H5|e' x' s r _ H2 H3 H4 _ _ H7] E]]]; [destruct Hv as [[K|K]|K]; congruence| |]; rewrite Hd in H2; injection H2 as <-; rewrite Vx in H3; injection H3 as <-; [|contradiction].
      exists (r, VStr "io1"). split; [now apply Hl|]. cbn [snd]. left. subst m. now rewrite <- app_assoc.
  - eapply says_ext; [apply says_none|]. intros m. split; [intros []|]. intros [q0 [words [[s H1 H2 H3|e' x r _ H2 H3 H4 _|e' x s r _ H2 H3 H4 _ _ _] _]]];
      [destruct Hv as [[K|K]|K]; congruence| |]; rewrite Hd in H2; injection H2 as <-; apply (proj1 (left_out_iff _ _) Vo) in H3; subst x; inversion H4 as [? ? ? ? K _|? ? ? ? ? ? ? ? K _ _]; inversion K.
  - pose proof (given_not_left _ _ _ Iy In') as Hio. eexists. split; [reflexivity|]. intros m. rewrite in_flat_map. split.
    + intros [[q w] [Hi Hm]]. apply Hl in Hi. cbn [snd] in Hm. destruct w as [| | | |s| |]; try destruct Hm. destruct (String.eqb_spec s "io1") as [->|Hs]; [destruct Hm|].
      destruct (String.eqb_spec s "") as [->|Hs']; [destruct Hm|]. destruct Hm as [<-|[]]. do 2 eexists. split.
      * exact (df_unwanted d p e x s q Hv Hd Vx Hi Hs Hs' Hio).
      * rewrite <- app_assoc. now rewrite !append_assoc.
    + intros [q0 [words [[s H1 H2 H3|e' x' r _ H2 H3 H4 H5|e' x' s r _ H2 H3 H4 H5 H6 H7] E]]]; [destruct Hv as [[K|K]|K]; congruence| |]; rewrite Hd in H2; injection H2 as <-; rewrite Vx in H3; injection H3 as <-; [contradiction|].
      exists (r, VStr s). split; [now apply Hl|]. cbn [snd]. apply String.eqb_neq in H5, H6. rewrite H5, H6. left. subst m. rewrite <- app_assoc, !append_assoc. reflexivity.
Qed.
Lemma device_says d i p : device_shaped d -> says (check_device p (i, VDict d)) (device_words d (p ++ [PIdx i])%list).
Proof.
  intros [Hv He]. unfold check_device. cbn [fst snd vget bind].
  assert (Hrest : left_out "VirtualName" d \/ assoc "VirtualName" d = Some (VStr "") ->
    says (let ebs := match assoc "Ebs" d with Some v => v | None => VNull end in if truthy ebs then check_ebs ebs (p ++ [PIdx i; PKey "Ebs"])%list else Ok []) (device_words d (p ++ [PIdx i])%list)).
  { intros Hl. cbv zeta. destruct (assoc "Ebs" d) as [x|] eqn:E.
    - assert (Hn : (forall e, x <> VDict e \/ e = []) -> says (Ok []) (device_words d (p ++ [PIdx i])%list)).
      { intros Hx. eapply says_ext; [apply says_none|]. intros m. split; [intros []|].
        intros [q0 [words [[s H1 H2 H3|e' x' r _ H2 H3 H4 _|e' x' s r _ H2 H3 H4 _ _ _] _]]]; [destruct Hl as [[K|K]|K]; congruence| |]; rewrite E in H2; injection H2 as ->; (destruct (Hx e') as [K|K]; [now elim K | subst e'; discriminate H3]). }
      destruct x as [|b|z|f|s|l|e]; try (destruct (truthy _); apply Hn; intros e'; left; discriminate).
      destruct e as [|kx e]; [apply Hn; intros e'; destruct e'; [now right | left; discriminate]|]. change (truthy (VDict (kx :: e))) with true. cbv iota.
      change (p ++ [PIdx i; PKey "Ebs"])%list with (p ++ ([PIdx i] ++ [PKey "Ebs"]))%list. rewrite app_assoc. apply (ebs_says d (kx :: e) _ Hl E). intros key y r. exact (He _ key y r eq_refl).
    - cbn [truthy]. eapply says_ext; [apply says_none|]. intros m. split; [intros []|].
      intros [q0 [words [[s H1 H2 H3|e' x' r _ H2 H3 H4 _|e' x' s r _ H2 H3 H4 _ _ _] _]]]; [destruct Hl as [[K|K]|K]; congruence| |]; congruence. }
  cbv zeta in Hrest. destruct Hv as [Hv|[s Hv]].
  - assert (E : truthy (match assoc "VirtualName" d with Some v => v | None => VNull end) = false) by (destruct Hv as [-> | ->]; reflexivity).
    destruct (assoc "VirtualName" d) as [x|] eqn:Ea; cbn [bind]; rewrite E; destruct (assoc "Ebs" d); cbn [bind]; apply Hrest; now left.
  - rewrite Hv. cbn [bind]. destruct (String.eqb_spec s "") as [->|Hs].
    + cbn [truthy]. destruct (assoc "Ebs" d); cbn [bind]; apply Hrest; now right.
    + assert (Et : truthy (VStr s) = true) by (destruct s; [now elim Hs | reflexivity]). assert (H : says (Ok (if ephemeral s then [] else [mkRM (p ++ [PIdx i; PKey "VirtualName"])%list ("Property VirtualName should be of type ephemeral(n) for " ++ path_text (p ++ [PIdx i; PKey "VirtualName"])%list)])) (device_words d (p ++ [PIdx i])%list)).
      2:{ destruct (assoc "Ebs" d); cbn [bind]; rewrite Et; exact H. }
      assert (X : forall m, device_words d (p ++ [PIdx i])%list m <-> ~ ephemeral_name s /\ m = mkRM (p ++ [PIdx i; PKey "VirtualName"])%list ("Property VirtualName should be of type ephemeral(n) for " ++ path_text (p ++ [PIdx i; PKey "VirtualName"])%list)).
      { intros m. split.
        - intros [q0 [words [[s' H1 H2 H3|e' x' r [[K|K]|K] _ _ _ _|e' x' s' r [[K|K]|K] _ _ _ _ _ _] E]]]; try congruence. rewrite Hv in H1. injection H1 as <-. split; [exact H3|].
          subst m. now rewrite <- app_assoc.
        - intros [Hn ->]. do 2 eexists. split; [exact (df_name d _ s Hv Hs Hn) | now rewrite <- app_assoc]. }
      destruct (ephemeral s) eqn:Ee.
      * apply ephemeral_iff in Ee. eapply says_ext; [apply says_none|]. intros m. rewrite X. tauto.
      * assert (~ ephemeral_name s) by (intros K; apply ephemeral_iff in K; congruence). eapply says_ext; [apply says_one|]. intros m. rewrite X. tauto.
Qed.
(** The mistakes in the block devices of a template. *)
Lemma c75_devices t : wf t -> (forall rt, In rt device_types -> unlisted t rt) -> devices_shaped t ->
  exists ms, ebs_match t = Ok ms /\
    forall m, In m ms <-> exists rt l q i d p words, In rt device_types /\ property_at t rt "BlockDeviceMappings" (VList l) q /\ nth_error l i = Some (VDict d) /\
      device_fault d (q ++ [PIdx i])%list p words /\ m = mkRM p (words ++ path_text p).
Proof.
  intros Hw Hu Hs. unfold ebs_match.
  destruct (props_found "AWS::EC2::Instance" "BlockDeviceMappings" t Hw (Hu _ ltac:(left; reflexivity))) as [a [-> Ha]].
  destruct (props_found "AWS::AutoScaling::LaunchConfiguration" "BlockDeviceMappings" t Hw (Hu _ ltac:(right; left; reflexivity))) as [b [-> Hb]]. cbn [bind].
  assert (Hab : forall q x, In (q, x) (a ++ b)%list <-> exists rt, In rt device_types /\ property_at t rt "BlockDeviceMappings" x q).
  { intros q x. rewrite in_app_iff, Ha, Hb. cbn [fst snd]. split.
    - intros [H|H]; eexists; (split; [|exact H]); [now left | right; now left].
    - intros [rt [[<-|[<-|[]]] H]]; auto. }
  destruct (says_concat check_devices (a ++ b)%list (fun qx m => exists l i d, snd qx = VList l /\ nth_error l i = Some (VDict d) /\ device_words d (fst qx ++ [PIdx i])%list m)) as [ms [E Hm]].
  - intros [q x] Hq. apply Hab in Hq as [rt [Hrt Hp]]. unfold check_devices. cbn [fst snd].
    destruct x as [|x1|x2|x3|x4|l|x5]; try (eapply says_ext; [apply says_none|]; intros m; split; [intros [] | intros [l0 [i [d [[=] _]]]]]).
    eapply says_ext; [apply says_concat with (P := fun ix m => exists d, snd ix = VDict d /\ device_words d (q ++ [PIdx (fst ix)])%list m)|].
    + intros [i x] Hi. apply enum_nth in Hi. destruct (Hs rt l q Hrt Hp x (nth_error_In _ _ Hi)) as [d [-> Hd]]. cbn [fst snd].
      eapply says_ext; [apply device_says; exact Hd|]. intros m. split; [intros H; exists d; auto | intros [d' [[= <-] H]]; exact H].
    + intros m. split.
      * intros [[i x] [Hi [d [E H]]]]. cbn [fst snd] in *. subst x. apply enum_nth in Hi. exists l, i, d. auto.
      * intros [l' [i [d [[= <-] [Hi H]]]]]. exists (i, VDict d). split; [now apply enum_nth|]. exists d. auto.
  - exists ms. split; [exact E|]. intros m. rewrite Hm. split.
    + intros [[q x] [Hq [l [i [d [Ex [Hi [p [words [H1 H2]]]]]]]]]]. cbn [fst snd] in *. subst x. apply Hab in Hq as [rt [Hrt Hp]]. exists rt, l, q, i, d, p, words. auto.
    + intros [rt [l [q [i [d [p [words [Hrt [Hp [Hi [H1 H2]]]]]]]]]]]. exists (q, VList l). split; [apply Hab; eauto|]. exists l, i, d. split; [reflexivity|]. split; [exact Hi|]. exists p, words. auto.
Qed.
Lemma device_fault_at t d p q words : at_path p t = Some (VDict d) -> device_fault d p q words -> exists x, at_path q t = Some x.
Proof.
  intros Hp [s H1 _ _|e x r _ H2 H3 _ _|e x s r _ H2 H3 _ _ _ H7]; rewrite at_path_app, Hp; cbn [at_path].
  - rewrite H1. cbn [at_path]. eauto.
  - rewrite H2. cbn [at_path]. rewrite H3. cbn [at_path]. eauto.
  - rewrite H2. cbn [at_path]. destruct (left_out_dec "Iops" e) as [K|[y [-> _]]]; [contradiction|]. cbn [at_path]. eauto.
Qed.
Lemma c75_devices_run sp k c raw m0 d0 rt l q i d p words :
  snd (coll_run sp k c) = Ok raw -> In ebs_rule (k_all k) -> enabled (k_set k) ebs_rule = true -> c_tmpl c = MDict m0 d0 -> wf (template c) ->
  (forall rt, In rt device_types -> unlisted (template c) rt) -> devices_shaped (template c) ->
  In rt device_types -> property_at (template c) rt "BlockDeviceMappings" (VList l) q -> nth_error l i = Some (VDict d) -> device_fault d (q ++ [PIdx i])%list p words ->
  exists f, locate_match c "E2504" (mkRM p (words ++ path_text p)) = Ok f /\ In f raw.
Proof.
  intros Hrun Hr He Hc Hw Hu Hs Hrt Hp Hi Hf. destruct (c75_devices (template c) Hw Hu Hs) as [ms [Eo Ho]].
  apply (reported_match_at sp k c raw ebs_rule _ ms _ m0 d0 Hrun Hr He eq_refl Hc Eo).
  - intros m Hm'. apply Ho in Hm' as [rt' [l' [q' [i' [d' [p' [words' [_ [Hp' [Hi' [Hf' ->]]]]]]]]]]]. cbn [rm_path]. apply (property_place _ _ _ _ _ Hw) in Hp'.
    assert (K : at_path (q' ++ [PIdx i'])%list (template c) = Some (VDict d')) by (rewrite at_path_app, Hp'; cbn [at_path]; now rewrite Hi').
    destruct (device_fault_at _ _ _ _ _ K Hf') as [x Hx]. split; [|eauto]. destruct Hf'; intros K'; apply app_eq_nil in K' as [_ [=]].
  - apply Ho. exists rt, l, q, i, d, p, words. auto.
Qed.
