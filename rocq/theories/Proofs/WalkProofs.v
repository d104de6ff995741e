(** Every nested object of a specified type is checked. *)
From Coq Require Import Lia.
From Verif.Model Require Import Base Node Locate Helpers Rules Runner Config Core.
From Verif.Spec Require Import Pipeline Branches Walk.
From Verif.Proofs Require Import BaseFacts PipelineProofs RunProofs BranchProofs.

Section W.
Variables (sp : spec) (k : collection) (c : cfn).
Notation rp := (resource_property sp k c).

Lemma rp_list_In pf rt pt l : forall i0 out i x,
  rp_list sp k c pf rt pt i0 l = Ok out -> nth_error l i = Some x ->
  exists a, rp x (pf (i0 + i)) rt pt = Ok a /\ incl a out.
Proof.
  induction l as [|y l IH]; intros i0 out [|i] x H Hn; cbn in Hn; try discriminate.
  - inversion Hn; subst. cbn in H. destruct (rp x (pf i0) rt pt) as [a|] eqn:E; cbn in H; [|discriminate].
    destruct (rp_list sp k c pf rt pt (S i0) l) as [b|]; cbn in H; [|discriminate]. inversion H; subst.
    rewrite Nat.add_0_r. exists a. split; [exact E | apply incl_appl, incl_refl].
  - cbn in H. destruct (rp y (pf i0) rt pt) as [a|] eqn:E; cbn in H; [|discriminate].
    destruct (rp_list sp k c pf rt pt (S i0) l) as [b|] eqn:E2; cbn in H; [|discriminate]. inversion H; subst.
    destruct (IH (S i0) b i x E2 Hn) as [a' [Ha Hi]]. exists a'. rewrite <- Nat.add_succ_comm. split; [exact Ha|].
    now apply incl_appr.
Qed.

(** One member of an object, as the walk treats it. *)
Definition rp_branch (b : val) (pp : path) (i0 : nat) rt pt : res (list finding) :=
  match b with
  | VList l => rp_list sp k c (fun i => pp ++ [PIdx i0; PIdx i]) rt pt 0 l
  | _ => rp b (pp ++ [PIdx i0]) rt pt
  end.
Definition rp_member (sprops : list (string * propdef)) (p : path) rt pt (kv : string * val) : res (list finding) :=
  let '(key, value) := kv in
  let pp := p ++ [PKey key] in
  match assoc key sprops with
  | None =>
      if String.eqb key "Fn::If" then
        match value with
        | VList [_; b1; b2] => do r1 <- rp_branch b1 pp 1 rt pt; do r2 <- rp_branch b2 pp 2 rt pt; Ok (r1 ++ r2)
        | _ => Ok []
        end
      else Ok []
  | Some pd =>
      if opt_eqb (pd_type pd) "List" && negb (mem_assoc "PrimitiveItemType" sprops) then
        match value with
        | VList l => rp_list sp k c (fun i => pp ++ [PIdx i]) rt (pd_item pd) 0 l
        | _ => Ok []
        end
      else
        match pd_type pd, value with
        | Some t, VDict _ => if String.eqb t "" then Ok [] else rp value pp rt (Some t)
        | _, _ => Ok []
        end
  end.
Definition rp_rest (ts : typespec) (props : val) (p : path) rt pt : res (list finding) :=
  match ts_props ts with
  | None | Some [] =>
      if opt_eqb (ts_type ts) "List" then
        match props with
        | VList l => rp_list sp k c (fun i => p ++ [PIdx i]) rt (ts_item ts) 0 l
        | _ => Ok []
        end
      else Ok []
  | Some sprops => match props with VDict d => concat_res (rp_member sprops p rt pt) d | _ => Ok [] end
  end.
Lemma rp_eq props p rt pt :
  rp props p rt pt =
  match assoc (spec_name rt pt) (sp_property_types sp) with
  | None => Ok []
  | Some ts => do ms <- sub_checks k c props (spec_name rt pt) p; do rest <- rp_rest ts props p rt pt; Ok (ms ++ rest)
  end.
Proof.
  destruct props as [| | | | |l|d]; try reflexivity.
  cbn [resource_property]. destruct (assoc (spec_name rt pt) (sp_property_types sp)) as [ts|]; [|reflexivity].
  destruct (sub_checks k c (VDict d) (spec_name rt pt) p) as [ms|]; cbn [bind]; [|reflexivity].
  unfold rp_rest. destruct (ts_props ts) as [[|s0 sps]|]; try reflexivity.
  match goal with |- bind ?a ?f = bind ?b ?f => assert (Hab : a = b); [|now rewrite Hab] end.
  induction d as [|[key value] d IH]; [reflexivity|].
  cbn [concat_res]. rewrite <- IH. unfold rp_member, rp_branch. reflexivity.
Qed.

Lemma type_name_spec rt pt name : type_name rt pt name -> spec_name rt pt = name.
Proof.
  destruct 1 as [|t Hn|]; unfold spec_name; cbn; try reflexivity.
  apply String.eqb_neq in Hn. now rewrite Hn.
Qed.
Lemma first_assoc {A} (d : list (string * A)) l1 l2 key (x : A) :
  d = l1 ++ (key, x) :: l2 -> ~ In key (map fst l1) -> assoc key d = Some x.
Proof.
  intros -> Hn. rewrite assoc_app. apply assoc_None in Hn. rewrite Hn. cbn. now rewrite String.eqb_refl.
Qed.
Lemma listed_spec name ts : listed sp name ts -> assoc name (sp_property_types sp) = Some ts.
Proof. intros [l1 [l2 [H Hn]]]. eapply first_assoc; eauto. Qed.
Lemma has_prop_spec props key pd : has_prop props key pd -> assoc key props = Some pd.
Proof. intros [l1 [l2 [H Hn]]]. eapply first_assoc; eauto. Qed.
Lemma list_prop_spec props pd :
  (opt_eqb (pd_type pd) "List" && negb (mem_assoc "PrimitiveItemType" props)) = true <-> list_prop props pd.
Proof.
  unfold list_prop. rewrite andb_true_iff, negb_true_iff.
  assert (H1 : opt_eqb (pd_type pd) "List" = true <-> pd_type pd = Some "List").
  { destruct (pd_type pd) as [x|]; cbn; [rewrite String.eqb_eq; split; intros H; congruence | split; discriminate]. }
  rewrite H1. rewrite <- not_true_iff_false, mem_assoc_iff. reflexivity.
Qed.

(** What the walk does at one object, given that it succeeds. *)
Lemma rp_inv props p rt pt out name ts :
  rp props p rt pt = Ok out -> type_name rt pt name -> listed sp name ts ->
  exists ms rest, sub_checks k c props name p = Ok ms /\ rp_rest ts props p rt pt = Ok rest /\
    incl ms out /\ incl rest out.
Proof.
  intros H Hn Hl. rewrite rp_eq, (type_name_spec _ _ _ Hn), (listed_spec _ _ Hl) in H.
  destruct (sub_checks k c props name p) as [ms|]; cbn [bind] in H; [|discriminate].
  destruct (rp_rest ts props p rt pt) as [rest|]; cbn [bind] in H; [|discriminate]. inversion H; subst.
  exists ms, rest. repeat split; auto using incl_appl, incl_appr, incl_refl.
Qed.
Lemma rest_member ts sprops d p rt pt rest kv :
  ts_props ts = Some sprops -> sprops <> [] -> rp_rest ts (VDict d) p rt pt = Ok rest -> In kv d ->
  exists a, rp_member sprops p rt pt kv = Ok a /\ incl a rest.
Proof.
  intros Hs Hne H Hin. unfold rp_rest in H. rewrite Hs in H. destruct sprops as [|s0 sps]; [congruence|].
  assert (Hg := H). apply concat_res_inv in Hg as [g [Hg _]]. exists (g kv). split; [now apply Hg|].
  exact (concat_res_In _ _ _ _ _ H Hin (Hg _ Hin)).
Qed.

Lemma nested_checked rt pt v p name w q :
  nested sp rt pt v p name w q -> forall out, rp v p rt pt = Ok out ->
  exists ms, sub_checks k c w name q = Ok ms /\ incl ms out.
Proof.
  induction 1 as [pt name ts v p Hn Hl
                 |pt name ts l i x p n w q Hn Hl Hts Hty Hi Hx IH
                 |pt name ts props d key pd l i x p n w q Hn Hl Hts Hin Hp Hlp Hi Hx IH
                 |pt name ts props d key pd t d' p n w q Hn Hl Hts Hin Hp Hlp Ht Hne Hx IH
                 |pt name ts props d cc b1 b2 b i p n w q Hn Hl Hts Hpn Hin Hno Hb Hlist Hx IH
                 |pt name ts props d cc b1 b2 l i j x p n w q Hn Hl Hts Hpn Hin Hno Hb Hj Hx IH]; intros out Hout;
    destruct (rp_inv _ _ _ _ _ _ _ Hout Hn Hl) as [ms [rest [Hms [Hrest [Him Hir]]]]].
  - exists ms. auto.
  - assert (Hr : rp_list sp k c (fun i => p ++ [PIdx i]) rt (ts_item ts) 0 l = Ok rest).
    { unfold rp_rest in Hrest. rewrite Hty in Hrest. cbn in Hrest. destruct Hts as [Hts|Hts]; rewrite Hts in Hrest; exact Hrest. }
    destruct (rp_list_In _ _ _ _ _ _ _ _ Hr Hi) as [a [Ha Hai]]. destruct (IH _ Ha) as [ms' [H1 H2]].
    exists ms'. split; [exact H1|]. eauto using incl_tran.
  - assert (Hne : props <> []) by (destruct Hp as [l1 [l2 [-> _]]]; destruct l1; discriminate).
    destruct (rest_member _ _ _ _ _ _ _ _ Hts Hne Hrest Hin) as [a [Ha Hai]].
    unfold rp_member in Ha. rewrite (has_prop_spec _ _ _ Hp) in Ha. apply list_prop_spec in Hlp. rewrite Hlp in Ha.
    destruct (rp_list_In _ _ _ _ _ _ _ _ Ha Hi) as [a' [Ha' Hai']]. cbn [Nat.add] in Ha'.
    rewrite <- app_assoc in Ha'. destruct (IH _ Ha') as [ms' [H1 H2]].
    exists ms'. split; [exact H1|]. eauto using incl_tran.
  - assert (Hne' : props <> []) by (destruct Hp as [l1 [l2 [-> _]]]; destruct l1; discriminate).
    destruct (rest_member _ _ _ _ _ _ _ _ Hts Hne' Hrest Hin) as [a [Ha Hai]].
    unfold rp_member in Ha. rewrite (has_prop_spec _ _ _ Hp) in Ha. rewrite <- list_prop_spec in Hlp.
    apply not_true_iff_false in Hlp. rewrite Hlp, Ht in Ha. apply String.eqb_neq in Hne. rewrite Hne in Ha.
    destruct (IH _ Ha) as [ms' [H1 H2]]. exists ms'. split; [exact H1|]. eauto using incl_tran.
  - destruct (rest_member _ _ _ _ _ _ _ _ Hts Hpn Hrest Hin) as [a [Ha Hai]].
    apply assoc_None in Hno. unfold rp_member in Ha. unfold keys in *. rewrite Hno in Ha. cbn [String.eqb] in Ha.
    replace (String.eqb "Fn::If" "Fn::If") with true in Ha by reflexivity.
    destruct (rp_branch b1 (p ++ [PKey "Fn::If"]) 1 rt pt) as [a1|] eqn:E1; cbn [bind] in Ha; [|discriminate].
    destruct (rp_branch b2 (p ++ [PKey "Fn::If"]) 2 rt pt) as [a2|] eqn:E2; cbn [bind] in Ha; [|discriminate].
    inversion Ha; subst a.
    assert (Hbr : exists a0, rp b ((p ++ [PKey "Fn::If"]) ++ [PIdx i]) rt pt = Ok a0 /\ incl a0 (a1 ++ a2)).
    { destruct Hb as [[-> ->]|[-> ->]].
      - exists a1. split; [destruct b1; try exact E1; discriminate | apply incl_appl, incl_refl].
      - exists a2. split; [destruct b2; try exact E2; discriminate | apply incl_appr, incl_refl]. }
    destruct Hbr as [a0 [Ha0 Hi0]]. rewrite <- app_assoc in Ha0. destruct (IH _ Ha0) as [ms' [H1 H2]].
    exists ms'. split; [exact H1|]. eauto using incl_tran.
  - destruct (rest_member _ _ _ _ _ _ _ _ Hts Hpn Hrest Hin) as [a [Ha Hai]].
    apply assoc_None in Hno. unfold rp_member in Ha. unfold keys in *. rewrite Hno in Ha.
    replace (String.eqb "Fn::If" "Fn::If") with true in Ha by reflexivity.
    destruct (rp_branch b1 (p ++ [PKey "Fn::If"]) 1 rt pt) as [a1|] eqn:E1; cbn [bind] in Ha; [|discriminate].
    destruct (rp_branch b2 (p ++ [PKey "Fn::If"]) 2 rt pt) as [a2|] eqn:E2; cbn [bind] in Ha; [|discriminate].
    inversion Ha; subst a.
    assert (Hbr : exists a0, rp x ((p ++ [PKey "Fn::If"]) ++ [PIdx i; PIdx j]) rt pt = Ok a0 /\ incl a0 (a1 ++ a2)).
    { destruct Hb as [[-> <-]|[-> <-]].
      - destruct (rp_list_In _ _ _ _ _ _ _ _ E1 Hj) as [a0 [Ha0 Hi0]]. exists a0. cbn [Nat.add] in Ha0.
        split; [exact Ha0 | now apply incl_appl].
      - destruct (rp_list_In _ _ _ _ _ _ _ _ E2 Hj) as [a0 [Ha0 Hi0]]. exists a0. cbn [Nat.add] in Ha0.
        split; [exact Ha0 | now apply incl_appr]. }
    destruct Hbr as [a0 [Ha0 Hi0]]. rewrite <- app_assoc in Ha0. destruct (IH _ Ha0) as [ms' [H1 H2]].
    exists ms'. split; [exact H1|]. eauto using incl_tran.
Qed.
End W.

Lemma resource_of_listed t name rt attrs :
  resource_of t name rt attrs -> In (name, VDict attrs) (get_resources t).
Proof.
  intros [top [rs [-> [Hr [Hin Hty]]]]]. unfold get_resources, vget_def. rewrite Hr.
  apply filter_In. split; [exact Hin|]. cbn [snd]. now rewrite Hty.
Qed.

Lemma run_resource_nested sp k c rt props p out n w q :
  is_dict props = true -> run_resource sp k c rt props p = Ok out -> resource_nested sp rt props p n w q ->
  exists ms, sub_checks k c w n q = Ok ms /\ incl ms out.
Proof.
  intros Hd Hrun Hn. unfold run_resource in Hrun.
  assert (Hitems : forall d vp, branch props p (VDict d) vp -> In (VDict d, vp) (items_safe_t is_dict props p)).
  { intros d vp Hb. unfold items_safe_t. apply filter_In. split; [|reflexivity].
    destruct props; try discriminate. now apply items_safe_spec. }
  assert (Hts : forall ts, resource_listed sp rt ts -> assoc rt (sp_resource_types sp) = Some ts).
  { intros ts [l1 [l2 [H Hx]]]. eapply first_assoc; eauto. }
  destruct Hn as [d vp ts sps key pd l i x n w q Hb Hl Hp Hin Hhp Hlp Hi Hx
                 |d vp ts sps key pd t d' n w q Hb Hl Hp Hin Hhp Hlp Ht Hne Hx];
    rewrite (Hts _ Hl) in Hrun; apply Hitems in Hb;
    assert (Hg := Hrun); apply concat_res_inv in Hg as [g [Hg _]]; specialize (Hg _ Hb);
    assert (Hi1 := concat_res_In _ _ _ _ _ Hrun Hb Hg);
    unfold run_resource_item in Hg; rewrite Hp in Hg; cbn [dict_of] in Hg;
    assert (Hg2 := Hg); apply concat_res_inv in Hg2 as [g2 [Hg2 _]]; specialize (Hg2 _ Hin);
    assert (Hi2 := concat_res_In _ _ _ _ _ Hg Hin Hg2); cbn beta iota in Hg2;
    rewrite (has_prop_spec _ _ _ Hhp) in Hg2.
  - apply list_prop_spec in Hlp. rewrite Hlp in Hg2.
    assert (He : In (i, x) (enum l)) by (apply enum_nth; exact Hi).
    assert (Hg3 := Hg2). apply concat_res_inv in Hg3 as [g3 [Hg3 _]]. specialize (Hg3 _ He). cbn [fst snd] in Hg3.
    assert (Hi3 := concat_res_In _ _ _ _ _ Hg2 He Hg3).
    destruct (nested_checked _ _ _ _ _ _ _ _ _ _ Hx _ Hg3) as [ms [H1 H2]].
    exists ms. split; [exact H1|]. eauto using incl_tran.
  - rewrite <- list_prop_spec in Hlp. apply not_true_iff_false in Hlp. rewrite Hlp, Ht in Hg2.
    apply String.eqb_neq in Hne. rewrite Hne in Hg2.
    destruct (nested_checked _ _ _ _ _ _ _ _ _ _ Hx _ Hg2) as [ms [H1 H2]].
    exists ms. split; [exact H1|]. eauto using incl_tran.
Qed.

Lemma sub_checks_reports k c w n q ms r :
  sub_checks k c w n q = Ok ms -> In r (rules k) -> ~ is_if w ->
  (forall fs, matchall_subs r c w n q = Ok fs -> incl fs ms) /\
  (forall e, matchall_subs r c w n q = Err e -> e <> ETemplateAttribute -> In (crash_finding (c_file c) (r_id r) e) ms).
Proof.
  intros H Hr Hni. unfold sub_checks in H.
  assert (Hg := H). apply concat_res_inv in Hg as [g [Hg _]]. specialize (Hg r Hr). cbn beta in Hg.
  assert (Hi := concat_res_In _ _ _ _ _ H Hr Hg).
  assert (Hg' : run_check (k_set k) (c_file c) (r_id r) (matchall_subs r c w n q) = Ok (g r)).
  { destruct w as [| | | | | |[|[key x] [|? ?]]]; try exact Hg.
    destruct (String.eqb_spec key "Fn::If") as [->|]; [exfalso; apply Hni; now exists x | exact Hg]. }
  apply run_check_reports in Hg' as [G1 G2]. split.
  - intros fs Hfs. now rewrite <- (G1 fs Hfs).
  - intros e He Hn. apply Hi. rewrite (G2 e He Hn). now left.
Qed.

Lemma subs_reported sp k c raw r name rt attrs pd n w q :
  run_body sp k c = Ok raw -> In r (rules k) -> resource_of (template c) name rt attrs ->
  assoc "Properties" attrs = Some (VDict pd) ->
  resource_nested sp rt (VDict pd) [PKey "Resources"; PKey name; PKey "Properties"] n w q -> ~ is_if w ->
  (forall fs, matchall_subs r c w n q = Ok fs -> incl fs raw) /\
  (forall e, matchall_subs r c w n q = Err e -> e <> ETemplateAttribute -> In (crash_finding (c_file c) (r_id r) e) raw).
Proof.
  intros H Hr Hres Hpr Hn Hni. unfold run_body in H.
  destruct (concat_res _ (rules k)) as [a|] eqn:E; cbn [bind] in H; [|discriminate].
  destruct (concat_res (run_one_resource sp k c) _) as [b|] eqn:E2; cbn [bind] in H; [|discriminate].
  inversion H; subst.
  assert (Hty : assoc "Type" attrs = Some (VStr rt)) by now destruct Hres as [? [? [_ [_ [_ ?]]]]].
  apply resource_of_listed in Hres.
  assert (Hg := E2). apply concat_res_inv in Hg as [g [Hg _]]. specialize (Hg _ Hres).
  assert (Hi := concat_res_In _ _ _ _ _ E2 Hres Hg).
  unfold run_one_resource in Hg. cbn [dict_of] in Hg. rewrite Hty, Hpr in Hg.
  destruct (concat_res _ (rules k)) as [x|] eqn:E3 in Hg; cbn [bind] in Hg; [|discriminate].
  destruct (run_resource _ _ _ _ _ _) as [y|] eqn:E4; cbn [bind] in Hg; [|discriminate].
  assert (Hgx : x ++ y = g (name, VDict attrs)) by congruence.
  destruct (run_resource_nested sp k c rt (VDict pd) _ _ _ _ _ eq_refl E4 Hn) as [ms [H1 H2]].
  destruct (sub_checks_reports _ _ _ _ _ _ _ H1 Hr Hni) as [G1 G2].
  assert (Hms : incl ms (a ++ b)).
  { apply incl_appr. intros m Hm. apply Hi. rewrite <- Hgx. apply in_app_iff; right. now apply H2. }
  split.
  - intros fs Hfs. eauto using incl_tran.
  - intros e He Hx. apply Hms. eauto.
Qed.
