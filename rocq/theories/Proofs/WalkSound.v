(** Only the objects of specified types are checked: the converse of WalkProofs. *)
From Coq Require Import Lia.
From Verif.Model Require Import Base Node Locate Helpers Rules Runner Config Core.
From Verif.Spec Require Import Pipeline Branches Walk.
From Verif.Proofs Require Import BaseFacts PipelineProofs RunProofs BranchProofs WalkProofs DocumentationProofs.

Lemma assoc_first {A} key (d : list (string * A)) x : assoc key d = Some x -> exists l1 l2, d = (l1 ++ (key, x) :: l2)%list /\ ~ In key (map fst l1).
Proof. intros H. apply assoc_split in H as (a & b & E & N & _). eauto. Qed.

Section S.
Variables (sp : spec) (k : collection) (c : cfn).
Notation rp := (resource_property sp k c).

Lemma rp_list_from pf rt pt l : forall i0 out fi,
  rp_list sp k c pf rt pt i0 l = Ok out -> In fi out ->
  exists i x a, nth_error l i = Some x /\ rp x (pf (i0 + i)) rt pt = Ok a /\ In fi a.
Proof.
  induction l as [|y l IH]; intros i0 out fi H Hf; cbn in H; [injection H as <-; destruct Hf|].
  destruct (rp y (pf i0) rt pt) as [a|] eqn:E; cbn in H; [|discriminate].
  destruct (rp_list sp k c pf rt pt (S i0) l) as [b|] eqn:E2; cbn in H; [|discriminate]. injection H as <-.
  apply in_app_or in Hf as [Hf|Hf].
  - exists 0, y, a. rewrite Nat.add_0_r. auto.
  - destruct (IH (S i0) b fi E2 Hf) as (i & x & a' & H1 & H2 & H3). exists (S i), x, a'. rewrite <- Nat.add_succ_comm. auto.
Qed.
Lemma type_name_total rt pt : type_name rt pt (spec_name rt pt).
Proof.
  unfold spec_name. destruct pt as [t|]; cbn [opt_eqb fmt_opt]; [|apply tn_none].
  destruct (String.eqb_spec t "Tag") as [->|N]; [apply tn_tag | now apply tn_other].
Qed.
Lemma nested_from rt : forall v p pt out fi, rp v p rt pt = Ok out -> In fi out ->
  exists name w q ms, nested sp rt pt v p name w q /\ sub_checks k c w name q = Ok ms /\ In fi ms.
Proof.
  induction v as [v IH] using vsize_ind. intros p pt out fi H Hf. rewrite rp_eq in H.
  assert (Hn := type_name_total rt pt). set (name := spec_name rt pt) in *.
  destruct (assoc name (sp_property_types sp)) as [ts|] eqn:Hl; [|injection H as <-; destruct Hf].
  apply assoc_first in Hl. fold (listed sp name ts) in Hl.
  destruct (sub_checks k c v name p) as [ms|] eqn:Es; cbn [bind] in H; [|discriminate].
  destruct (rp_rest sp k c ts v p rt pt) as [rest|] eqn:Er; cbn [bind] in H; [|discriminate]. injection H as <-.
  apply in_app_or in Hf as [Hf|Hf].
  { exists name, v, p, ms. split; [now apply (n_here sp rt pt name ts) | auto]. }
  clear Es ms. unfold rp_rest in Er.
  assert (Hlist : ts_props ts = None \/ ts_props ts = Some [] ->
    (if opt_eqb (ts_type ts) "List" then match v with VList l => rp_list sp k c (fun i => p ++ [PIdx i]) rt (ts_item ts) 0 l | _ => Ok [] end else Ok []) = Ok rest ->
    exists name w q ms, nested sp rt pt v p name w q /\ sub_checks k c w name q = Ok ms /\ In fi ms).
  { intros Hp E. destruct (opt_eqb (ts_type ts) "List") eqn:Et; [|injection E as <-; destruct Hf].
    assert (Ht : ts_type ts = Some "List"%string) by (destruct (ts_type ts) as [x|]; [apply String.eqb_eq in Et; congruence | discriminate]).
    destruct v as [| | | | |l|]; try (injection E as <-; destruct Hf).
    destruct (rp_list_from _ _ _ _ _ _ _ E Hf) as (i & x & a & H1 & H2 & H3). cbn [Nat.add] in H2.
    assert (Hs : vsize x < vsize (VList l)) by (apply vsize_list_In; eapply nth_error_In; exact H1).
    destruct (IH x Hs _ _ _ _ H2 H3) as (n & w & q & ms & K1 & K2 & K3). exists n, w, q, ms. split; [|auto].
    exact (n_list sp rt pt name ts l i x p n w q Hn Hl Hp Ht H1 K1). }
  destruct (ts_props ts) as [[|s0 sps]|] eqn:Ep; [now apply Hlist; [right|] | | now apply Hlist; [left|]]. clear Hlist.
  remember (s0 :: sps) as sprops eqn:Esp. assert (Hne : sprops <> []) by (rewrite Esp; discriminate). clear Esp s0 sps.
  destruct v as [| | | | | |d]; try (injection Er as <-; destruct Hf).
  apply concat_res_inv in Er as [g [Hg ->]]. apply in_flat_map in Hf as [[key value] [Hin Hf]]. specialize (Hg _ Hin). set (out := g (key, value)) in *. clearbody out.
  assert (Hv : forall x, vsize x <= vsize value -> vsize x < vsize (VDict d)).
  { intros x Hx. apply vsize_dict_In in Hin. lia. }
  unfold rp_member in Hg. destruct (assoc key sprops) as [pd|] eqn:Ha.
  - apply assoc_first in Ha. fold (has_prop sprops key pd) in Ha.
    destruct (opt_eqb (pd_type pd) "List" && negb (mem_assoc "PrimitiveItemType" sprops)) eqn:Elp.
    + apply list_prop_spec in Elp. destruct value as [| | | | |l|]; try (injection Hg as <-; destruct Hf).
      destruct (rp_list_from _ _ _ _ _ _ _ Hg Hf) as (i & x & a & H1 & H2 & H3). cbn [Nat.add] in H2. rewrite <- app_assoc in H2.
      assert (Hs : vsize x < vsize (VDict d)). { apply Hv. apply Nat.lt_le_incl. apply vsize_list_In. eapply nth_error_In; exact H1. }
      destruct (IH x Hs _ _ _ _ H2 H3) as (n & w & q & ms & K1 & K2 & K3). exists n, w, q, ms. split; [|auto].
      exact (n_prop_list sp rt pt name ts sprops d key pd l i x p n w q Hn Hl Ep Hin Ha Elp H1 K1).
    + assert (Nlp : ~ list_prop sprops pd) by (rewrite <- list_prop_spec, Elp; discriminate).
      destruct (pd_type pd) as [t|] eqn:Et; [|injection Hg as <-; destruct Hf].
      destruct value as [| | | | | |d']; try (injection Hg as <-; destruct Hf).
      destruct (String.eqb_spec t "") as [->|Nt]; [injection Hg as <-; destruct Hf|].
      destruct (IH _ (Hv _ (le_n _)) _ _ _ _ Hg Hf) as (n & w & q & ms & K1 & K2 & K3). exists n, w, q, ms. split; [|auto].
      exact (n_prop_obj sp rt pt name ts sprops d key pd t d' p n w q Hn Hl Ep Hin Ha Nlp Et Nt K1).
  - apply assoc_None in Ha. destruct (String.eqb_spec key "Fn::If") as [->|_]; [|injection Hg as <-; destruct Hf].
    destruct value as [| | | | |lv|]; try (injection Hg as <-; destruct Hf).
    destruct lv as [|x0 [|b1 [|b2 [|? ?]]]]; try (injection Hg as <-; destruct Hf).
    destruct (rp_branch sp k c b1 (p ++ [PKey "Fn::If"]) 1 rt pt) as [a1|] eqn:E1; cbn [bind] in Hg; [|discriminate].
    destruct (rp_branch sp k c b2 (p ++ [PKey "Fn::If"]) 2 rt pt) as [a2|] eqn:E2; cbn [bind] in Hg; [|discriminate].
    injection Hg as <-.
    assert (Hbr : forall b i a, (i = 1 /\ b = b1 \/ i = 2 /\ b = b2) -> rp_branch sp k c b (p ++ [PKey "Fn::If"]) i rt pt = Ok a -> In fi a ->
      exists name w q ms, nested sp rt pt (VDict d) p name w q /\ sub_checks k c w name q = Ok ms /\ In fi ms).
    { intros b i a Hb E Hfa.
      assert (Hs : vsize b < vsize (VDict d)).
      { apply Hv. apply Nat.lt_le_incl. apply vsize_list_In. destruct Hb as [[_ ->]|[_ ->]]; [right; left | right; right; left]; reflexivity. }
      assert (Hnl : is_list b = false -> exists name w q ms, nested sp rt pt (VDict d) p name w q /\ sub_checks k c w name q = Ok ms /\ In fi ms).
      { intros Nl. assert (E' : rp b ((p ++ [PKey "Fn::If"]) ++ [PIdx i]) rt pt = Ok a) by (destruct b; try exact E; discriminate).
        rewrite <- app_assoc in E'. destruct (IH b Hs _ _ _ _ E' Hfa) as (n & w & q & ms & K1 & K2 & K3). exists n, w, q, ms. split; [|auto].
        exact (n_if sp rt pt name ts sprops d x0 b1 b2 b i p n w q Hn Hl Ep Hne Hin Ha Hb Nl K1). }
      destruct b as [| | | | |l|]; try (apply Hnl; reflexivity). clear Hnl. cbn [rp_branch] in E.
      destruct (rp_list_from _ _ _ _ _ _ _ E Hfa) as (j & x & a' & H1 & H2 & H3). cbn [Nat.add] in H2. rewrite <- app_assoc in H2.
      assert (Hsx : vsize x < vsize (VDict d)). { apply Nat.lt_trans with (vsize (VList l)); [|exact Hs]. apply vsize_list_In. eapply nth_error_In; exact H1. }
      destruct (IH x Hsx _ _ _ _ H2 H3) as (n & w & q & ms & K1 & K2 & K3). exists n, w, q, ms. split; [|auto].
      exact (n_if_list sp rt pt name ts sprops d x0 b1 b2 l i j x p n w q Hn Hl Ep Hne Hin Ha Hb H1 K1). }
    apply in_app_or in Hf as [Hf|Hf]; [apply (Hbr b1 1 a1) | apply (Hbr b2 2 a2)]; auto.
Qed.
Lemma resource_from rt d0 p out fi : run_resource sp k c rt (VDict d0) p = Ok out -> In fi out ->
  exists name w q ms, resource_nested sp rt (VDict d0) p name w q /\ sub_checks k c w name q = Ok ms /\ In fi ms.
Proof.
  unfold run_resource. intros H Hf. destruct (assoc rt (sp_resource_types sp)) as [ts|] eqn:Hts; [|injection H as <-; destruct Hf].
  apply assoc_first in Hts. fold (resource_listed sp rt ts) in Hts.
  apply concat_res_inv in H as [g [Hg ->]]. apply in_flat_map in Hf as [[v vp] [Hin Hf]]. specialize (Hg _ Hin). set (o1 := g (v, vp)) in *. clearbody o1. clear g.
  unfold items_safe_t in Hin. apply filter_In in Hin as [Hin Hd]. apply items_safe_spec in Hin. cbn [fst] in Hd. destruct v as [| | | | | |d]; try discriminate Hd.
  unfold run_resource_item in Hg. cbn [dict_of] in Hg.
  apply concat_res_inv in Hg as [g [Hg E]]. rewrite E in Hf. apply in_flat_map in Hf as [[key value] [Hkv Hf]]. specialize (Hg _ Hkv). set (o2 := g (key, value)) in *. clearbody o2. clear g E o1.
  cbn beta iota in Hg. destruct (ts_props ts) as [sps|] eqn:Ep; [|discriminate].
  destruct (assoc key sps) as [pd|] eqn:Ha; [|injection Hg as <-; destruct Hf]. apply assoc_first in Ha. fold (has_prop sps key pd) in Ha.
  destruct (opt_eqb (pd_type pd) "List" && negb (mem_assoc "PrimitiveItemType" sps)) eqn:Elp.
  - apply list_prop_spec in Elp. destruct value as [| | | | |l|]; try (injection Hg as <-; destruct Hf).
    apply concat_res_inv in Hg as [g [Hg E]]. rewrite E in Hf. apply in_flat_map in Hf as [[i x] [Hx Hf]]. specialize (Hg _ Hx). cbn [fst snd] in Hg.
    apply enum_nth in Hx. destruct (nested_from rt _ _ _ _ _ Hg Hf) as (n & w & q & ms & K1 & K2 & K3). exists n, w, q, ms. split; [|auto].
    exact (rn_list sp rt (VDict d0) p d vp ts sps key pd l i x n w q Hin Hts Ep Hkv Ha Elp Hx K1).
  - assert (Nlp : ~ list_prop sps pd) by (rewrite <- list_prop_spec, Elp; discriminate).
    destruct (pd_type pd) as [t|] eqn:Et; [|injection Hg as <-; destruct Hf].
    destruct value as [| | | | | |d']; try (injection Hg as <-; destruct Hf).
    destruct (String.eqb_spec t "") as [->|Nt]; [injection Hg as <-; destruct Hf|].
    destruct (nested_from rt _ _ _ _ _ Hg Hf) as (n & w & q & ms & K1 & K2 & K3). exists n, w, q, ms. split; [|auto].
    exact (rn_obj sp rt (VDict d0) p d vp ts sps key pd t d' n w q Hin Hts Ep Hkv Ha Nlp Et Nt K1).
Qed.
Lemma listed_resource t name attrs rt : In (name, attrs) (get_resources t) -> assoc "Type" (dict_of attrs) = Some (VStr rt) ->
  exists d, attrs = VDict d /\ resource_of t name rt d.
Proof.
  unfold get_resources. destruct (vget_def "Resources" (VDict []) t) as [r|] eqn:E; [|intros []]. destruct r as [| | | | | |rs]; try (intros []).
  intros H Ht. apply filter_In in H as [H _]. destruct attrs as [| | | | | |d]; try discriminate Ht. exists d. split; [reflexivity|].
  destruct t as [| | | | | |top]; cbn in E; try discriminate E. exists top. destruct (assoc "Resources" top) as [x|]; injection E as E; subst.
  - exists rs. auto.
  - destruct H.
Qed.

(** What can have given a finding of a run. *)
Definition asked (r : rule) (a : res (list finding)) : Prop :=
  a = matchall r c \/
  (exists name rt attrs pd, resource_of (template c) name rt attrs /\ assoc "Properties" attrs = Some (VDict pd) /\
     a = matchall_props r c (VDict pd) rt [PKey "Resources"; PKey name; PKey "Properties"]) \/
  (exists name rt attrs pd n w q, resource_of (template c) name rt attrs /\ assoc "Properties" attrs = Some (VDict pd) /\
     resource_nested sp rt (VDict pd) [PKey "Resources"; PKey name; PKey "Properties"] n w q /\ ~ is_if w /\ a = matchall_subs r c w n q).
Lemma body_from raw fi : run_body sp k c = Ok raw -> In fi raw ->
  exists r a l, In r (rules k) /\ asked r a /\ run_check (k_set k) (c_file c) (r_id r) a = Ok l /\ In fi l.
Proof.
  unfold run_body. intros H Hf.
  destruct (concat_res _ (rules k)) as [a|] eqn:E1; cbn [bind] in H; [|discriminate].
  destruct (concat_res (run_one_resource sp k c) _) as [b|] eqn:E2; cbn [bind] in H; [|discriminate]. injection H as <-.
  apply in_app_or in Hf as [Hf|Hf].
  - apply concat_res_inv in E1 as [g [Hg ->]]. apply in_flat_map in Hf as [r [Hr Hf]]. specialize (Hg r Hr). cbn beta in Hg.
    exists r, (matchall r c), (g r). split; [exact Hr|]. split; [now left | auto].
  - apply concat_res_inv in E2 as [g [Hg ->]]. apply in_flat_map in Hf as [[name attrs] [Hr Hf]]. specialize (Hg _ Hr). set (o := g (name, attrs)) in *. clearbody o.
    unfold run_one_resource in Hg. destruct (assoc "Type" (dict_of attrs)) as [ty|] eqn:Et; [|injection Hg as <-; destruct Hf].
    destruct ty as [| | | |rt| |]; try (injection Hg as <-; destruct Hf).
    destruct (listed_resource _ _ _ _ Hr Et) as [d [-> Hres]]. cbn [dict_of] in *.
    destruct (assoc "Properties" d) as [pv|] eqn:Ep; [|injection Hg as <-; destruct Hf].
    destruct pv as [| | | | | |pd]; try (injection Hg as <-; destruct Hf).
    destruct (concat_res _ (rules k)) as [x|] eqn:E3 in Hg; cbn [bind] in Hg; [|discriminate].
    destruct (run_resource sp k c rt (VDict pd) _) as [y|] eqn:E4; cbn [bind] in Hg; [|discriminate]. injection Hg as <-.
    apply in_app_or in Hf as [Hf|Hf].
    + apply concat_res_inv in E3 as [h [Hh ->]]. apply in_flat_map in Hf as [r [Hr' Hf]]. specialize (Hh r Hr'). cbn beta in Hh.
      eexists r, _, (h r). split; [exact Hr'|]. split; [|split; [exact Hh | exact Hf]]. right. left. exists name, rt, d, pd. auto.
    + destruct (resource_from _ _ _ _ _ E4 Hf) as (n & w & q & ms & K1 & K2 & K3).
      unfold sub_checks in K2. apply concat_res_inv in K2 as [h [Hh ->]]. apply in_flat_map in K3 as [r [Hr' K3]]. specialize (Hh r Hr'). cbn beta in Hh.
      assert (D : (exists z, w = VDict [("Fn::If"%string, z)] /\ h r = []) \/
                  (~ is_if w /\ run_check (k_set k) (c_file c) (r_id r) (matchall_subs r c w n q) = Ok (h r))).
      { assert (N : forall u, (forall z, u <> VDict [("Fn::If"%string, z)]) -> ~ is_if u) by (intros u N [z ->]; apply (N z); reflexivity).
        destruct w as [| | | | | |[|[key z] [|? ?]]]; try (right; split; [apply N; intros z0; discriminate | exact Hh]).
        destruct (String.eqb_spec key "Fn::If") as [->|Nk]; [left; exists z; split; [reflexivity | congruence]|].
        right. split; [|exact Hh]. apply N. intros z0 Q. injection Q as Q _. contradiction. }
      destruct D as [[z [-> D]]|[Nif D]]; [rewrite D in K3; destruct K3|].
      exists r, (matchall_subs r c w n q), (h r). split; [exact Hr'|]. split; [|auto]. right. right. exists name, rt, d, pd, n, w, q. auto 10.
Qed.
End S.
