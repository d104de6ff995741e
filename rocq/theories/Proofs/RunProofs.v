(** Proofs about running the rules: relational reasoning over the walk (used for C06, C07, C41). *)
From Coq Require Import Lia.
From Verif.Model Require Import Base Node Locate Helpers Rules Runner Config Core.
From Verif.Spec Require Import Pipeline.
From Verif.Proofs Require Import BaseFacts PipelineProofs.

(** Two runs of the walk that agree (in the sense of [R]) on every group of rule checks agree on the whole. *)
Section Rel.
Variable R : res (list finding) -> res (list finding) -> Prop.
Hypothesis Rnil : R (Ok []) (Ok []).
Hypothesis Rapp : forall a a' b b', R a a' -> R b b' ->
  R (do x <- a; do y <- b; Ok (x ++ y)) (do x <- a'; do y <- b'; Ok (x ++ y)).

Lemma concat_res_rel {A} (f g : A -> res (list finding)) l :
  (forall x, In x l -> R (f x) (g x)) -> R (concat_res f l) (concat_res g l).
Proof.
  induction l as [|x l IH]; intros H; cbn; [exact Rnil|].
  apply (Rapp (f x) (g x) (concat_res f l) (concat_res g l)); [apply H; now left | apply IH; intros y Hy; apply H; now right].
Qed.

Variable sp : spec.
Variables (k k' : collection) (c c' : cfn).
Hypothesis Rsub : forall props name p, R (sub_checks k c props name p) (sub_checks k' c' props name p).

Definition rp_list (k : collection) (c : cfn) (pf : nat -> path) (rt : string) (pt : option string) :=
  fix go (i : nat) (l : list val) : res (list finding) :=
    match l with
    | [] => Ok []
    | x :: xs => do a <- resource_property sp k c x (pf i) rt pt;
                 do b <- go (S i) xs; Ok (a ++ b)
    end.

Lemma rp_list_rel pf rt pt l :
  (forall x, In x l -> forall p rt pt, R (resource_property sp k c x p rt pt) (resource_property sp k' c' x p rt pt)) ->
  forall i, R (rp_list k c pf rt pt i l) (rp_list k' c' pf rt pt i l).
Proof.
  induction l as [|x l IH]; intros H i; cbn; [exact Rnil|].
  apply Rapp; [apply H; now left | apply IH; intros y Hy; apply H; now right].
Qed.

Lemma resource_property_rel : forall props p rt pt,
  R (resource_property sp k c props p rt pt) (resource_property sp k' c' props p rt pt).
Proof.
  induction props as [props IH] using vsize_ind; intros p rt pt.
  destruct props as [| | | | |l|d]; cbn [resource_property];
    destruct (assoc (spec_name rt pt) (sp_property_types sp)) as [ts|]; try exact Rnil;
    apply Rapp; try apply Rsub;
    destruct (ts_props ts) as [[|sp0 sps]|]; try exact Rnil;
    try (destruct (opt_eqb (ts_type ts) "List"); exact Rnil).
  - destruct (opt_eqb (ts_type ts) "List"); [|exact Rnil].
    apply (rp_list_rel (fun i => p ++ [PIdx i]) rt (ts_item ts)).
    intros x Hx. apply IH. now apply vsize_list_In.
  - destruct (opt_eqb (ts_type ts) "List"); [|exact Rnil].
    apply (rp_list_rel (fun i => p ++ [PIdx i]) rt (ts_item ts)).
    intros x Hx. apply IH. now apply vsize_list_In.
  - (* a dict against a specification with properties *)
    remember (sp0 :: sps) as sprops eqn:Esp; clear Esp sp0 sps.
    assert (IHd : forall kv, In kv d -> forall w, vsize w <= vsize (snd kv) ->
              forall p rt pt, R (resource_property sp k c w p rt pt) (resource_property sp k' c' w p rt pt)).
    { intros [kk w0] Hin w Hw. apply IH. apply vsize_dict_In in Hin. cbn in Hw. cbn [snd] in *. lia. }
    clear IH. induction d as [|[key value] dr IHdr]; [exact Rnil|].
    apply Rapp; [|apply IHdr; intros kv Hkv; apply IHd; now right].
    assert (Hv : forall w, vsize w <= vsize value -> forall p rt pt,
              R (resource_property sp k c w p rt pt) (resource_property sp k' c' w p rt pt)).
    { intros w Hw. apply (IHd (key, value)); [now left | exact Hw]. }
    clear IHd IHdr.
    assert (Hbranch : forall b i0, vsize b < vsize value ->
      R (match b with
         | VList l => rp_list k c (fun i => (p ++ [PKey key]) ++ [PIdx i0; PIdx i]) rt pt 0 l
         | _ => resource_property sp k c b ((p ++ [PKey key]) ++ [PIdx i0]) rt pt
         end)
        (match b with
         | VList l => rp_list k' c' (fun i => (p ++ [PKey key]) ++ [PIdx i0; PIdx i]) rt pt 0 l
         | _ => resource_property sp k' c' b ((p ++ [PKey key]) ++ [PIdx i0]) rt pt
         end)).
    { intros b i0 Hb. destruct b as [| | | | |l|]; try (apply Hv; lia).
      apply rp_list_rel. intros x Hx. apply Hv. apply vsize_list_In in Hx. lia. }
    destruct (assoc key sprops) as [pd|].
    + destruct (opt_eqb (pd_type pd) "List" && negb (mem_assoc "PrimitiveItemType" sprops)).
      * destruct value as [| | | | |lv|]; try exact Rnil.
        apply (rp_list_rel (fun i => (p ++ [PKey key]) ++ [PIdx i]) rt (pd_item pd)).
        intros x Hx. apply Hv. apply vsize_list_In in Hx. lia.
      * destruct (pd_type pd) as [t|]; [|exact Rnil].
        destruct value; try exact Rnil. destruct (String.eqb t ""); [exact Rnil | apply Hv; lia].
    + destruct (String.eqb key "Fn::If"); [|exact Rnil].
      destruct value as [| | | | |lv|]; try exact Rnil.
      destruct lv as [|x0 [|b1 [|b2 [|? ?]]]]; try exact Rnil.
      assert (H1 : vsize b1 < vsize (VList [x0; b1; b2])) by (apply vsize_list_In; cbn; auto).
      assert (H2 : vsize b2 < vsize (VList [x0; b1; b2])) by (apply vsize_list_In; cbn; auto).
      exact (Rapp _ _ _ _ (Hbranch b1 1 H1) (Hbranch b2 2 H2)).
Qed.

Lemma run_resource_rel rt props p :
  (forall ts, assoc rt (sp_resource_types sp) = Some ts -> ts_props ts <> None \/ R (Err EAttribute) (Err EAttribute)) ->
  R (run_resource sp k c rt props p) (run_resource sp k' c' rt props p).
Proof.
  intros Hts. unfold run_resource.
  destruct (assoc rt (sp_resource_types sp)) as [ts|]; [|exact Rnil].
  specialize (Hts ts eq_refl).
  apply concat_res_rel. intros [v vp] _. unfold run_resource_item.
  apply concat_res_rel. intros [key value] _.
  destruct (ts_props ts) as [sps|]; [|destruct Hts as [Hts|Hts]; [congruence | exact Hts]].
  destruct (assoc key sps) as [pd|]; [|exact Rnil].
  destruct (opt_eqb (pd_type pd) "List" && negb (mem_assoc "PrimitiveItemType" sps)).
  - destruct value; try exact Rnil. apply concat_res_rel. intros [i x] _. apply resource_property_rel.
  - destruct (pd_type pd) as [t|]; [|exact Rnil]. destruct value; try exact Rnil.
    destruct (String.eqb t ""); [exact Rnil | apply resource_property_rel].
Qed.

Hypothesis Hsp : forall rt ts, assoc rt (sp_resource_types sp) = Some ts ->
  ts_props ts <> None \/ R (Err EAttribute) (Err EAttribute).
Hypothesis Rprops : forall props rt p,
  R (concat_res (fun r => run_check (k_set k) (c_file c) (r_id r) (matchall_props r c props rt p)) (rules k))
    (concat_res (fun r => run_check (k_set k') (c_file c') (r_id r) (matchall_props r c' props rt p)) (rules k')).

Lemma run_one_resource_rel kv : R (run_one_resource sp k c kv) (run_one_resource sp k' c' kv).
Proof.
  destruct kv as [name attrs]. unfold run_one_resource.
  destruct (assoc "Type" (dict_of attrs)) as [[| | | |rt| |]|]; try exact Rnil.
  destruct (assoc "Properties" (dict_of attrs)) as [[| | | | | |pd]|]; try exact Rnil.
  apply Rapp; [apply Rprops|]. apply run_resource_rel. apply Hsp.
Qed.

Hypothesis Rmatch :
  R (concat_res (fun r => run_check (k_set k) (c_file c) (r_id r) (matchall r c)) (rules k))
    (concat_res (fun r => run_check (k_set k') (c_file c') (r_id r) (matchall r c')) (rules k')).
Hypothesis Htmpl : template c = template c'.

(** The body of [coll_run] after initialisation. *)
Definition run_body (k : collection) (c : cfn) : res (list finding) :=
  do a <- concat_res (fun r => run_check (k_set k) (c_file c) (r_id r) (matchall r c)) (rules k);
  do b <- concat_res (run_one_resource sp k c) (get_resources (template c));
  Ok (a ++ b).
Lemma run_body_rel : R (run_body k c) (run_body k' c').
Proof.
  unfold run_body. apply Rapp; [exact Rmatch|]. rewrite <- Htmpl. apply concat_res_rel. intros kv _.
  apply run_one_resource_rel.
Qed.
End Rel.

Lemma coll_run_body sp k c : coll_run sp k c = (initialize_all k c, run_body sp (initialize_all k c) c).
Proof. reflexivity. Qed.

(** * A run with E0002 enabled always ends. *)
Definition e0002_on (s : settings) : Prop := is_rule_enabled s "E0002" false = true.
Lemma spec_ok_assoc sp : spec_ok sp -> forall rt ts, assoc rt (sp_resource_types sp) = Some ts -> ts_props ts <> None.
Proof. intros H rt ts Ha. apply (H rt). now apply assoc_In. Qed.

Definition total (a b : res (list finding)) : Prop := exists l, a = Ok l.
Lemma total_app a a' b b' : total a a' -> total b b' ->
  total (do x <- a; do y <- b; Ok (x ++ y)) (do x <- a'; do y <- b'; Ok (x ++ y)).
Proof. intros [x ->] [y ->]. cbn. now exists (x ++ y). Qed.
Lemma run_check_total s file id r : e0002_on s -> exists l, run_check s file id r = Ok l.
Proof.
  unfold e0002_on. intros H. destruct r as [l|e]; cbn [run_check]; [now exists l|].
  rewrite H. destruct e; eauto.
Qed.
Lemma run_body_total sp k c : spec_ok sp -> e0002_on (k_set k) -> exists l, run_body sp k c = Ok l.
Proof.
  intros Hsp He.
  apply (run_body_rel total) with (k' := k) (c' := c); try (intros rt ts Hts; left; exact (spec_ok_assoc _ Hsp rt ts Hts)); auto using total_app.
  - now exists [].
  - intros props name p. unfold sub_checks, total. apply concat_res_total. intros r _.
    assert (Hc := run_check_total (k_set k) (c_file c) (r_id r) (matchall_subs r c props name p) He).
    destruct props as [| | | | | |[|[key v] [|]]]; auto. destruct (String.eqb key "Fn::If"); eauto.
  - intros props rt p. unfold total. apply concat_res_total. intros r _. now apply run_check_total.
  - unfold total. apply concat_res_total. intros r _. now apply run_check_total.
Qed.

(** * Leaving rules out leaves the findings of the others. *)
Definition without (f : rule -> bool) (k : collection) : collection := mkColl (filter f (k_all k)) (k_set k).
Lemma filter_comm {A} (f g : A -> bool) l : filter f (filter g l) = filter g (filter f l).
Proof.
  induction l as [|x l IH]; [reflexivity|]. cbn.
  destruct (g x) eqn:G, (f x) eqn:F; cbn; rewrite ?F, ?G, ?IH; reflexivity.
Qed.
Lemma rules_without f k : rules (without f k) = filter f (rules k).
Proof. unfold rules, without; cbn. apply filter_comm. Qed.

Lemma subseq_nil_l {A} (l : list A) : subseq [] l.
Proof. constructor. Qed.
Lemma subseq_refl {A} (l : list A) : subseq l l.
Proof. induction l; constructor; assumption. Qed.
Lemma subseq_app2 {A} (a b a' b' : list A) : subseq a a' -> subseq b b' -> subseq (a ++ b) (a' ++ b').
Proof.
  intros Ha Hb. induction Ha as [l|x l l' H IH|x l l' H IH]; cbn.
  - induction l as [|x l IHl]; cbn; [exact Hb | now constructor].
  - now constructor.
  - now constructor.
Qed.
Lemma subseq_In {A} (l l' : list A) x : subseq l l' -> In x l -> In x l'.
Proof.
  induction 1 as [l|y l l' H IH|y l l' H IH]; [intros [] | intros [->|Hx]; [now left | right; auto] | intros Hx; right; auto].
Qed.
Definition fewer (a b : res (list finding)) : Prop :=
  exists x y, a = Ok x /\ b = Ok y /\ subseq x y.
Lemma fewer_app a a' b b' : fewer a a' -> fewer b b' ->
  fewer (do x <- a; do y <- b; Ok (x ++ y)) (do x <- a'; do y <- b'; Ok (x ++ y)).
Proof.
  intros [x [x' [-> [-> Hx]]]] [y [y' [-> [-> Hy]]]]. cbn. exists (x ++ y), (x' ++ y'). auto using subseq_app2.
Qed.
Lemma concat_res_fewer {A} (g : A -> res (list finding)) f l :
  (forall x, exists a, g x = Ok a) -> fewer (concat_res g (filter f l)) (concat_res g l).
Proof.
  intros H. induction l as [|x l IH]; cbn; [exists [], []; repeat split; constructor|].
  destruct IH as [a [b [Ha [Hb Hab]]]]. destruct (H x) as [y Hy].
  rewrite Hy, Hb; cbn. destruct (f x); cbn; rewrite ?Hy, Ha; cbn.
  - exists (y ++ a), (y ++ b). repeat split. apply subseq_app2; [apply subseq_refl | exact Hab].
  - exists a, (y ++ b). repeat split. change a with ([] ++ a). apply subseq_app2; [constructor | exact Hab].
Qed.
Lemma run_body_without sp f k c :
  spec_ok sp -> e0002_on (k_set k) -> fewer (run_body sp (without f k) c) (run_body sp k c).
Proof.
  intros Hsp He.
  apply (run_body_rel fewer); try (intros rt ts Hts; left; exact (spec_ok_assoc _ Hsp rt ts Hts)); auto using fewer_app.
  - exists [], []. repeat split; constructor.
  - intros props name p. unfold sub_checks. rewrite rules_without. cbn [k_set without].
    apply concat_res_fewer. intros r.
    assert (Hc := run_check_total (k_set k) (c_file c) (r_id r) (matchall_subs r c props name p) He).
    destruct props as [| | | | | |[|[key v] [|]]]; auto. destruct (String.eqb key "Fn::If"); eauto.
  - intros props rt p. rewrite rules_without. cbn [k_set without].
    apply concat_res_fewer. intros r. now apply run_check_total.
  - rewrite rules_without. cbn [k_set without]. apply concat_res_fewer. intros r. now apply run_check_total.
Qed.

Lemma initialize_without f k c :
  (forall r, f (add_types r (fst (r_init r c)) (snd (r_init r c))) = f r) ->
  initialize_all (without f k) c = without f (initialize_all k c).
Proof.
  intros Hf. unfold initialize_all, without; cbn. f_equal.
  induction (k_all k) as [|r l IH]; [reflexivity|]. cbn.
  assert (Hfr : f (if enabled (k_set k) r then add_types r (fst (r_init r c)) (snd (r_init r c)) else r) = f r)
    by (destruct (enabled (k_set k) r); auto).
  rewrite Hfr. destruct (f r); cbn; now rewrite IH.
Qed.

(** The findings of the collection without the rules whose id is [bad] are all in the full report, in order. *)
Lemma others_reported sp k c bad :
  spec_ok sp -> e0002_on (k_set k) ->
  exists raw raw', snd (coll_run sp k c) = Ok raw /\ snd (coll_run sp (other_rules bad k) c) = Ok raw' /\ subseq raw' raw.
Proof.
  intros Hsp He. rewrite !coll_run_body. cbn [snd].
  change (other_rules bad k) with (without (fun r => negb (String.eqb (r_id r) bad)) k).
  rewrite initialize_without by reflexivity.
  destruct (run_body_without sp (fun r => negb (String.eqb (r_id r) bad)) (initialize_all k c) c Hsp He)
    as [a [b [Ha [Hb Hab]]]].
  exists b, a. auto.
Qed.

(** Every check of a rule on the whole template, or on the properties of a resource, has its outcome in the report. *)
Lemma concat_res_In {A} (f : A -> res (list finding)) l out x a :
  concat_res f l = Ok out -> In x l -> f x = Ok a -> incl a out.
Proof.
  intros H Hx Ha m Hm. apply concat_res_inv in H as [g [Hg ->]]. apply in_flat_map. exists x. split; [exact Hx|].
  rewrite Hg in Ha by exact Hx. now inversion Ha; subst.
Qed.
Lemma run_check_reports s file id r l :
  run_check s file id r = Ok l ->
  (forall fs, r = Ok fs -> l = fs) /\ (forall e, r = Err e -> e <> ETemplateAttribute -> l = [crash_finding file id e]).
Proof.
  destruct r as [fs|e]; cbn [run_check]; intros H; split; try (intros; congruence).
  - intros e' He Hn. inversion He; subst.
    destruct e'; try congruence; destruct (is_rule_enabled s "E0002" false); inversion H; reflexivity.
Qed.
Lemma match_reported sp k c raw r :
  run_body sp k c = Ok raw -> In r (rules k) ->
  (forall fs, matchall r c = Ok fs -> incl fs raw) /\
  (forall e, matchall r c = Err e -> e <> ETemplateAttribute -> In (crash_finding (c_file c) (r_id r) e) raw).
Proof.
  unfold run_body. intros H Hr.
  destruct (concat_res _ (rules k)) as [a|] eqn:E; cbn in H; [|discriminate].
  destruct (concat_res (run_one_resource sp k c) _) as [b|]; cbn in H; [|discriminate].
  inversion H; subst.
  assert (Hg := E). apply concat_res_inv in Hg as [g [Hg _]]. specialize (Hg r Hr).
  assert (Hi := concat_res_In _ _ _ _ _ E Hr Hg).
  apply run_check_reports in Hg as [G1 G2]. split.
  - intros fs Hfs. rewrite <- (G1 fs Hfs). now apply incl_appl.
  - intros e He Hn. apply in_app_iff; left. apply Hi. rewrite (G2 e He Hn). now left.
Qed.
Lemma props_reported sp k c raw r name attrs rt pd :
  run_body sp k c = Ok raw -> In r (rules k) -> In (name, attrs) (get_resources (template c)) ->
  assoc "Type" (dict_of attrs) = Some (VStr rt) -> assoc "Properties" (dict_of attrs) = Some (VDict pd) ->
  let out := matchall_props r c (VDict pd) rt [PKey "Resources"; PKey name; PKey "Properties"] in
  (forall fs, out = Ok fs -> incl fs raw) /\
  (forall e, out = Err e -> e <> ETemplateAttribute -> In (crash_finding (c_file c) (r_id r) e) raw).
Proof.
  intros H Hr Hres Hty Hpr out. unfold run_body in H.
  destruct (concat_res _ (rules k)) as [a|] eqn:E; cbn in H; [|discriminate].
  destruct (concat_res (run_one_resource sp k c) _) as [b|] eqn:E2; cbn in H; [|discriminate].
  inversion H; subst.
  assert (Hg := E2). apply concat_res_inv in Hg as [g [Hg _]]. specialize (Hg _ Hres).
  assert (Hi := concat_res_In _ _ _ _ _ E2 Hres Hg).
  unfold run_one_resource in Hg. rewrite Hty, Hpr in Hg.
  destruct (concat_res _ (rules k)) as [x|] eqn:E3 in Hg; cbn in Hg; [|discriminate].
  destruct (run_resource _ _ _ _ _ _) as [y|]; cbn in Hg; [|discriminate].
  inversion Hg as [Hgx]; clear Hg.
  assert (Hg := E3). apply concat_res_inv in Hg as [g' [Hg _]]. specialize (Hg r Hr).
  assert (Hi' := concat_res_In _ _ _ _ _ E3 Hr Hg).
  apply run_check_reports in Hg as [G1 G2]. split.
  - intros fs Hfs. rewrite <- (G1 fs Hfs). apply incl_appr. intros m Hm. apply Hi. rewrite <- Hgx.
    apply in_app_iff; left. now apply Hi'.
  - intros e He Hn. apply in_app_iff; right. apply Hi. rewrite <- Hgx. apply in_app_iff; left. apply Hi'.
    rewrite (G2 e He Hn). now left.
Qed.
