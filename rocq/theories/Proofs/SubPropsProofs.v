(** C75: what get_resource_properties finds, and the checks of block devices, aliases and containers. *)
From Coq Require Import List Lia Ascii.
From Verif.Model Require Import Base Helpers Search Rules Refs Relationship Functions PropertyRules SubProps.
From Verif.Spec Require Import Paths Branches References Walk Values Permissions SubProps.
From Verif.Proofs Require Import BaseFacts SearchProofs BranchProofs ConditionUseProofs PropertyRuleProofs ExpectedProofs UpdatePolicyProofs CidrProofs DynRefProofs Says PermissionProofs ValueRun TargetProofs.
Import Verif.Model.Rules.
Import ListNotations.
Local Open Scope string_scope.

(** * Following names *)
Lemma alternative_size x p y r : alternative x p y r -> val_size y <= val_size x.
Proof. induction 1 as [c a b p w q _ IH|c a b p w q _ IH|v0 p Hi Hn]; [| |lia]; unfold If_of; cbn [val_size fold_right snd]; lia. Qed.
Lemma alternative_smaller x p y r : is_if x -> alternative x p y r -> val_size y < val_size x.
Proof.
  intros Hx H0. revert Hx. destruct H0 as [c a b p' w q H|c a b p' w q H|v0 p' Hi Hn]; intros Hx.
  - apply alternative_size in H. unfold If_of. cbn [val_size fold_right snd]. lia.
  - apply alternative_size in H. unfold If_of. cbn [val_size fold_right snd]. lia.
  - now elim Hi.
Qed.
Lemma item_size l x : In x l -> val_size x < val_size (VList l).
Proof. cbn [val_size]. induction l as [|y l IH]; [intros [] | cbn [fold_right]; intros [->|H]; [lia | apply IH in H; lia]]. Qed.
Lemma member_size d k x : In (k, x) d -> val_size x < val_size (VDict d).
Proof. cbn [val_size]. induction d as [|y d IH]; [intros [] | cbn [fold_right]; intros [->|H]; [cbn [snd]; lia | apply IH in H; lia]]. Qed.
Lemma roomy_part v w : part_of v w -> roomy v -> roomy w.
Proof.
  intros Hw Hr l k x Hl Hi. apply (Hr l k x); [|exact Hi]. revert Hl. generalize (VList l). intros y Hy.
  induction Hy as [|l' z _ IH Hz Hf|l' z p' y' r' _ IH Hz Hf Ha|d k' z _ IH Hz Hf]; [exact Hw | eapply pt_item; eauto | eapply pt_branch; eauto | eapply pt_member; eauto].
Qed.
Lemma branches_shift x P w q : alternative (If_of x) P w q <-> exists r, In (r, w) (condition_values x []) /\ q = (P ++ [PKey "Fn::If"] ++ r)%list.
Proof.
  rewrite <- condition_values_spec. rewrite <- (app_nil_r (P ++ [PKey "Fn::If"]))%list. rewrite condition_values_shift, in_map_iff. split.
  - intros [[r y] [E H]]. injection E as <- ->. exists r. split; [exact H|]. cbn [fst]. now rewrite <- app_assoc.
  - intros [r [H ->]]. exists (r, w). split; [|exact H]. cbn [fst snd]. now rewrite <- app_assoc.
Qed.
Lemma sub_says n : forall ks v p, (forall k, In k ks -> ~ In k FUNCTIONS) -> val_size v < n -> roomy v -> says (sub_properties n ks v p) (fun qw => reached ks v p (snd qw) (fst qw)).
Proof.
  induction n as [|n IH]; intros ks v p Hks Hn Hr; [lia|]. cbn [sub_properties]. destruct ks as [|key rest].
  - eapply says_ext; [apply says_one|]. intros [q w]. cbn [fst snd]. split; [intros [= -> ->]; constructor | intros H; inversion H; reflexivity].
  - destruct v as [|b0|z0|f0|s0|l|d]; try (eapply says_ext; [apply says_none|]; intros [q w]; split; [intros [] | intros H; inversion H]).
    + eapply says_ext.
      * apply says_concat with (P := fun ix qw => exists x, snd ix = x /\
          ((exists d, x = VDict d /\ ~ is_if x /\ reached (key :: rest) x (p ++ [PIdx (fst ix)])%list (snd qw) (fst qw)) \/
           (is_if x /\ exists y r, alternative x (p ++ [PIdx (fst ix)])%list y r /\ reached (key :: rest) y r (snd qw) (fst qw)))).
        intros [i x] Hi. cbn [fst snd]. apply enum_nth in Hi as Ex.
        pose proof (nth_error_In _ _ Ex) as Hx. pose proof (item_size _ _ Hx) as Hs.
        assert (Hno : forall b, (forall d, b <> VDict d) -> x = b -> says (Ok (@nil (path * val))) (fun qw => exists x0, x = x0 /\
          ((exists d, x0 = VDict d /\ ~ is_if x0 /\ reached (key :: rest) x0 (p ++ [PIdx i])%list (snd qw) (fst qw)) \/
           (is_if x0 /\ exists y r, alternative x0 (p ++ [PIdx i])%list y r /\ reached (key :: rest) y r (snd qw) (fst qw))))).
        { intros b Hb ->. eapply says_ext; [apply says_none|]. intros qw. split; [intros []|]. intros [x0 [<- [[d [E _]]|[[y E] _]]]]; eapply Hb; exact E. }
        assert (Hobj : forall d, x = VDict d -> ~ is_if x -> says (sub_properties n (key :: rest) (VDict d) (p ++ [PIdx i])%list) (fun qw => exists x0, x = x0 /\
          ((exists d, x0 = VDict d /\ ~ is_if x0 /\ reached (key :: rest) x0 (p ++ [PIdx i])%list (snd qw) (fst qw)) \/
           (is_if x0 /\ exists y r, alternative x0 (p ++ [PIdx i])%list y r /\ reached (key :: rest) y r (snd qw) (fst qw))))).
        { intros d -> Hif. eapply says_ext; [apply IH; [exact Hks | lia | refine (roomy_part _ _ _ Hr); exact (pt_item _ _ _ (pt_self _) Hx Hif)]|]. intros qw. split.
          - intros H. exists (VDict d). split; [reflexivity|]. left. eauto.
          - intros [x0 [<- [[d0 [_ [_ H]]]|[H _]]]]; [exact H | contradiction]. }
        destruct x as [| | | | |l'|d]; try (eapply Hno; [|reflexivity]; intros d0 E0; discriminate E0).
        destruct d as [|[k x] [|kx d]].
        -- apply Hobj; [reflexivity | intros [y E]; discriminate E].
        -- destruct (Hr l k x (pt_self _) Hx) as [->|Eno].
           2:{ injection Eno as -> ->. change (smem "Ref" CONDITION_FUNCTIONS) with false. cbn [String.eqb Ascii.eqb Bool.eqb andb eq_str]. cbv iota.
               eapply says_ext; [apply says_none|]. intros qw. split; [intros []|]. intros [x0 [<- [[d [[= <-] [_ H]]]|[[y E] _]]]]; [|discriminate E].
               inversion H as [|k0 ks0 d0 p0 x0 w0 q0 Hk H'| |]; subst. apply (Hks key (or_introl eq_refl)). destruct (String.eqb key "Ref") eqn:E; [|cbn [assoc] in Hk; rewrite E in Hk; discriminate Hk].
               apply String.eqb_eq in E. subst key. apply smem_iff. reflexivity. }
           change (smem "Fn::If" CONDITION_FUNCTIONS) with true. cbv iota.
           eapply says_ext; [apply says_concat with (P := fun cv qw => reached (key :: rest) (snd cv) (p ++ [PIdx i; PKey "Fn::If"] ++ fst cv)%list (snd qw) (fst qw))|].
           ++ intros [r y] Hy. cbn [fst snd]. assert (Ha : alternative (If_of x) p y (p ++ [PKey "Fn::If"] ++ r)%list) by (apply branches_shift; eauto).
              apply IH; [exact Hks| |refine (roomy_part _ _ _ Hr); refine (pt_branch _ _ _ _ _ _ (pt_self _) Hx _ Ha); eexists; reflexivity]. apply alternative_smaller in Ha; [unfold If_of in Ha; lia | eexists; reflexivity].
           ++ intros [q w]. cbn [fst snd]. split.
              ** intros [[r y] [Hy H]]. eexists. split; [reflexivity|]. right. split; [eexists; reflexivity|]. exists y, (p ++ [PIdx i; PKey "Fn::If"] ++ r)%list. split; [|exact H].
                 apply branches_shift. exists r. split; [exact Hy|]. now rewrite <- app_assoc.
              ** intros [x0 [<- [[d0 [_ [Hif _]]]|[_ [y [r [Ha H]]]]]]]; [exfalso; apply Hif; eexists; reflexivity|].
                 apply branches_shift in Ha as [r' [Hy ->]]. exists (r', y). split; [exact Hy|]. cbn [fst snd]. now rewrite <- app_assoc in H.
        -- destruct kx as [k2 x2]. apply Hobj; [reflexivity | intros [y E]; discriminate E].
      * intros [q w]. cbn [fst snd]. split.
        -- intros [[i x] [Hi [x0 [E H]]]]. cbn [fst snd] in *. subst x0. apply enum_nth in Hi.
           destruct H as [[d [-> [Hif H]]]|[Hif [y [r [Ha H]]]]]; [eapply re_item; eauto | eapply re_branch; eauto].
        -- intros H. inversion H as [|? ? ? ? ? ? ? ? ?|k0 ks0 l0 p0 i d w0 q0 Hi Hif H' E1|k0 ks0 l0 p0 i x y r w0 q0 Hi Hif Ha H']; subst.
           ++ exists (i, VDict d). split; [now apply enum_nth|]. eexists. split; [reflexivity|]. left. exists d. auto.
           ++ exists (i, x). split; [now apply enum_nth|]. eexists. split; [reflexivity|]. right. split; [exact Hif|]. cbn [fst snd]. eauto.
    + destruct (assoc key d) as [x|] eqn:E.
      * pose proof (assoc_In _ _ _ E) as Hi. eapply says_ext; [apply IH|].
        -- intros k Hk. apply Hks. now right.
        -- apply member_size in Hi. lia.
        -- eapply roomy_part; [eapply pt_member; [apply pt_self | exact Hi|] | exact Hr]. intros ->. apply (Hks "Fn::If" (or_introl eq_refl)). apply smem_iff. reflexivity.
        -- intros [q w]. cbn [fst snd]. split; [intros H; econstructor; eauto|]. intros H. inversion H as [|k0 ks0 d0 p0 x0 w0 q0 Hx H'| |]; subst. rewrite E in Hx. injection Hx as <-. exact H'.
      * eapply says_ext; [apply says_none|]. intros [q w]. split; [intros []|]. intros H. inversion H as [|k0 ks0 d0 p0 x0 w0 q0 Hx H'| |]; subst. congruence.
Qed.
Lemma in_resources_of types t name x : wf t -> In (name, x) (resources_of types t) <-> exists rt attrs, In rt types /\ x = VDict attrs /\ resource_of t name rt attrs.
Proof.
  intros Hw. unfold resources_of. rewrite filter_In, (in_get_resources t name x Hw). cbn [fst snd]. split.
  - intros [[o [ty [-> [[top [rs [-> [Hr Hn]]]] [Ht Hnn]]]]] Hf]. cbn [dict_of] in Hf. rewrite Ht in Hf. apply existsb_exists in Hf as [rt [Hrt He]]. apply eq_str_iff in He. subst ty.
    exists rt, o. split; [exact Hrt|]. split; [reflexivity|]. exists top, rs. split; [reflexivity|]. split; [exact Hr|]. split; [exact (assoc_In _ _ _ Hn) | exact Ht].
  - intros [rt [attrs [Hrt [-> [top [rs [-> [Hr [Hi Ht]]]]]]]]]. split.
    + exists attrs, (VStr rt). split; [reflexivity|]. split; [|split; [exact Ht | discriminate]]. exists top, rs. split; [reflexivity|]. split; [exact Hr|].
      apply assoc_NoDup; [|exact Hi]. apply wf_dict in Hw as [_ Hw]. apply assoc_In in Hr. apply Hw in Hr. now apply wf_dict in Hr as [Hr _].
    + cbn [dict_of]. rewrite Ht. apply existsb_exists. exists rt. split; [exact Hrt | now apply eq_str_iff].
Qed.
Lemma c75_reached rt ks t : wf t -> (forall k, In k ks -> ~ In k FUNCTIONS) -> (forall name attrs props, resource_of t name rt attrs -> assoc "Properties" attrs = Some props -> roomy props) ->
  exists l, get_resource_properties rt ks t = Ok l /\
    forall w q, In (q, w) l <-> exists name attrs props, resource_of t name rt attrs /\ assoc "Properties" attrs = Some props /\ (ks = [] -> truthy props = true) /\
      reached ks props [PKey "Resources"; PKey name; PKey "Properties"] w q.
Proof.
  intros Hw Hks Hr.
  assert (H : says (get_resource_properties rt ks t) (fun qw => exists nr, In nr (resources_of [rt] t) /\ exists attrs props, snd nr = VDict attrs /\ assoc "Properties" attrs = Some props /\ (ks = [] -> truthy props = true) /\
      reached ks props [PKey "Resources"; PKey (fst nr); PKey "Properties"] (snd qw) (fst qw))).
  { apply says_concat. intros [name x] Hi. cbn [fst snd]. apply in_resources_of in Hi as [rt' [attrs [[<-|[]] [-> Hres]]]]; [|exact Hw]. cbn [vget bind].
    destruct (assoc "Properties" attrs) as [props|] eqn:Ep; cbn [bind].
    - destruct (truthy props) eqn:Et.
      + eapply says_ext; [apply sub_says; [exact Hks | lia | exact (Hr _ _ _ Hres Ep)]|]. intros qw. split; [intros H; exists attrs, props; eauto|].
        intros [a' [p' [[= <-] [E [_ H]]]]]. rewrite Ep in E. injection E as <-. exact H.
      + eapply says_ext; [apply says_none|]. intros qw. split; [intros []|]. intros [a' [p' [[= <-] [E [Ht H]]]]]. rewrite Ep in E. injection E as <-.
        destruct ks as [|k ks]; [rewrite Ht in Et; [discriminate | reflexivity]|]. destruct props as [| | | | |[|y l]|[|kx d]]; try discriminate Et; inversion H as [|? ? ? ? ? ? ? Hx|? ? ? ? i ? ? ? Hx|? ? ? ? i ? ? ? ? ? Hx]; subst; try discriminate Hx; destruct i; discriminate Hx.
    - eapply says_ext; [apply says_none|]. intros qw. split; [intros []|]. intros [a' [p' [[= <-] [E _]]]]. congruence. }
  destruct H as [l [El Hl]]. exists l. split; [exact El|]. intros w q. rewrite Hl. cbn [fst snd]. split.
  - intros [[name x] [Hi [attrs [props [E [Hp [Ht H]]]]]]]. cbn [fst snd] in *. apply in_resources_of in Hi as [rt' [attrs' [[<-|[]] [-> Hres]]]]; [|exact Hw]. injection E as <-. exists name, attrs', props. auto.
  - intros [name [attrs [props [Hres [Hp [Ht H]]]]]]. exists (name, VDict attrs). split; [apply in_resources_of; [exact Hw|]; exists rt, attrs; split; [now left | auto]|]. exists attrs, props. auto.
Qed.
Lemma props_found rt key t : wf t -> unlisted t rt -> says (get_resource_properties rt [key] t) (fun qx => property_at t rt key (snd qx) (fst qx)).
Proof.
  intros Hw Hu. eapply says_ext.
  - apply says_concat with (P := fun nr qx => exists attrs pd, snd nr = VDict attrs /\ assoc "Properties" attrs = Some (VDict pd) /\ assoc key pd = Some (snd qx) /\ fst qx = [PKey "Resources"; PKey (fst nr); PKey "Properties"; PKey key]).
    intros [name x] Hi. cbn [fst snd]. apply in_resources_of in Hi as [rt' [attrs [[<-|[]] [-> Hres]]]]; [|exact Hw]. cbn [vget bind].
    assert (Hnone : (forall pd, assoc "Properties" attrs = Some (VDict pd) -> assoc key pd = None) -> says (Ok (@nil (path * val))) (fun qx => exists attrs0 pd, VDict attrs = VDict attrs0 /\ assoc "Properties" attrs0 = Some (VDict pd) /\ assoc key pd = Some (snd qx) /\ fst qx = [PKey "Resources"; PKey name; PKey "Properties"; PKey key])).
    { intros K. eapply says_ext; [apply says_none|]. intros qx. split; [intros []|]. intros [a [pd [[= <-] [E1 [E2 _]]]]]. rewrite (K _ E1) in E2. discriminate. }
    destruct (assoc "Properties" attrs) as [props|] eqn:Ep; cbn [bind]; [|apply Hnone; discriminate].
    destruct (truthy props) eqn:Et; [|apply Hnone; intros pd [= ->]; destruct pd; [reflexivity | discriminate Et]].
    destruct props as [| | | | |l|pd]; try (apply Hnone; discriminate); [now elim (Hu _ _ l Hres)|]. cbn [sub_properties val_size]. destruct (assoc key pd) as [x|] eqn:Ek.
    + eapply says_ext; [apply says_one|]. intros [q w]. cbn [fst snd]. split; [intros [= -> ->]; exists attrs, pd; auto|]. intros [a [pd' [[= <-] [E1 [E2 E3]]]]]. rewrite Ep in E1. injection E1 as <-. rewrite E3. f_equal. congruence.
    + apply Hnone. intros pd' [= <-]. exact Ek.
  - intros [q w]. cbn [fst snd]. split.
    + intros [[name x] [Hi [attrs [pd [E [Hp [Hk ->]]]]]]]. cbn [fst snd] in *. apply in_resources_of in Hi as [rt' [attrs' [[<-|[]] [-> Hres]]]]; [|exact Hw]. injection E as <-. exists name, attrs', pd. auto.
    + intros [name [attrs [pd [Hres [Hp [Hk ->]]]]]]. exists (name, VDict attrs). split; [apply in_resources_of; [exact Hw|]; exists rt, attrs; split; [now left | auto]|]. exists attrs, pd. auto.
Qed.
Lemma property_place t rt key x q : wf t -> property_at t rt key x q -> at_path q t = Some x.
Proof.
  intros Hw [name [attrs [pd [[top [rs [-> [Hr [Hi Ht]]]]] [Hp [Hk ->]]]]]]. cbn [at_path]. rewrite Hr. cbn [at_path].
  assert (En : assoc name rs = Some (VDict attrs)). { apply assoc_NoDup; [|exact Hi]. apply wf_dict in Hw as [_ Hw]. apply assoc_In in Hr. apply Hw in Hr. now apply wf_dict in Hr as [Hr _]. }
  rewrite En. cbn [at_path]. rewrite Hp. cbn [at_path]. now rewrite Hk.
Qed.
