(** C70: update policies. *)
From Coq Require Import List Lia.
From Verif.Model Require Import Base Locate Helpers Node Search Rules Refs ConditionRules PropertyRules UpdatePolicy.
From Verif.Spec Require Import Paths Branches References ConditionUse Required Values UpdatePolicy.
From Verif.Proofs Require Import BaseFacts BranchProofs SearchProofs ConditionUseProofs PropertyRuleProofs GroupProofs SizeProofs ValueProofs ParameterValueProofs MatchRun Says Places.
Import Verif.Model.Rules.
Import ListNotations.
Local Open Scope string_scope.

(** * The tables *)
Definition as_primitive (k : kind) : primitive := match k with Text => PString | Whole => PInteger | Switch => PBoolean | Each l => PList l end.
Definition as_spec (attrs : list (string * kind)) : list (string * primitive) := map (fun ak => (fst ak, as_primitive (snd ak))) attrs.
Lemma main_look k :
  (exists host attrs, policy k host attrs /\ assoc k main_types = Some (PType (as_spec attrs), [host])) \/
  (exists host, switch_policy k host /\ assoc k main_types = Some (PPrimitive PBoolean, [host])) \/
  (assoc k main_types = None /\ forall host, ~ host_of k host).
Proof.
  unfold main_types. cbn [assoc].
  destruct (String.eqb k "AutoScalingReplacingUpdate") eqn:E1; [apply String.eqb_eq in E1; subst; left; do 2 eexists; split; [apply po_replacing | reflexivity]|].
  destruct (String.eqb k "AutoScalingRollingUpdate") eqn:E2; [apply String.eqb_eq in E2; subst; left; do 2 eexists; split; [apply po_rolling | reflexivity]|].
  destruct (String.eqb k "AutoScalingScheduledAction") eqn:E3; [apply String.eqb_eq in E3; subst; left; do 2 eexists; split; [apply po_scheduled | reflexivity]|].
  destruct (String.eqb k "CodeDeployLambdaAliasUpdate") eqn:E4; [apply String.eqb_eq in E4; subst; left; do 2 eexists; split; [apply po_alias | reflexivity]|].
  destruct (String.eqb k "EnableVersionUpgrade") eqn:E5; [apply String.eqb_eq in E5; subst; right; left; eexists; split; [apply sp_upgrade | reflexivity]|].
  destruct (String.eqb k "UseOnlineResharding") eqn:E6; [apply String.eqb_eq in E6; subst; right; left; eexists; split; [apply sp_reshard | reflexivity]|].
  right; right. split; [reflexivity|]. intros host [attrs H|H]; inversion H; subst; discriminate.
Qed.
Lemma policy_unique k h a h' a' : policy k h a -> policy k h' a' -> h = h' /\ a = a'.
Proof. intros H H'. destruct H; inversion H'; subst; split; reflexivity. Qed.
Lemma policy_switch k h a h' : policy k h a -> ~ switch_policy k h'.
Proof. intros H H'. destruct H; inversion H'. Qed.
Lemma switch_unique k h h' : switch_policy k h -> switch_policy k h' -> h = h'.
Proof. intros H H'. destruct H; inversion H'; subst; reflexivity. Qed.
Lemma policy_nodup k h a : policy k h a -> NoDup (keys a).
Proof. intros H; destruct H; cbn; repeat (constructor; [intros K; cbn in K; intuition discriminate|]); constructor. Qed.
Lemma policy_names k h a x l : policy k h a -> In (x, Each l) a -> l <> [].
Proof. intros H; destruct H; cbn; intuition; match goal with E : (_, _) = (_, _) |- _ => injection E; intros; subst; discriminate end. Qed.
Lemma as_spec_look a attrs : assoc a (as_spec attrs) = match assoc a attrs with Some k => Some (as_primitive k) | None => None end.
Proof. induction attrs as [|[b k] l IH]; [reflexivity|]. cbn. destruct (String.eqb a b); [reflexivity | exact IH]. Qed.

(** * Values *)
Lemma policy_value_says a k w r : (forall l, k = Each l -> l <> []) ->
  says (policy_value a (as_primitive k) w r) (fun m => ~ of_kind k w /\ m = mkRM r (kind_words a k)).
Proof.
  intros Hl. unfold policy_value.
  assert (G : forall b : bool, (b = true <-> of_kind k w) -> says (Ok (if b then [] else [mkRM r (kind_words a k)])) (fun m => ~ of_kind k w /\ m = mkRM r (kind_words a k))).
  { intros b Hb. destruct b; [eapply says_ext; [apply says_none|]; split; [intros [] | intros [Hn _]; now apply Hn, Hb]|].
    eapply says_ext; [apply says_one|]. intros m. split; [intros ->; split; [|reflexivity]; intros Ho; apply Hb in Ho; discriminate | now intros [_ ->]]. }
  destruct k as [| | |l]; cbn [as_primitive].
  - apply (G (is_primitive PString w)). destruct w; cbn; split; intros H; try discriminate H; try now inversion H. constructor.
  - apply (G (is_primitive PInteger w)). destruct w; cbn; split; intros H; try discriminate H; try now inversion H; constructor.
  - apply (G (is_primitive PBoolean w)). destruct w; cbn; split; intros H; try discriminate H; try now inversion H. constructor.
  - assert (E : (match l with [] => [] | _ :: _ => if not_among l w then [mkRM r (allowed_message a l)] else [] end) = if negb (not_among l w) then [] else [mkRM r (kind_words a (Each l))]).
    { destruct l; [now elim (Hl [])|]. destruct (not_among _ w); reflexivity. }
    rewrite E. apply (G (negb (not_among l w))). destruct w; cbn; split; intros H; try discriminate H; try now inversion H.
    + constructor. rewrite negb_involutive in H. now apply smem_iff.
    + inversion H; subst. rewrite negb_involutive. now apply smem_iff.
Qed.

(** * Paths of single values, from another place *)
Lemma alternative_move x p w q : alternative x p w q -> exists l, q = (p ++ l)%list /\ forall p', alternative x p' w (p' ++ l)%list.
Proof.
  induction 1 as [c a b p w q _ [l [-> IH]]|c a b p w q _ [l [-> IH]]|v p Hi Hn].
  - exists ([PKey "Fn::If"; PIdx 1] ++ l)%list. split; [now rewrite app_assoc|]. intros p'. apply alt_then. rewrite app_assoc. apply IH.
  - exists ([PKey "Fn::If"; PIdx 2] ++ l)%list. split; [now rewrite app_assoc|]. intros p'. apply alt_else. rewrite app_assoc. apply IH.
  - exists []. split; [now rewrite app_nil_r|]. intros p'. rewrite app_nil_r. now apply alt_leaf.
Qed.
Lemma single_move x p w q : single x p w q -> exists l, q = (p ++ l)%list /\ forall p', single x p' w (p' ++ l)%list.
Proof.
  intros H. destruct H as [v p w q Ha Hl|v p l q i x w r Ha Hi Hx].
  - destruct (alternative_move _ _ _ _ Ha) as [l [-> H]]. exists l. split; [reflexivity|]. intros p'. now apply sg_value.
  - destruct (alternative_move _ _ _ _ Ha) as [l1 [-> H1]]. destruct (alternative_move _ _ _ _ Hx) as [l2 [-> H2]].
    exists (l1 ++ [PIdx i] ++ l2)%list. split; [now rewrite !app_assoc|]. intros p'. apply (sg_item v p' l (p' ++ l1)%list i x); [apply H1 | exact Hi|].
    rewrite !app_assoc. rewrite <- (app_assoc p' l1 [PIdx i]). specialize (H2 (p' ++ l1 ++ [PIdx i])%list). rewrite <- (app_assoc p'). rewrite <- (app_assoc p') in H2. rewrite <- !app_assoc in H2 |- *. cbn in *. exact H2.
Qed.
Lemma null_move x p p' : (forall q, ~ alternative x p VNull q) -> forall q, ~ alternative x p' VNull q.
Proof. intros H q Ha. destruct (alternative_move _ _ _ _ Ha) as [l [_ Hl]]. exact (H _ (Hl p)). Qed.

(** * The attributes of a policy *)
Lemma attribute_says k host attrs p r a y : policy k host attrs -> (In a (keys attrs) -> forall s, ~ alternative y (r ++ [PKey a])%list VNull s) ->
  says (check_attribute (as_spec attrs) p r (a, y)) (fun m =>
    (~ In a (keys attrs) /\ m = mkRM (p ++ [PKey a])%list (unsupported a)) \/
    (exists ki w s, In (a, ki) attrs /\ single y (r ++ [PKey a])%list w s /\ ~ is_call w /\ ~ of_kind ki w /\ m = mkRM s (kind_words a ki))).
Proof.
  intros Hp Hn. unfold check_attribute. cbn [fst]. rewrite as_spec_look. destruct (assoc a attrs) as [ki|] eqn:E.
  - pose proof (assoc_In _ _ _ E) as Hi.
    eapply says_ext; [apply (says_values (policy_value a (as_primitive ki)) [(a, y)] a y r (fun w s m => ~ of_kind ki w /\ m = mkRM s (kind_words a ki)))|].
    + cbn. now rewrite String.eqb_refl.
    + apply Hn. apply (in_map fst) in Hi. exact Hi.
    + intros w s _ _. apply policy_value_says. intros l ->. exact (policy_names _ _ _ _ _ Hp Hi).
    + intros m. cbn beta. split.
      * intros [w [s [Hs [Hc [Hk ->]]]]]. right. exists ki, w, s. auto.
      * intros [[Hk _]|[ki' [w [s [Hi' [Hs [Hc [Hk ->]]]]]]]]; [elim Hk; apply (in_map fst) in Hi; exact Hi|].
        assert (ki' = ki) by (apply (assoc_NoDup _ _ _ (policy_nodup _ _ _ Hp)) in Hi'; congruence). subst ki'. exists w, s. auto.
  - eapply says_ext; [apply says_one|]. intros m. cbn beta. split.
    + intros ->. left. split; [|reflexivity]. intros H. apply assoc_None in E. now apply E.
    + intros [[_ ->]|[ki [w [s [Hi _]]]]]; [reflexivity|]. apply assoc_None in E. elim E. apply (in_map fst) in Hi. exact Hi.
Qed.
Lemma attributes_says k host attrs x p : policy k host attrs ->
  (is_dict x = true -> all_objects x p /\ forall e r a y, branch x p (VDict e) r -> In (a, y) e -> In a (keys attrs) -> forall s, ~ alternative y (r ++ [PKey a])%list VNull s) ->
  says (check_attributes k (as_spec attrs) x p) (fun m =>
    (is_dict x = false /\ m = mkRM p (k ++ " should be an object")) \/
    (is_dict x = true /\ exists e r a y, branch x p (VDict e) r /\ In (a, y) e /\
       ((~ In a (keys attrs) /\ m = mkRM (p ++ [PKey a])%list (unsupported a)) \/
        (exists ki w s, In (a, ki) attrs /\ single y (r ++ [PKey a])%list w s /\ ~ is_call w /\ ~ of_kind ki w /\ m = mkRM s (kind_words a ki))))).
Proof.
  intros Hp Hx. destruct x as [|b0|z0|f0|s0|l0|d0]; cbn [check_attributes is_dict] in *; try (eapply says_ext; [apply says_one|]; intuition; fail); try (eapply says_ext; [apply says_one|]; intros m; split; [now left | intros [[_ H]|[H _]]; [exact H | discriminate H]]).
  destruct (Hx eq_refl) as [Ho Hn].
  eapply says_ext.
  - apply (says_concat _ _ (fun wq m => exists e a y, fst wq = VDict e /\ In (a, y) e /\
      ((~ In a (keys attrs) /\ m = mkRM (p ++ [PKey a])%list (unsupported a)) \/
       (exists ki w s, In (a, ki) attrs /\ single y (snd wq ++ [PKey a])%list w s /\ ~ is_call w /\ ~ of_kind ki w /\ m = mkRM s (kind_words a ki))))).
    intros [w r] Hi. apply items_safe_spec in Hi. destruct (Ho _ _ Hi) as [e ->]. cbn [fst snd items_of bind].
    eapply says_ext.
    + apply (says_concat _ _ (fun kv m => (~ In (fst kv) (keys attrs) /\ m = mkRM (p ++ [PKey (fst kv)])%list (unsupported (fst kv))) \/
       (exists ki w s, In (fst kv, ki) attrs /\ single (snd kv) (r ++ [PKey (fst kv)])%list w s /\ ~ is_call w /\ ~ of_kind ki w /\ m = mkRM s (kind_words (fst kv) ki)))).
      intros [a y] Hay. cbn [fst snd]. apply (attribute_says k host); [exact Hp|]. intros Ha. exact (Hn e r a y Hi Hay Ha).
    + intros m. cbn beta. split.
      * intros [[a y] [Hay Hm]]. exists e, a, y. split; [reflexivity|]. split; [exact Hay | exact Hm].
      * intros [e' [a [y [[= <-] [Hay Hm]]]]]. exists (a, y). split; [exact Hay | exact Hm].
  - intros m. cbn beta. split.
    + intros [[w r] [Hi [e [a [y [E [Hay Hm]]]]]]]. cbn [fst snd] in *. subst w. right. split; [reflexivity|]. exists e, r, a, y. split; [now apply items_safe_spec|]. split; [exact Hay | exact Hm].
    + intros [[[=] _]|[_ [e [r [a [y [Hb [Hay Hm]]]]]]]]. exists (VDict e, r). split; [now apply items_safe_spec|]. exists e, a, y. split; [reflexivity|]. split; [exact Hay | exact Hm].
Qed.

(** * One policy *)
Inductive member_fault (t : val) (q : path) (k : string) (x : val) : path -> path -> string -> Prop :=
| mf_unknown : (forall host, ~ host_of k host) -> member_fault t q k x (q ++ [PKey k])%list (q ++ [PKey k])%list (unsupported k)
| mf_host : forall host, host_of k host -> t <> VStr host ->
    member_fault t q k x (q ++ [PKey k])%list (q ++ [PKey k])%list ("UpdatePolicy only supports this type for resources of type (" ++ host ++ ")")
| mf_attributes : forall host attrs, policy k host attrs -> is_dict x = false ->
    member_fault t q k x (q ++ [PKey k])%list (q ++ [PKey k])%list (k ++ " should be an object")
| mf_attribute : forall host attrs e r a y, policy k host attrs -> is_dict x = true ->
    branch x (q ++ [PKey k])%list (VDict e) r -> In (a, y) e -> ~ In a (keys attrs) ->
    member_fault t q k x (r ++ [PKey a])%list (q ++ [PKey k; PKey a])%list (unsupported a)
| mf_value : forall host attrs e r a y ki w s, policy k host attrs -> is_dict x = true ->
    branch x (q ++ [PKey k])%list (VDict e) r -> In (a, y) e -> In (a, ki) attrs ->
    single y (r ++ [PKey a])%list w s -> ~ is_call w -> ~ of_kind ki w -> member_fault t q k x s s (kind_words a ki)
| mf_switch : forall host w s rest, switch_policy k host ->
    single x (q ++ [PKey k])%list w s -> ~ is_call w -> ~ of_kind Switch w -> s = (q ++ PKey k :: rest)%list ->
    member_fault t q k x s (q ++ PKey k :: PKey k :: rest)%list (kind_words k Switch).
Lemma not_host_iff host t : not_host [host] t = true <-> t <> VStr host.
Proof.
  destruct t; cbn; try (split; [discriminate | reflexivity]). rewrite orb_false_r. destruct (String.eqb s host) eqn:E; cbn.
  - apply String.eqb_eq in E. subst. split; [discriminate | now intros []].
  - apply String.eqb_neq in E. split; [congruence | reflexivity].
Qed.
Lemma member_says t q k x :
  (forall host, switch_policy k host -> forall r, ~ alternative x (q ++ [PKey k])%list VNull r) ->
  (forall host attrs, policy k host attrs -> is_dict x = true -> all_objects x (q ++ [PKey k])%list /\
       forall e r a y, branch x (q ++ [PKey k])%list (VDict e) r -> In (a, y) e -> In a (keys attrs) ->
       forall s, ~ alternative y (r ++ [PKey a])%list VNull s) ->
  says (check_member t q (k, x)) (fun m => exists place shown words, member_fault t q k x place shown words /\ m = mkRM shown words).
Proof.
  intros Hs Ha. unfold check_member. cbn [fst snd]. destruct (main_look k) as [[host [attrs [Hp ->]]]|[[host [Hp ->]]|[-> Hp]]].
  - eapply says_ext; [apply says_cons, (attributes_says k host attrs x (q ++ [PKey k])%list Hp (Ha host attrs Hp))|].
    intros m. cbn beta. split.
    + intros [Hm|[[Hd ->]|[Hd [e [r [a [y [Hb [Hy [[Hn ->]|[ki [w [s [Hi [Hw [Hc [Hk ->]]]]]]]]]]]]]]]]].
      * destruct (not_host [host] t) eqn:E; [|destruct Hm]. destruct Hm as [<-|[]]. do 3 eexists. split; [|reflexivity].
        apply mf_host; [exact (ho_policy _ _ _ Hp) | now apply not_host_iff].
      * do 3 eexists. split; [exact (mf_attributes _ _ _ _ host attrs Hp Hd) | reflexivity].
      * do 3 eexists. split; [exact (mf_attribute t _ _ _ host attrs e r a y Hp Hd Hb Hy Hn)|]. now rewrite <- app_assoc.
      * do 3 eexists. split; [exact (mf_value t _ _ _ host attrs e r a y ki w s Hp Hd Hb Hy Hi Hw Hc Hk) | reflexivity].
    + intros [place [shown [words [H ->]]]]. inversion H; subst.
      * exfalso. exact (H0 host (ho_policy _ _ _ Hp)).
      * left. assert (host0 = host) as -> by (destruct H0 as [? Hq|Hq]; [exact (proj1 (policy_unique _ _ _ _ _ Hq Hp)) | elim (policy_switch _ _ _ _ Hp Hq)]).
        rewrite (proj2 (not_host_iff host t) H1). now left.
      * right. left. auto.
      * destruct (policy_unique _ _ _ _ _ H0 Hp) as [-> ->]. right. right. split; [assumption|]. exists e, r, a, y. split; [assumption|]. split; [assumption|]. left. split; [assumption|]. now rewrite <- app_assoc.
      * destruct (policy_unique _ _ _ _ _ H0 Hp) as [-> ->]. right. right. split; [assumption|]. exists e, r, a, y. split; [assumption|]. split; [assumption|]. right. exists ki, w, shown. auto.
      * elim (policy_switch _ _ _ _ Hp H0).
  - eapply says_ext.
    { apply says_cons. apply (says_values (policy_value k (as_primitive Switch)) [(k, x)] k x (q ++ [PKey k])%list (fun w s m => ~ of_kind Switch w /\ m = mkRM s (kind_words k Switch))).
      - cbn. now rewrite String.eqb_refl.
      - apply (null_move x (q ++ [PKey k])%list). exact (Hs host Hp).
      - intros w s _ _. apply policy_value_says. discriminate. }
    intros m. cbn beta. split.
    + intros [Hm|[w [s [Hw [Hc [Hk ->]]]]]].
      * destruct (not_host [host] t) eqn:E; [|destruct Hm]. destruct Hm as [<-|[]]. do 3 eexists. split; [|reflexivity].
        apply mf_host; [exact (ho_switch _ _ Hp) | now apply not_host_iff].
      * destruct (single_move _ _ _ _ Hw) as [l [-> Hl]]. do 3 eexists. split; [apply (mf_switch t q k x host w (q ++ PKey k :: l)%list l Hp)|].
        -- specialize (Hl (q ++ [PKey k])%list). rewrite <- app_assoc in Hl. exact Hl.
        -- exact Hc.
        -- exact Hk.
        -- reflexivity.
        -- now rewrite <- !app_assoc.
    + intros [place [shown [words [H ->]]]]. inversion H; subst.
      * exfalso. exact (H0 host (ho_switch _ _ Hp)).
      * left. assert (host0 = host) as -> by (destruct H0 as [? Hq|Hq]; [elim (policy_switch _ _ _ _ Hq Hp) | exact (switch_unique _ _ _ Hq Hp)]).
        rewrite (proj2 (not_host_iff host t) H1). now left.
      * elim (policy_switch _ _ _ _ H0 Hp).
      * elim (policy_switch _ _ _ _ H0 Hp).
      * elim (policy_switch _ _ _ _ H0 Hp).
      * right. destruct (single_move _ _ _ _ H1) as [l [El Hl]]. rewrite <- app_assoc in El. apply app_inv_head in El. injection El as ->.
        exists w, (q ++ PKey k :: PKey k :: l)%list. split; [|auto]. specialize (Hl ((q ++ [PKey k]) ++ [PKey k])%list). rewrite <- !app_assoc in Hl. cbn in Hl. rewrite <- app_assoc. exact Hl.
  - eapply says_ext; [apply says_one|]. intros m. cbn beta. split.
    + intros ->. do 3 eexists. split; [exact (mf_unknown _ _ _ _ Hp) | reflexivity].
    + intros [place [shown [words [H ->]]]]. inversion H; subst; try reflexivity; exfalso.
      * exact (Hp _ H0).
      * exact (Hp _ (ho_policy _ _ _ H0)).
      * exact (Hp _ (ho_policy _ _ _ H0)).
      * exact (Hp _ (ho_policy _ _ _ H0)).
      * exact (Hp _ (ho_switch _ _ H0)).
Qed.

(** * The policy of a resource *)
Lemma fault_iff t u p place shown words : policy_fault t u p place shown words <->
  (u <> VNull /\ is_dict u = false /\ place = p /\ shown = p /\ words = "UpdatePolicy should be an object") \/
  (exists d q k x, branch u p (VDict d) q /\ In (k, x) d /\ member_fault t q k x place shown words).
Proof.
  split.
  - intros H. destruct H; [now left| | | | | |]; right; exists d, q, k, x; (split; [assumption|]); (split; [assumption|]).
    + now apply mf_unknown.
    + now apply mf_host.
    + now apply (mf_attributes _ _ _ _ host attrs).
    + now apply (mf_attribute _ _ _ _ host attrs e r a y).
    + now apply (mf_value _ _ _ _ host attrs e r a y ki w s).
    + now apply (mf_switch _ _ _ _ host w s rest).
  - intros [[Hu [Hd [-> [-> ->]]]]|[d [q [k [x [Hb [Hi H]]]]]]]; [now apply uf_object|]. destruct H.
    + now apply (uf_unknown _ _ _ d q k x).
    + now apply (uf_host _ _ _ d q k x).
    + now apply (uf_attributes _ _ _ d q k x host attrs).
    + now apply (uf_attribute _ _ _ d q k x host attrs e r a y).
    + now apply (uf_value _ _ _ d q k x host attrs e r a y ki w s).
    + now apply (uf_switch _ _ _ d q k x host w s rest).
Qed.
Lemma not_dict_branch u p d q : is_dict u = false -> ~ branch u p (VDict d) q.
Proof. intros H Hb. inversion Hb as [| |v w p' Hi Hn Hs]; subst; try discriminate H. inversion Hs; subst; discriminate H. Qed.
Lemma resource_policy_says n o t u : assoc "Type" o = Some t -> assoc "UpdatePolicy" o = Some u -> policy_shaped u (policy_place n) ->
  says (resource_policy (n, VDict o)) (fun m => exists place shown words, policy_fault t u (policy_place n) place shown words /\ m = mkRM shown words).
Proof.
  intros Ht Hu Hs. unfold resource_policy. cbn [fst snd vget]. rewrite Hu, Ht. cbn [bind]. fold (policy_place n).
  assert (G : is_dict u = false -> u <> VNull -> says (Ok [mkRM (policy_place n) "UpdatePolicy should be an object"])
     (fun m => exists place shown words, policy_fault t u (policy_place n) place shown words /\ m = mkRM shown words)).
  { intros Hd Hn. eapply says_ext; [apply says_one|]. intros m. cbn beta. split.
    - intros ->. do 3 eexists. split; [exact (uf_object t u _ Hn Hd) | reflexivity].
    - intros [place [shown [words [H ->]]]]. apply fault_iff in H as [[_ [_ [-> [-> ->]]]]|[d [q [k [x [Hb _]]]]]]; [reflexivity|]. elim (not_dict_branch _ _ _ _ Hd Hb). }
  destruct u as [|b0|z0|f0|s0|l0|d0]; try (apply G; [reflexivity | discriminate]).
  - eapply says_ext; [apply says_none|]. intros m. split; [intros []|]. intros [place [shown [words [H ->]]]]. apply fault_iff in H as [[H _]|[d [q [k [x [Hb _]]]]]]; [now elim H|]. elim (not_dict_branch VNull _ _ _ eq_refl Hb).
  - clear G. destruct (Hs eq_refl) as [Ho Hm].
    eapply says_ext.
    + apply (says_concat _ _ (fun wq m => exists d k x place shown words, fst wq = VDict d /\ In (k, x) d /\ member_fault t (snd wq) k x place shown words /\ m = mkRM shown words)).
      intros [w q] Hi. apply items_safe_spec in Hi. destruct (Ho _ _ Hi) as [d ->]. cbn [fst snd]. unfold check_update_policy. cbn [items_of bind].
      eapply says_ext.
      * apply (says_concat _ _ (fun kv m => exists place shown words, member_fault t q (fst kv) (snd kv) place shown words /\ m = mkRM shown words)).
        intros [k x] Hk. cbn [fst snd]. destruct (Hm d q k x Hi Hk) as [H1 H2]. now apply member_says.
      * intros m. cbn beta. split.
        -- intros [[k x] [Hk [place [shown [words [H ->]]]]]]. exists d, k, x, place, shown, words. auto.
        -- intros [d' [k [x [place [shown [words [E [Hk [H ->]]]]]]]]]. injection E as <-. exists (k, x). split; [exact Hk|]. eauto.
    + intros m. cbn beta. split.
      * intros [[w q] [Hi [d [k [x [place [shown [words [E [Hk [H ->]]]]]]]]]]]. cbn [fst snd] in *. subst w. exists place, shown, words. split; [|reflexivity]. apply fault_iff. right.
        exists d, q, k, x. split; [now apply items_safe_spec|]. auto.
      * intros [place [shown [words [H ->]]]]. apply fault_iff in H as [[_ [[=] _]]|[d [q [k [x [Hb [Hk H]]]]]]]. exists (VDict d, q). split; [now apply items_safe_spec|].
        exists d, k, x, place, shown, words. auto.
Qed.

(** * The template *)
Lemma c70_judged template : wf template -> (forall name t u, has_policy template name t u -> policy_shaped u (policy_place name)) ->
  exists ms, update_policy_match template = Ok ms /\ forall m, In m ms <->
    exists name t u place shown words, has_policy template name t u /\ policy_fault t u (policy_place name) place shown words /\ m = mkRM shown words.
Proof.
  intros Hw Hs.
  assert (G : says (update_policy_match template) (fun m => exists nr, In nr (get_resources template) /\ exists o t u place shown words, snd nr = VDict o /\ assoc "Type" o = Some t /\
    assoc "UpdatePolicy" o = Some u /\ policy_fault t u (policy_place (fst nr)) place shown words /\ m = mkRM shown words)).
  { apply says_concat. intros [n x] Hi. destruct (proj1 (in_get_resources _ _ _ Hw) Hi) as [o [t [-> [Hd [Ht Hn]]]]]. cbn [fst snd].
    destruct (assoc "UpdatePolicy" o) as [u|] eqn:Eu.
    - eapply says_ext; [apply (resource_policy_says n o t u Ht Eu)|].
      + apply (Hs n t u). exists o. auto.
      + intros m. split.
        * intros [place [shown [words [H ->]]]]. exists o, t, u, place, shown, words. auto.
        * intros [o' [t' [u' [place [shown [words [E [Ht' [Hu' [H ->]]]]]]]]]]. injection E as <-. assert (t' = t) as -> by congruence. assert (u' = u) as -> by congruence. eauto.
    - assert (E : resource_policy (n, VDict o) = Ok []) by (unfold resource_policy; cbn [fst snd vget]; rewrite Eu, Ht; reflexivity).
      rewrite E. eapply says_ext; [apply says_none|]. intros m. split; [intros []|]. intros [o' [t' [u' [place [shown [words [E' [Ht' [Hu' _]]]]]]]]]. injection E' as <-. congruence. }
  destruct G as [ms [E G]]. exists ms. split; [exact E|]. intros m. rewrite G. split.
  - intros [[n x] [Hi [o [t [u [place [shown [words [Ex [Ht [Hu [H ->]]]]]]]]]]]]. cbn [fst snd] in *. subst x. exists n, t, u, place, shown, words. split; [|auto].
    destruct (proj1 (in_get_resources _ _ _ Hw) Hi) as [o' [t' [[= <-] [Hd [Ht' Hn]]]]]. exists o. split; [exact Hd|]. split; [exact Ht|]. split; [congruence | exact Hu].
  - intros [n [t [u [place [shown [words [[o [Hd [Ht [Hn Hu]]]] [H ->]]]]]]]]. exists (n, VDict o). split; [apply in_get_resources; [exact Hw|]; exists o, t; auto|].
    exists o, t, u, place, shown, words. auto.
Qed.
(** A fault is reported at its place, except for an attribute below a condition and for the policies that are a switch. *)
Lemma c70_places t u p place shown words : policy_fault t u p place shown words ->
  shown = place \/
  (exists q k x r a, place = (r ++ [PKey a])%list /\ shown = (q ++ [PKey k; PKey a])%list /\ is_if x /\ exists e, branch x (q ++ [PKey k])%list (VDict e) r) \/
  (exists host q k rest, switch_policy k host /\ place = (q ++ PKey k :: rest)%list /\ shown = (q ++ PKey k :: PKey k :: rest)%list).
Proof.
  intros H. destruct H; try (left; reflexivity).
  - destruct x as [|b0|z0|f0|s0|l0|d0]; try discriminate. destruct (is_if_dec (VDict d0)) as [Hi|Hi].
    + right; left. exists q, k, (VDict d0), r, a. split; [reflexivity|]. split; [reflexivity|]. split; [destruct Hi as [z Hz]; now exists z|]. exists e. exact H3.
    + left. destruct (branch_plain _ _ _ _ Hi H3) as [-> _]. now rewrite <- app_assoc.
  - right; right. subst s. exists host, q, k, rest. auto.
Qed.

(** * In a run *)
Lemma single_inside x p w rest : single x p w (p ++ rest)%list -> rest = [] \/ is_if x \/ is_list x = true.
Proof.
  intros H. remember (p ++ rest)%list as q eqn:E. destruct H as [v p w q Ha Hl|v p l q i y w r Ha Hi Hx].
  - destruct Ha as [c a b p w q Ha|c a b p w q Ha|v p Hi Hn]; [right; left; eexists; reflexivity | right; left; eexists; reflexivity|].
    left. rewrite <- (app_nil_r p) in E at 1. apply app_inv_head in E. now symmetry.
  - remember (VList l) as vl eqn:El. destruct Ha as [c a b p w' q Ha|c a b p w' q Ha|v p Hif Hn]; [right; left; eexists; reflexivity | right; left; eexists; reflexivity|].
    subst v. right; right. reflexivity.
Qed.
Lemma policy_at template name t u : wf template -> has_policy template name t u -> at_path (policy_place name) template = Some u.
Proof.
  intros Hw [o [[d [s [-> [Hs Hn]]]] [_ [_ Hu]]]]. cbn [policy_place at_path]. rewrite Hs. cbn [at_path]. now rewrite Hn, Hu.
Qed.
Lemma fault_shown c u p t place shown words : wf (template c) -> at_path p (template c) = Some u -> p <> [] -> policy_fault t u p place shown words ->
  shown <> [] /\ indices_ok (c_tmpl c) shown.
Proof.
  intros Hw Hp Hne H.
  assert (A : forall q, q <> [] -> (exists x, at_path q (template c) = Some x) -> q <> [] /\ indices_ok (c_tmpl c) q).
  { intros q Hq [x Hx]. split; [exact Hq|]. now apply (at_path_indices _ _ x). }
  assert (E : forall q (k : string), (q ++ [PKey k])%list <> []) by (intros q k K; now apply app_eq_nil in K as [_ [=]]).
  destruct H.
  - apply A; eauto.
  - apply A; [apply E|]. exists x. exact (branch_member_at _ _ _ _ _ _ _ Hw H Hp H0).
  - apply A; [apply E|]. exists x. exact (branch_member_at _ _ _ _ _ _ _ Hw H Hp H0).
  - apply A; [apply E|]. exists x. exact (branch_member_at _ _ _ _ _ _ _ Hw H Hp H0).
  - split; [intros K; now apply app_eq_nil in K as [_ [=]]|]. pose proof (branch_member_at _ _ _ _ _ _ _ Hw H Hp H0) as Hx.
    change (q ++ [PKey k; PKey a])%list with (q ++ [PKey k] ++ [PKey a])%list. rewrite app_assoc. apply (indices_after _ _ _ x Hx). intros t' _. apply indices_key.
  - pose proof (branch_member_at _ _ _ _ _ _ _ Hw H Hp H0) as Hx. pose proof (branch_member_at _ _ _ _ _ _ _ Hw H3 Hx H4) as Hy.
    apply A; [exact (single_nonempty _ _ _ _ H6 (E _ _))|]. exists w. exact (single_at _ _ _ _ _ H6 Hy).
  - split; [intros K; now apply app_eq_nil in K as [_ [=]]|]. pose proof (branch_member_at _ _ _ _ _ _ _ Hw H Hp H0) as Hx.
    subst s. change (q ++ PKey k :: PKey k :: rest)%list with (q ++ [PKey k] ++ PKey k :: rest)%list. rewrite app_assoc. apply (indices_after _ _ _ x Hx). intros t' Ht'.
    change (q ++ PKey k :: rest)%list with (q ++ [PKey k] ++ rest)%list in H2. rewrite app_assoc in H2.
    destruct (single_inside _ _ _ _ H2) as [->|Hi]; [apply indices_key|]. apply indices_gone. rewrite Ht'. destruct Hi as [[y ->]|Hl].
    + cbn [at_path assoc If_of]. destruct (String.eqb k "Fn::If") eqn:Ek; [|reflexivity]. apply String.eqb_eq in Ek. subst k. inversion H1.
    + destruct x; try discriminate Hl. reflexivity.
Qed.
Lemma c70_run sp k c raw m0 d0 name t u place shown words :
  snd (coll_run sp k c) = Ok raw -> In update_policy_rule (k_all k) -> enabled (k_set k) update_policy_rule = true ->
  wf (template c) -> c_tmpl c = MDict m0 d0 -> (forall name t u, has_policy (template c) name t u -> policy_shaped u (policy_place name)) ->
  has_policy (template c) name t u -> policy_fault t u (policy_place name) place shown words ->
  exists fi, locate_match c "E3016" (mkRM shown words) = Ok fi /\ In fi raw.
Proof.
  intros Hrun Hr He Hw Hc Hs Hp Hf. destruct (c70_judged _ Hw Hs) as [ms [Hms Hin]].
  apply (reported_match sp k c raw update_policy_rule (fun _ c => update_policy_match (template c)) ms _ m0 d0 Hrun Hr He eq_refl Hc Hms).
  - intros m Hm. destruct (proj1 (Hin m) Hm) as [n [t' [u' [pl [sh [wo [Hp' [Hf' ->]]]]]]]]. cbn [rm_path].
    apply (fault_shown c u' (policy_place n) t' pl sh wo Hw (policy_at _ _ _ _ Hw Hp')); [discriminate | exact Hf'].
  - apply Hin. exists name, t, u, place, shown, words. auto.
Qed.
