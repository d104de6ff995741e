(** C73: targets of event rules. *)
From Coq Require Import List Lia.
From Verif.Model Require Import Base Locate Helpers Node Search Rules PropertyRules Events.
From Verif.Spec Require Import Paths Branches References Required Walk Values Permissions Events.
From Verif.Proofs Require Import BaseFacts SearchProofs BranchProofs ConditionUseProofs PropertyRuleProofs GroupProofs SizeProofs ValueProofs RefProofs Says Places IamProofs PermissionProofs ValueRun EventProofs.
Import Verif.Model.Rules.
Import ListNotations.
Local Open Scope string_scope.

Definition callb (v : val) : bool := match v with VDict [(k, _)] => smem k FUNCTIONS | _ => false end.
Lemma callb_iff v : callb v = true <-> is_call v.
Proof.
  split.
  - destruct v as [| | | | | |[|[k x] [|? ?]]]; try discriminate. intros H. exists k, x. split; [reflexivity|]. now apply smem_iff.
  - intros [k [x [-> H]]]. now apply smem_iff.
Qed.
Definition uncalled (l : list val) : list val := filter (fun v => negb (callb v)) l.
Lemma only_uncalled l : only (fun v => ~ is_call v) l (uncalled l).
Proof.
  induction l as [|v l IH]; [constructor|]. cbn [uncalled filter]. destruct (callb v) eqn:E; cbn [negb].
  - apply on_skip; [|exact IH]. intros H. apply H. now apply callb_iff.
  - apply on_take; [|exact IH]. intros H. apply callb_iff in H. congruence.
Qed.
Lemma only_unique {A} (P : A -> Prop) l a b : only P l a -> only P l b -> a = b.
Proof.
  intros H. revert b. induction H as [|x l l' Hx H IH|x l l' Hx H IH]; intros b Hb; inversion Hb; subst; try contradiction; [reflexivity | f_equal; auto | auto].
Qed.
Definition places (l : list val) (q : path) : list path := flat_map (fun ix => if callb (snd ix) then [] else [(q ++ [PIdx (fst ix)])%list]) (enum l).
Lemma places_length l q : List.length (places l q) = List.length (uncalled l).
Proof.
  unfold places, enum. generalize 0 as i. induction l as [|v l IH]; intros i; [reflexivity|]. cbn [enum_from flat_map fst snd uncalled filter]. destruct (callb v); cbn [negb app List.length]; [apply IH|]. f_equal. apply IH.
Qed.
Lemma places_in l q p : In p (places l q) -> exists i, p = (q ++ [PIdx i])%list.
Proof. unfold places. intros H. apply in_flat_map in H as [[i x] [_ H]]. cbn [fst snd] in H. destruct (callb x); [destruct H | destruct H as [<-|[]]; eauto]. Qed.
Lemma concat_res_app {A B} (f : A -> res (list B)) l l' : concat_res f (l ++ l') = do a <- concat_res f l; do b <- concat_res f l'; Ok (a ++ b)%list.
Proof.
  induction l as [|x l IH]; cbn [concat_res app bind].
  - destruct (concat_res f l') as [b|e]; reflexivity.
  - destruct (f x) as [a|e]; cbn [bind]; [|reflexivity]. rewrite IH. destruct (concat_res f l) as [a'|e]; cbn [bind]; [|reflexivity]. destruct (concat_res f l') as [b|e]; cbn [bind]; [now rewrite app_assoc | reflexivity].
Qed.
Definition note : val -> path -> res (list rulematch) := fun _ q => Ok [mkRM q ""].
Lemma list_noted l q : (forall i, In i l -> ~ is_if i) ->
  exists ms, concat_res (judge note []) (flat_map (fun ix => list_value (fst ix) (snd ix) q) (enum l)) = Ok ms /\ map rm_path ms = places l q.
Proof.
  unfold places, enum. generalize 0 as n. induction l as [|v l IH]; intros n Hi; [exists []; split; reflexivity|].
  destruct (IH (S n) (fun i H => Hi i (or_intror H))) as [ms [E Hm]]. cbn [enum_from flat_map fst snd].
  assert (Hv : exists ms', concat_res (judge note []) (list_value n v q) = Ok ms' /\ map rm_path ms' = if callb v then [] else [(q ++ [PIdx n])%list]).
  { unfold list_value. specialize (Hi v (or_introl eq_refl)). destruct v as [|b|z|f|s|l0|d]; try (eexists; split; reflexivity).
    destruct d as [|[k x] [|? ?]]; try (eexists; split; reflexivity). cbn [callb].
    assert (Hc : smem k CONDITION_FUNCTIONS = false).
    { apply not_true_is_false. intros K. apply smem_iff in K as [<-|[]]. apply Hi. now exists x. }
    rewrite Hc. destruct (String.eqb k "Ref" && eq_str "AWS::NoValue" x) eqn:En.
    - apply andb_prop in En as [Ek _]. apply String.eqb_eq in Ek. subst k. exists []. split; reflexivity.
    - cbn [concat_res]. unfold judge, note. cbn [fst snd]. destruct (smem k FUNCTIONS); eexists; split; reflexivity. }
  destruct Hv as [ms' [E' Hm']]. rewrite concat_res_app, E', E. cbn [bind]. exists (ms' ++ ms)%list. split; [reflexivity|]. now rewrite map_app, Hm', Hm.
Qed.

(** * Counts *)
Definition group (n : string) (i : nat) (q : path) : limits := match i with 0 => [] | _ => [(n, (i, q))] end.
Lemma count_in_new n q lim : ~ In n (keys lim) -> count_in n q lim = (lim ++ [(n, (1, q))])%list.
Proof.
  induction lim as [|[m [i q']] r IH]; intros H; [reflexivity|]. cbn [count_in app]. destruct (String.eqb n m) eqn:E; [apply String.eqb_eq in E; subst; elim H; now left|].
  f_equal. apply IH. intros K. apply H. now right.
Qed.
Lemma count_in_again n q i q' lim : ~ In n (keys lim) -> count_in n q (lim ++ [(n, (i, q'))])%list = (lim ++ [(n, (S i, q'))])%list.
Proof.
  induction lim as [|[m [j q2]] r IH]; intros H; cbn [count_in app]; [now rewrite String.eqb_refl|]. destruct (String.eqb n m) eqn:E; [apply String.eqb_eq in E; subst; elim H; now left|].
  f_equal. apply IH. intros K. apply H. now right.
Qed.
Lemma count_more n q ps : forall lim i, ~ In n (keys lim) -> (forall p, In p ps -> group_name p = Ok n /\ removelast p = q) ->
  count_targets (lim ++ [(n, (i, q))])%list ps = Ok (lim ++ [(n, (i + List.length ps, q))])%list.
Proof.
  induction ps as [|p ps IH]; intros lim i Hn Hp; cbn [count_targets List.length]; [now rewrite PeanoNat.Nat.add_0_r|].
  destruct (Hp p (or_introl eq_refl)) as [Hg Hq]. unfold count_target. rewrite Hg. cbn [bind]. rewrite count_in_again by exact Hn. rewrite IH; [now rewrite PeanoNat.Nat.add_succ_comm | exact Hn | intros p' H; apply Hp; now right].
Qed.
Lemma count_group n q ps lim : ~ In n (keys lim) -> (forall p, In p ps -> group_name p = Ok n /\ removelast p = q) -> count_targets lim ps = Ok (lim ++ group n (List.length ps) q)%list.
Proof.
  intros Hn Hp. destruct ps as [|p ps]; [cbn; now rewrite app_nil_r|]. cbn [count_targets List.length group]. destruct (Hp p (or_introl eq_refl)) as [Hg Hq]. unfold count_target. rewrite Hg. cbn [bind]. rewrite Hq, (count_in_new _ _ _ Hn).
  exact (count_more n q ps lim 1 Hn (fun p' H => Hp p' (or_intror H))).
Qed.
Lemma count_app lim a b : count_targets lim (a ++ b)%list = do l <- count_targets lim a; count_targets l b.
Proof. revert lim. induction a as [|p a IH]; intros lim; [reflexivity|]. cbn [count_targets app]. destruct (count_target lim p) as [l|e]; cbn [bind]; [apply IH | reflexivity]. Qed.

(** * What one rule adds *)
Definition targets_place (name : string) : path := [PKey "Resources"; PKey name; PKey "Properties"; PKey "Targets"].
Definition if_lists (x : val) : option (list val * list val) :=
  match x with VDict [(k, VList [_; VList a; VList b])] => if String.eqb k "Fn::If" then Some (a, b) else None | _ => None end.
Definition branch_groups (name : string) (a b : list val) : limits :=
  (group (name ++ ".1") (List.length (uncalled a)) (targets_place name ++ [PKey "Fn::If"; PIdx 1]) ++
   group (name ++ ".2") (List.length (uncalled b)) (targets_place name ++ [PKey "Fn::If"; PIdx 2]))%list.
Definition groups (name : string) (pd : list (string * val)) : limits :=
  match assoc "Targets" pd with
  | Some (VList l) => group name (List.length (uncalled l)) (targets_place name)
  | Some x => match if_lists x with Some (a, b) => branch_groups name a b | None => [] end
  | None => []
  end.
Lemma group_keys n i q k : In k (keys (group n i q)) -> k = n.
Proof. destruct i; [intros [] | intros [<-|[]]; reflexivity]. Qed.
Lemma append_inj a b c : a ++ b = a ++ c -> b = c.
Proof. induction a as [|x a IH]; [trivial|]. intros [= E]. auto. Qed.
Definition owner (k : string) : string := hd "" (split_on "." k).
Lemma owner_of name s : without "." name -> s = "" \/ (exists t, s = String "." t) -> owner (name ++ s) = name.
Proof.
  intros Hn [->|[t ->]]; unfold owner; apply without_iff in Hn; [rewrite append_nil_r; now rewrite split_on_nochar | now rewrite split_on_app].
Qed.
Lemma groups_owner name pd k : without "." name -> In k (keys (groups name pd)) -> owner k = name.
Proof.
  intros Hn Hk. unfold groups in Hk. destruct (assoc "Targets" pd) as [x|]; [|destruct Hk].
  assert (A : forall i q, In k (keys (group name i q)) -> owner k = name).
  { intros i q H. apply group_keys in H. subst k. rewrite <- (append_nil_r name) at 1. apply owner_of; auto. }
  assert (B : forall s i q, In k (keys (group (name ++ String "." s) i q)) -> owner k = name).
  { intros s i q H. apply group_keys in H. subst k. apply owner_of; eauto. }
  assert (C : In k (keys (match if_lists x with Some (a, b) => branch_groups name a b | None => [] end)) -> owner k = name).
  { destruct (if_lists x) as [[a b]|]; [|intros []]. unfold branch_groups, keys. rewrite map_app. intros K. apply in_app_or in K as [K|K]; [exact (B "1" _ _ K) | exact (B "2" _ _ K)]. }
  destruct x as [| | | | |l|d]; try (exact (C Hk)). exact (A _ _ Hk).
Qed.
Lemma dotted_differ name : name ++ ".1" <> name ++ ".2".
Proof. intros E. apply append_inj in E. discriminate E. Qed.
Lemma step_groups lim name pd : targets_shaped pd -> without "." name -> (forall k, In k (keys lim) -> owner k <> name) ->
  targets_step lim (VDict pd) (props_place name) = Ok (lim ++ groups name pd)%list.
Proof.
  intros Hs Hn Ho. assert (Hnew : forall s, s = "" \/ (exists t, s = String "." t) -> ~ In (name ++ s) (keys lim)).
  { intros s E H. apply (Ho _ H). now apply owner_of. }
  unfold targets_step, target_places, groups. destruct (assoc "Targets" pd) as [x|] eqn:Ex.
  - rewrite check_value_judge. unfold get_values. rewrite Ex. destruct (Hs x Ex) as [[l [->|[c [l' ->]]]] Hif].
    + cbn [values_of bind]. destruct (list_noted l ((props_place name ++ [PKey "Targets"]))%list) as [ms [E Hm]].
      { intros i Hi. apply (Hif [] l []); [now constructor | exact Hi]. }
      fold note. rewrite E. cbn [bind]. rewrite Hm. rewrite (count_group name (targets_place name)).
      * now rewrite places_length.
      * rewrite <- (append_nil_r name). apply Hnew. now left.
      * intros p Hp. apply places_in in Hp as [i ->]. split; [reflexivity|]. now rewrite removelast_last.
    + unfold If_of. cbn [values_of]. change (smem "Fn::If" CONDITION_FUNCTIONS) with true. cbn [condition_values].
      assert (H1 : forall i, In i l -> ~ is_if i) by (intros i Hi; apply (Hif [] l ([] ++ [PKey "Fn::If"; PIdx 1])%list); [eapply tl_then; reflexivity | exact Hi]).
      assert (H2 : forall i, In i l' -> ~ is_if i) by (intros i Hi; apply (Hif [] l' ([] ++ [PKey "Fn::If"; PIdx 2])%list); [eapply tl_else; reflexivity | exact Hi]).
      cbn [app concat_res fst snd values_of bind]. rewrite app_nil_r.
      set (p1 := (((props_place name ++ [PKey "Targets"]) ++ [PKey "Fn::If"]) ++ [PIdx 1])%list). set (p2 := (((props_place name ++ [PKey "Targets"]) ++ [PKey "Fn::If"]) ++ [PIdx 2])%list).
      destruct (list_noted l p1 H1) as [ms1 [E1 M1]]. destruct (list_noted l' p2 H2) as [ms2 [E2 M2]]. fold note.
      rewrite concat_res_app, E1, E2. cbn [bind]. rewrite map_app, M1, M2, count_app.
      rewrite (count_group (name ++ ".1") p1); [|apply Hnew; right; now exists "1"|]; cbn [bind].
      2:{ intros p Hp. apply places_in in Hp as [i ->]. split; [reflexivity|]. now rewrite removelast_last. }
      rewrite (count_group (name ++ ".2") p2).
      2:{ unfold keys. rewrite map_app. intros K. apply in_app_or in K as [K|K]; [revert K; apply Hnew; right; now exists "2"|]. apply group_keys in K. symmetry in K. now apply dotted_differ in K. }
      2:{ intros p Hp. apply places_in in Hp as [i ->]. split; [reflexivity|]. now rewrite removelast_last. }
      rewrite !places_length, <- app_assoc. reflexivity.
  - rewrite check_value_absent by (intros d [= <-]; exact Ex). cbn [bind map count_targets]. now rewrite app_nil_r.
Qed.
(** What the rules before have counted comes from rules with other names. *)
Lemma counted_before_from (rule_of : string -> list (string * val) -> Prop) name rs : forall lim, NoDup (keys rs) -> In name (keys rs) ->
  (forall n r pd, In (n, r) rs -> assoc "Type" (dict_of r) = Some (VStr "AWS::Events::Rule") -> assoc "Properties" (dict_of r) = Some (VDict pd) -> rule_of n pd /\ targets_shaped pd /\ without "." n) ->
  (forall e, In e lim -> exists n pd, rule_of n pd /\ without "." n /\ In e (groups n pd) /\ ~ In n (keys rs)) ->
  forall e, In e (counted_before rs name lim) -> exists n pd, rule_of n pd /\ without "." n /\ In e (groups n pd) /\ n <> name.
Proof.
  induction rs as [|[n r] rs IH]; intros lim Hnd Hin Hrs Hlim e He; [destruct Hin|]. cbn [counted_before] in He. inversion Hnd as [|? ? Hnn Hnd']; subst.
  destruct (String.eqb n name) eqn:En.
  - apply String.eqb_eq in En. subst n. destruct (Hlim e He) as [n [pd [H1 [H2 [H3 H4]]]]]. exists n, pd. split; [exact H1|]. split; [exact H2|]. split; [exact H3|]. intros ->. apply H4. now left.
  - apply String.eqb_neq in En. assert (Hin' : In name (keys rs)) by (destruct Hin as [E|H]; [now elim En | exact H]).
    assert (Hsame : forall e, In e lim -> exists n pd, rule_of n pd /\ without "." n /\ In e (groups n pd) /\ ~ In n (keys rs)).
    { intros e' He'. destruct (Hlim e' He') as [n' [pd [H1 [H2 [H3 H4]]]]]. exists n', pd. split; [exact H1|]. split; [exact H2|]. split; [exact H3|]. intros K. apply H4. now right. }
    revert He. apply IH; auto; [intros n' r' pd H'; apply (Hrs n' r' pd); now right|].
    destruct (assoc "Type" (dict_of r)) as [ty|] eqn:Et; [|exact Hsame]. destruct ty as [| | | |rt| |]; try exact Hsame.
    destruct (assoc "Properties" (dict_of r)) as [pv|] eqn:Ep; [|exact Hsame]. destruct pv as [| | | | | |pd]; try exact Hsame.
    destruct (String.eqb rt "AWS::Events::Rule") eqn:Ert; [|exact Hsame]. apply String.eqb_eq in Ert. subst rt.
    destruct (Hrs n r pd (or_introl eq_refl) Et Ep) as [R1 [R2 R3]]. rewrite (step_groups lim n pd R2 R3).
    + intros e' He'. apply in_app_or in He' as [He'|He']; [now apply Hsame|]. exists n, pd. auto.
    + intros k Hk. apply in_map_iff in Hk as [e' [<- He']]. destruct (Hlim e' He') as [n' [pd' [_ [H2 [H3 H4]]]]]. rewrite (groups_owner n' pd'); [|exact H2 | now apply in_map]. intros ->. apply H4. now left.
Qed.
Definition many_words : string := "An Events Rule can have up to 5 Targets".
Lemma groups_many name pd m : targets_shaped pd -> (In m (limit_matches (groups name pd)) <-> exists q, many_targets name pd q /\ m = mkRM q many_words).
Proof.
  intros Hs. unfold many_targets, groups, limit_matches.
  assert (G : forall n i q, In m (flat_map (fun nl => if Nat.ltb max_count (fst (snd nl)) then [mkRM (snd (snd nl)) many_words] else []) (group n i q)) <-> i > 5 /\ m = mkRM q many_words).
  { intros n i q. destruct i as [|i]; [cbn; split; [intros [] | intros [H _]; lia]|]. cbn [group flat_map fst snd]. destruct (Nat.ltb max_count (S i)) eqn:E.
    - apply PeanoNat.Nat.ltb_lt in E. unfold max_count in E. cbn. split; [intros [<-|[]]; split; [lia | reflexivity] | intros [_ ->]; now left].
    - apply PeanoNat.Nat.ltb_ge in E. unfold max_count in E. cbn. split; [intros [] | intros [H _]; lia]. }
  destruct (assoc "Targets" pd) as [x|] eqn:Ex.
  - destruct (Hs x Ex) as [[l [->|[c [l' ->]]]] _].
    + unfold many_words in *. rewrite G. split.
      * intros [H ->]. eexists. split; [|reflexivity]. exists (VList l), l, (uncalled l). split; [reflexivity|]. split; [now constructor|]. split; [apply only_uncalled | exact H].
      * intros [q [[x [l0 [ts [[= <-] [Ht [Ho Hl]]]]]] ->]]. inversion Ht as [l1 E|c1 l1 b1 E|c1 a1 l1 E]; subst; try discriminate E. injection E as ->. rewrite (only_unique _ _ _ _ Ho (only_uncalled l0)) in Hl. auto.
    + cbn [If_of if_lists String.eqb Ascii.eqb Bool.eqb]. unfold branch_groups. rewrite flat_map_app, in_app_iff. unfold many_words in *. rewrite !G. split.
      * intros [[H ->]|[H ->]]; eexists; (split; [|reflexivity]).
        -- exists (If_of (VList [c; VList l; VList l'])), l, (uncalled l). split; [reflexivity|]. split; [eapply (tl_then _ (targets_place name)); reflexivity|]. split; [apply only_uncalled | exact H].
        -- exists (If_of (VList [c; VList l; VList l'])), l', (uncalled l'). split; [reflexivity|]. split; [eapply (tl_else _ (targets_place name)); reflexivity|]. split; [apply only_uncalled | exact H].
      * intros [q [[x [l0 [ts [[= <-] [Ht [Ho Hl]]]]]] ->]]. inversion Ht as [l1 E|c1 l1 b1 E|c1 a1 l1 E]; subst; try discriminate E; injection E as E1 E2 E3; subst; rewrite (only_unique _ _ _ _ Ho (only_uncalled l0)) in Hl; [left | right]; auto.
  - cbn. split; [intros [] | intros [q [[x [l [ts [[=] _]]]] _]]].
Qed.
Lemma c73_targets c name attrs pd : wf (template c) ->
  (forall n attrs pd, resource_of (template c) n "AWS::Events::Rule" attrs -> assoc "Properties" attrs = Some (VDict pd) -> targets_shaped pd /\ without "." n) ->
  resource_of (template c) name "AWS::Events::Rule" attrs -> assoc "Properties" attrs = Some (VDict pd) ->
  exists check ms, r_match_props targets_rule = Some check /\ check [] c (VDict pd) "AWS::Events::Rule" (props_path name) = Ok ms /\
    (forall q, many_targets name pd q -> In (mkRM q many_words) ms) /\
    (forall m, In m ms -> exists n attrs pd q, resource_of (template c) n "AWS::Events::Rule" attrs /\ assoc "Properties" attrs = Some (VDict pd) /\ many_targets n pd q /\ m = mkRM q many_words).
Proof.
  intros Hw Hall Hres Hp. eexists. set (t := template c) in *. set (lim := counted_before (get_resources t) name []).
  set (rule_of := fun n pd => exists attrs, resource_of t n "AWS::Events::Rule" attrs /\ assoc "Properties" attrs = Some (VDict pd)).
  assert (Hlim : forall e, In e lim -> exists n pd, rule_of n pd /\ without "." n /\ In e (groups n pd) /\ n <> name).
  { apply counted_before_from.
    - unfold get_resources. destruct t as [| | | | | |top]; try constructor. cbn [vget_def]. destruct (assoc "Resources" top) as [rs|] eqn:Ers; [|constructor]. destruct rs as [| | | | | |rs]; try constructor.
      apply keys_filter_NoDup. apply wf_dict in Hw as [_ Hw]. apply assoc_In in Ers. apply Hw in Ers. now apply wf_dict in Ers as [Ers _].
    - destruct Hres as [top [rs [Et [Ers [Hi Hty]]]]]. assert (K : In (name, VDict attrs) (get_resources t)).
      { unfold get_resources. rewrite Et. cbn [vget_def]. rewrite Ers. apply filter_In. split; [exact Hi|]. cbn. now rewrite Hty. }
      apply (in_map fst) in K. exact K.
    - intros n r pd' Hi Hty Hpp. apply (in_get_resources _ _ _ Hw) in Hi as [o [ty [-> [[top [rs [Et [Ers Hn]]]] _]]]]. cbn [dict_of] in *.
      assert (Hr : resource_of t n "AWS::Events::Rule" o) by (exists top, rs; split; [exact Et|]; split; [exact Ers|]; split; [now apply assoc_In | exact Hty]).
      split; [exists o; auto|]. exact (Hall n o pd' Hr Hpp).
    - intros e []. }
  destruct (Hall name attrs pd Hres Hp) as [Hs Hn].
  exists (limit_matches (lim ++ groups name pd)%list). split; [reflexivity|]. split; [|split].
  - cbn beta. unfold targets_check. change (name_of (props_path name)) with name. fold t. fold lim. change (props_path name) with (props_place name). rewrite step_groups; [reflexivity | exact Hs | exact Hn|].
    intros k Hk. apply in_map_iff in Hk as [e [<- He]]. destruct (Hlim e He) as [n [pd' [_ [H2 [H3 H4]]]]]. rewrite (groups_owner n pd'); [exact H4 | exact H2 | now apply in_map].
  - intros q Hq. unfold limit_matches. rewrite flat_map_app. apply in_or_app. right. apply (groups_many name pd); [exact Hs|]. eauto.
  - intros m Hm. unfold limit_matches in Hm. rewrite flat_map_app in Hm. apply in_app_or in Hm as [Hm|Hm].
    + apply in_flat_map in Hm as [e [He Hm]]. destruct (Hlim e He) as [n [pd' [[attrs' [R1 R2]] [_ [H3 _]]]]].
      assert (K : In m (limit_matches (groups n pd'))) by (apply in_flat_map; eauto). apply groups_many in K; [|exact (proj1 (Hall n attrs' pd' R1 R2))]. destruct K as [q [Kq ->]]. exists n, attrs', pd', q. auto.
    + apply (groups_many name pd) in Hm; [|exact Hs]. destruct Hm as [q [Hq ->]]. exists name, attrs, pd, q. auto.
Qed.
Lemma many_at c name attrs pd q : wf (template c) -> resource_of (template c) name "AWS::Events::Rule" attrs -> assoc "Properties" attrs = Some (VDict pd) -> many_targets name pd q ->
  q <> [] /\ exists x, at_path q (template c) = Some x.
Proof.
  intros Hw Hres Hp [x [l [ts [Hx [Ht _]]]]]. pose proof (resource_at c name _ attrs pd Hw Hres Hp) as Hat.
  assert (Hq : at_path (props_path name ++ [PKey "Targets"])%list (template c) = Some x) by (rewrite at_path_app, Hat; cbn [at_path]; now rewrite Hx).
  change (props_path name ++ [PKey "Targets"])%list with (targets_place name) in Hq. fold (targets_place name) in Ht.
  inversion Ht as [l1 E E'|c1 l1 b1 E E'|c1 a1 l1 E E']; subst; (split; [discriminate|]); [eauto | |]; rewrite at_path_app, Hq; eexists; reflexivity.
Qed.
Lemma c73_targets_run sp k c raw name attrs pd m0 d0 q :
  snd (coll_run sp k c) = Ok raw -> In targets_rule (k_all k) -> enabled (k_set k) targets_rule = true ->
  wf (template c) -> c_tmpl c = MDict m0 d0 ->
  (forall n attrs pd, resource_of (template c) n "AWS::Events::Rule" attrs -> assoc "Properties" attrs = Some (VDict pd) -> targets_shaped pd /\ without "." n) ->
  resource_of (template c) name "AWS::Events::Rule" attrs -> assoc "Properties" attrs = Some (VDict pd) -> many_targets name pd q ->
  exists f, locate_match c "E3021" (mkRM q many_words) = Ok f /\ In f raw.
Proof.
  intros Hrun Hr He Hw Hc Hall Hres Hp Hq. destruct (c73_targets c name attrs pd Hw Hall Hres Hp) as [f [ms [Hf [Hms [Hin Hout]]]]].
  apply (reported_props sp k c raw targets_rule f name "AWS::Events::Rule" attrs pd ms (mkRM q many_words) m0 d0 Hrun Hr He Hf (or_introl eq_refl)); auto.
  intros m Hm. destruct (Hout m Hm) as [n [attrs' [pd' [q' [R1 [R2 [R3 ->]]]]]]]. exact (many_at c n attrs' pd' q' Hw R1 R2 R3).
Qed.
