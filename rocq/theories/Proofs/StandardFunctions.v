(** Runs of the rules about functions and conditions (C96). *)
From Coq Require Import Lia ZArith Permutation.
From Verif.Model Require Import Base Node Locate Helpers Rules Runner Config Core Search Refs ConditionRules Relationship Limits Parameters Policies Functions Standard.
From Verif.Spec Require Import Pipeline Paths References ConditionUse FunctionArguments Attributes Shipped ShippedPlaces.
From Verif.Proofs Require Import BaseFacts SearchProofs PropertyRuleProofs ActionMain ConditionUseProofs EqualsProofs FunctionProofs FunctionWitness CidrProofs MapProofs
  AttributeProofs JoinProofs SubProofs StandardProofs StandardRules StandardPlaces.
Import Verif.Model.Rules.
Local Open Scope string_scope.

Ltac no_rest := intros p_ v_ r_ _ [-> _] el_ [].
Section Runs.
Variables (w : world) (sp : spec) (tr : translator) (k : collection) (rg man : list string) (c : cfn) (ds : list directive) (l : list finding).
Hypothesis Hwf : wf (template c).
Ltac start Hl := intros Hl; destruct (lints_before _ _ _ _ _ _ _ _ _ _ Hl) as [Hb Hg]; pose proof wf_empty as He.

Lemma fn_base64 : lints w sp tr k rg man c ds "E1021" l -> tells_uses c man ds l "E1021" "Fn::Base64" (unless base64_ok).
Proof using Hwf.
  start Hl. destruct (c32_base64 (template c) (VDict []) Hwf He) as [ms [E J]].
  eapply (tells_judged w sp tr k rg man c ds l "E1021" _ _ _ ms Hl); [by_id | rewrite Hg; exact E | exact J | no_rest].
Qed.
Lemma fn_not : lints w sp tr k rg man c ds "E1023" l -> tells_uses c man ds l "E1023" "Fn::Not" (unless list_ok).
Proof using Hwf.
  start Hl. destruct (c32_not (template c) (VDict []) Hwf He) as [ms [E J]].
  eapply (tells_judged w sp tr k rg man c ds l "E1023" _ _ _ ms Hl); [by_id | rewrite Hg; exact E | exact J | no_rest].
Qed.
Lemma fn_ref : lints w sp tr k rg man c ds "E1020" l -> tells_uses c man ds l "E1020" "Ref" (unless text).
Proof using Hwf.
  start Hl. destruct (c32_ref (template c) (VDict []) Hwf He) as [ms [E J]].
  eapply (tells_judged w sp tr k rg man c ds l "E1020" _ _ _ ms Hl); [by_id | rewrite Hg; exact E | exact J | no_rest].
Qed.
Lemma fn_getaz : lints w sp tr k rg man c ds "E1015" l -> tells_uses c man ds l "E1015" "Fn::GetAZs" (fun p v r => r = [] /\ (text v \/ object v) /\ ~ getaz_ok (w_regions w) v).
Proof using Hwf.
  start Hl. destruct (c32_getaz (template c) (VDict []) (w_regions w) Hwf He) as [ms [E J]].
  eapply (tells_judged w sp tr k rg man c ds l "E1015" _ _ _ ms Hl); [by_id | rewrite Hg; exact E | exact J | no_rest].
Qed.
Lemma fn_import : lints w sp tr k rg man c ds "E1016" l -> tells_uses c man ds l "E1016" "Fn::ImportValue" import_fault.
Proof using Hwf.
  start Hl. destruct (c32_import (template c) (VDict []) Hwf He) as [ms [E J]].
  eapply (tells_judged w sp tr k rg man c ds l "E1016" _ _ _ ms Hl); [by_id | rewrite Hg; exact E | exact J | no_rest].
Qed.
Lemma fn_in_conditions : plain_sections (template c) -> lints w sp tr k rg man c ds "E1026" l -> tells_uses c man ds l "E1026" "Ref" (resource_in_conditions (template c)).
Proof using Hwf.
  intros Hp. start Hl. destruct (c56_conditions (template c) (VDict []) Hwf He Hp) as [ms [E J]].
  eapply (tells_judged w sp tr k rg man c ds l "E1026" _ _ _ ms Hl); [by_id | rewrite Hg; exact E | exact J | no_rest].
Qed.
Lemma fn_split : lints w sp tr k rg man c ds "E1018" l -> tells_uses c man ds l "E1018" "Fn::Split" split_fault.
Proof using Hwf.
  start Hl. destruct (c32_split (template c) (VDict []) Hwf He) as [ms [E J]].
  eapply (tells_judged w sp tr k rg man c ds l "E1018" _ _ _ ms Hl); [by_id | rewrite Hg; exact E | exact J |].
  intros p v r _ H. destruct H as [v H|d s H|d kk x H|d s H1 H2].
  - intros el_ [].
  - left. exists [d; s]. split; [reflexivity|]. split; [cbn; lia | intros el_ []].
  - intros el_ [<-|[]]. eauto.
  - intros el_ [].
Qed.
Lemma fn_used : closed_subs (template c) (VDict []) -> lints w sp tr k rg man c ds "W1019" l -> tells_uses c man ds l "W1019" "Fn::Sub" sub_unused.
Proof using Hwf.
  intros Hc. start Hl. destruct (c54_used (template c) (VDict []) Hwf He Hc) as [ms [E J]].
  eapply (tells_judged w sp tr k rg man c ds l "W1019" _ _ _ ms Hl); [by_id | rewrite Hg; exact E | exact J |].
  intros p v r _ H. destruct H as [s d n H1 H2]. left. exists [VStr s; VDict d]. split; [reflexivity|]. split; [cbn; lia | intros el_ []].
Qed.

(** * Rules that may fail *)
Lemma each_in f t g chk ms p v : wf t -> wf g -> each t g f chk = Ok ms -> occurs f t g p v -> exists o, chk (p ++ [PKey f])%list v = Ok o /\ incl o ms.
Proof using.
  intros Hw Hgw E Ho. assert (Hi : In ((p ++ [PKey f])%list, v) (search_deep_keys f t g)) by (apply in_search_deep; eauto).
  unfold each in E. apply concat_res_inv in E as [h [Hh ->]]. exists (h ((p ++ [PKey f])%list, v)). split; [exact (Hh _ Hi)|].
  intros m Hm. apply in_flat_map. eauto.
Qed.
Lemma each_safe f t g chk : (forall p v, safe (chk p v)) -> safe (each t g f chk).
Proof using. intros H. apply safe_concat. intros x _. apply H. Qed.

Lemma fn_select : (forall p i x, occurs "Fn::Select" (template c) (VDict []) p (VList [i; x]) -> i <> VNull /\ ~ list_ok i) ->
  lints w sp tr k rg man c ds "E1017" l -> tells_uses c man ds l "E1017" "Fn::Select" (unless (select_ok (w_is_int w))).
Proof using Hwf.
  intros Hi. start Hl. destruct (proj2 (c32_select_fails (template c) (VDict []) (w_is_int w) Hwf He) Hi) as [ms E].
  eapply (tells_judged w sp tr k rg man c ds l "E1017" _ _ _ ms Hl); [by_id | rewrite Hg; exact E | exact (c32_select _ _ _ _ Hwf He E) | no_rest].
Qed.
Lemma fn_select_crash p i x : occurs "Fn::Select" (template c) (VDict []) p (VList [i; x]) -> i = VNull \/ list_ok i -> lints w sp tr k rg man c ds "E1017" l -> tells_crash c man ds l "E1017".
Proof using Hwf.
  intros Ho Hi. start Hl. eapply (crash_err w sp tr k rg man c ds l "E1017" _ Hl); [by_id | rewrite Hg | rewrite Hg; intros ms E].
  - apply each_safe. intros q v. unfold select_check. destruct v as [| | | | |[|a [|b [|? ?]]]|]; try discriminate. apply safe_bind; [|discriminate].
    unfold select_index. destruct a as [| | | | | |[|[? ?] [|? ?]]]; discriminate.
  - destruct (proj1 (c32_select_fails (template c) (VDict []) (w_is_int w) Hwf He) (ex_intro _ ms E) p i x Ho) as [A B]. destruct Hi; auto.
Qed.
Lemma fn_not_join : (forall p, ~ occurs "Fn::Join" (template c) (VDict []) p (VList [])) ->
  lints w sp tr k rg man c ds "I1022" l -> tells_uses c man ds l "I1022" "Fn::Join" (fun p v r => r = [] /\ exists rest, v = VList (VStr "" :: rest)).
Proof using Hwf.
  intros Hn. start Hl.
  assert (T : exists ms, sub_not_join_match (template c) (VDict []) = Ok ms).
  { apply concat_res_total. intros [q v] Hx. apply in_search_deep in Hx as [p [-> Ho]]; [|assumption|assumption]. cbn [fst snd]. unfold sub_not_join_check.
    destruct v as [| | | | |[|[] ?]|]; eauto. destruct (Hn p Ho). }
  destruct T as [ms E].
  eapply (tells_judged w sp tr k rg man c ds l "I1022" _ _ _ ms Hl); [by_id | rewrite Hg; exact E | exact (c32_not_join _ _ _ Hwf He E) | no_rest].
Qed.
Lemma fn_not_join_crash p : occurs "Fn::Join" (template c) (VDict []) p (VList []) -> lints w sp tr k rg man c ds "I1022" l -> tells_crash c man ds l "I1022".
Proof using Hwf.
  intros Ho. start Hl. eapply (crash_err w sp tr k rg man c ds l "I1022" _ Hl); [by_id | rewrite Hg | rewrite Hg; intros ms E].
  - apply each_safe. intros q v. unfold sub_not_join_check. destruct v as [| | | | |[|[] ?]|]; discriminate.
  - destruct (each_in _ _ _ _ _ _ _ Hwf He E Ho) as [o [K _]]. discriminate K.
Qed.
Lemma fn_unneeded : closed_subs (template c) (VDict []) ->
  (forall p a b, occurs "Fn::Sub" (template c) (VDict []) p (VList [a; b]) -> text a) -> lints w sp tr k rg man c ds "W1020" l -> tells_uses c man ds l "W1020" "Fn::Sub" sub_unneeded.
Proof using Hwf.
  intros Hc Ht. start Hl.
  assert (T : exists ms, sub_unneeded_match (template c) = Ok ms).
  { apply concat_res_total. intros [q v] Hx. apply in_search_deep in Hx as [p [-> Ho]]; [|assumption|assumption]. cbn [fst snd]. unfold sub_unneeded_check.
    destruct v as [| | | | |[|a [|b [|? ?]]]|]; try (eexists; reflexivity). destruct (Ht p a b Ho) as [s ->]. eexists; reflexivity. }
  destruct T as [ms E].
  eapply (tells_judged w sp tr k rg man c ds l "W1020" _ _ _ ms Hl); [by_id | rewrite Hb by (cbn; auto); exact E | exact (c54_unneeded _ _ Hwf Hc E) |].
  intros p v r _ H. destruct H as [s H|s x H]; [intros el_ [] | left; exists [VStr s; x]; split; [reflexivity|]; split; [cbn; lia | intros el_ []]].
Qed.
Lemma fn_unneeded_crash p a b : occurs "Fn::Sub" (template c) (VDict []) p (VList [a; b]) -> ~ text a -> lints w sp tr k rg man c ds "W1020" l -> tells_crash c man ds l "W1020".
Proof using Hwf.
  intros Ho Ht. start Hl. eapply (crash_err w sp tr k rg man c ds l "W1020" _ Hl); [by_id | rewrite Hb by (cbn; auto) | rewrite Hb by (cbn; auto); intros ms E].
  - apply (each_safe "Fn::Sub" (template c) (VDict []) sub_unneeded_check). intros q v. unfold sub_unneeded_check, sub_unneeded_string.
    destruct v as [| | | | |[|[] [|? [|? ?]]]|]; discriminate.
  - destruct (each_in "Fn::Sub" (template c) (VDict []) sub_unneeded_check _ _ _ Hwf He E Ho) as [o [K _]]. cbn in K. destruct a; try discriminate K. apply Ht. eexists; reflexivity.
Qed.

Lemma argument_keys ok v r : argument_fault ok v r -> keys_only r.
Proof using. intros [kk x _|v' _ _] el_ He_; [destruct He_ as [<-|[]]; eauto | destruct He_]. Qed.
Lemma fn_map : plain_mappings (template c) ->
  (forall p v, occurs "Fn::FindInMap" (template c) (VDict []) p v -> (exists x, v = VList x /\ 2 <= List.length x) \/ (~ list_ok v /\ forall i, ~ In (PIdx i) p)) ->
  lints w sp tr k rg man c ds "E1011" l -> tells_uses c man ds l "E1011" "Fn::FindInMap" (map_fault (template c)).
Proof using Hwf.
  intros Hm Hs. start Hl. destruct (proj2 (c32_map_fails (template c) (VDict []) Hwf He Hm)) as [ms E].
  { intros p v Ho. destruct (Hs p v Ho) as [[x [-> _]]|[_ H]]; [left; eexists; reflexivity | now right]. }
  eapply (tells_judged w sp tr k rg man c ds l "E1011" _ _ _ ms Hl); [by_id | rewrite Hg; exact E | exact (c32_map _ _ _ Hwf He Hm E) |].
  intros p v r Ho H. destruct H as [v H|x H|n k1 k2 r H|n k1 k2 r H|n k1 k2 r H].
  - intros el_ [].
  - left. exists x. split; [reflexivity|]. split; [|intros el_ []]. destruct (Hs p _ Ho) as [[y [[= <-] Hy]]|[K _]]; [lia | destruct K; eexists; reflexivity].
  - left. eexists. split; [reflexivity|]. split; [cbn; lia | exact (argument_keys _ _ _ H)].
  - left. eexists. split; [reflexivity|]. split; [cbn; lia | exact (argument_keys _ _ _ H)].
  - left. eexists. split; [reflexivity|]. split; [cbn; lia | exact (argument_keys _ _ _ H)].
Qed.
Lemma map_safe : plain_mappings (template c) -> safe (find_in_map_match (template c) (VDict [])).
Proof using.
  intros [d [-> H]]. unfold find_in_map_match, get_mappings. cbn [vget_def bind].
  assert (M : exists m, (if truthy (match assoc "Mappings" d with Some x => x | None => VDict [] end) then match assoc "Mappings" d with Some x => x | None => VDict [] end else VDict []) = VDict m).
  { destruct (assoc "Mappings" d) as [x|]; [destruct (H x eq_refl) as [m ->]; destruct (truthy (VDict m)); eexists; reflexivity | exists []; reflexivity]. }
  destruct M as [m ->]. apply each_safe. intros p v. unfold find_in_map_check. destruct v as [| | | | |[|n [|k1 [|k2 [|? ?]]]]|]; try discriminate; try (destruct (no_index p); discriminate).
  apply safe_bind; [|discriminate]. unfold map_name. destruct n; discriminate.
Qed.
Lemma fn_map_short m x p : plain_mappings (template c) -> leads (c_tmpl c) (p ++ [PKey "Fn::FindInMap"])%list (MList m x) -> List.length x < 2 ->
  lints w sp tr k rg man c ds "E1011" l -> tells_crash c man ds l "E1011".
Proof using Hwf.
  intros Hm Hlead Hx. start Hl. destruct (find_in_map_match (template c) (VDict [])) as [ms|e] eqn:E.
  - assert (Ho : occurs "Fn::FindInMap" (template c) (VDict []) p (VList (map erase x))).
    { left. unfold template. apply leads_erase in Hlead. exact Hlead. }
    pose proof E as E0. unfold find_in_map_match in E. destruct (get_mappings (template c)) as [mp|] eqn:Em; [|discriminate E]. cbn [bind] in E.
    destruct (each_in _ _ _ _ _ _ _ Hwf He E Ho) as [o [K Hin]].
    assert (Hm' : In (mkRM ((p ++ [PKey "Fn::FindInMap"]) ++ [PIdx 1])%list (at_text "FindInMap is a list with 3 values for " (p ++ [PKey "Fn::FindInMap"])%list)) ms).
    { apply Hin. destruct x as [|a [|b x]]; [| |cbn in Hx; lia]; cbn in K; injection K as <-; now left. }
    eapply (crash_place w sp tr k rg man c ds l "E1011" _ ms _ Hl); [by_id | rewrite Hg; exact E0 | exact Hm' |].
    apply (location_beyond _ _ m x 1 Hlead). lia.
  - eapply (crash_err w sp tr k rg man c ds l "E1011" _ Hl); [by_id | rewrite Hg; now apply map_safe | rewrite Hg, E; discriminate].
Qed.
Lemma fn_map_text p v i : plain_mappings (template c) -> occurs "Fn::FindInMap" (template c) (VDict []) p v -> ~ list_ok v -> In (PIdx i) p ->
  lints w sp tr k rg man c ds "E1011" l -> tells_crash c man ds l "E1011".
Proof using Hwf.
  intros Hm Ho Hv Hi. start Hl. eapply (crash_err w sp tr k rg man c ds l "E1011" _ Hl); [by_id | rewrite Hg; now apply map_safe | rewrite Hg; intros ms E].
  destruct (proj1 (c32_map_fails (template c) (VDict []) Hwf He Hm) (ex_intro _ ms E) p v Ho) as [K|K]; [auto | exact (K i Hi)].
Qed.
Lemma fn_keys : plain_maps (template c) -> (forall p v, occurs "Fn::FindInMap" (template c) (VDict []) p v -> list_ok v) ->
  lints w sp tr k rg man c ds "W1011" l -> tells_uses c man ds l "W1011" "Fn::FindInMap" (map_keys_fault (template c)).
Proof using Hwf.
  intros Hm Hs. start Hl. destruct (c55_total (template c) (VDict []) (w_str w) Hwf He Hm Hs) as [ms E].
  eapply (tells_judged w sp tr k rg man c ds l "W1011" _ _ _ ms Hl); [by_id | rewrite Hg; exact E | exact (c55_keys _ _ _ _ Hwf He Hm E) |].
  assert (A : forall v n k1 k2 i, map_arguments v n k1 k2 -> i < 3 -> fine_rest v [PIdx i]).
  { intros v n k1 k2 i H Hi. destruct H as [n k1 k2|a b cc]; [left; eexists; split; [reflexivity|]; split; [exact Hi | intros el_ []] | right; eexists; split; reflexivity]. }
  intros p v r Ho H. destruct H as [v n k1 k2 m H|v n k1 k2 m o H|v n k1 k2 m kk o H]; apply (A _ _ _ _ _ H); lia.
Qed.

(** * Fn::Cidr *)
Lemma cidr_safe order : plain_parameters (template c) -> safe (cidr_match (template c) (VDict []) (w_str w) order).
Proof using.
  intros [d [-> H]].
  assert (M : exists m, get_parameters (VDict d) = Ok (VDict m) /\ forall n y, In (n, y) m -> object y).
  { unfold get_parameters. cbn [vget_def bind]. destruct (assoc "Parameters" d) as [x|].
    - destruct (H x eq_refl) as [ps [-> Hps]]. destruct (truthy (VDict ps)); eexists; (split; [reflexivity|]); [exact Hps | intros n y []].
    - eexists; split; [reflexivity | intros n y []]. }
  destruct M as [m [Em Hm]].
  assert (S : forall l, safe (py_set order l)) by (intros x; unfold py_set; destruct (forallb hashable x); discriminate).
  assert (P : forall a b n, safe (cidr_parameter (VDict d) (w_str w) a b n)).
  { intros a b n. unfold cidr_parameter. rewrite Em. cbn [bind].
    assert (O : exists o, match n with VStr s => vget_def s (VDict []) (VDict m) | _ => vget_def "" (VDict []) (VDict []) end = Ok (VDict o)).
    { destruct n; try (eexists; reflexivity). cbn [vget_def]. match goal with |- context [assoc ?s m] => destruct (assoc s m) as [y|] eqn:Ey end; [|eexists; reflexivity].
      destruct (Hm _ _ (assoc_In _ _ _ Ey)) as [o ->]. eexists; reflexivity. }
    destruct O as [o ->]. cbn [bind]. destruct (truthy (VDict o)); [|discriminate]. cbn [vget bind]. destruct (eq_str _ _); [|discriminate].
    assert (B : forall q key t, safe (cidr_bound q (VDict o) key t)).
    { intros q key t. unfold cidr_bound. cbn [vget bind]. apply safe_bind; [|discriminate]. unfold outside_256. destruct (truthy _); [|discriminate]. destruct (num_of _); discriminate. }
    apply safe_bind; [apply B | intros x _]. apply safe_bind; [apply B | discriminate]. }
  unfold cidr_match. apply safe_bind; [apply S | intros counts _]. apply safe_bind; [apply safe_concat; intros x _; apply P | intros a _].
  apply safe_bind; [apply S | intros masks _]. apply safe_bind; [apply safe_concat; intros x _; apply P | discriminate].
Qed.
Lemma fn_cidr : plain_parameters (template c) -> (forall x, Permutation (w_order_values w x) x) ->
  (forall p a b, ~ occurs "Fn::Cidr" (template c) (VDict []) p (VList [a; b])) -> lints w sp tr k rg man c ds "E1024" l ->
  tells_crash c man ds l "E1024" \/
  tells_places c man ds l "E1024" (fun q => faults_at "Fn::Cidr" (template c) cidr_fault q \/
    exists n, (cidr_uses (template c) (VDict []) 1 n \/ cidr_uses (template c) (VDict []) 2 n) /\ cidr_parameter_fault (template c) n q).
Proof using Hwf.
  intros Hp Ho Hn. start Hl. eapply (crash_or w sp tr k rg man c ds l "E1024" _ _ Hl); [by_id | rewrite Hg; now apply cidr_safe |].
  rewrite Hg. intros ms E. destruct (c32_cidr _ _ _ _ ms Hwf He Hp Ho E) as (a & b & Ems & Ja & Jb).
  eapply (tells_paths w sp tr k rg man c ds l "E1024" _ ms _ Hl); [by_id | rewrite Hg; exact E | |].
  - intros q. rewrite Ems, map_app, in_app_iff, (judged_places _ _ _ _ q Ja), Jb. split.
    + intros [H|(i & n & [->| ->] & H1 & H2)]; [now left | right; exists n; auto | right; exists n; auto].
    + intros [H|(n & [H1|H1] & H2)]; [now left | right; exists 1, n; auto | right; exists 2, n; auto].
  - intros q [(p & v & r & Hpv & Hf & ->)|(n & _ & H)].
    + apply (fault_fine c "Fn::Cidr" p v r Hpv). destruct Hf as [v H1 H2|x y rest H1 H2|x y rest H1 H2|x y z H|x y].
      * intros el_ [].
      * left. eexists. split; [reflexivity|]. split; [cbn; lia | intros el_ []].
      * left. eexists. split; [reflexivity|]. split; [cbn; lia | intros el_ []].
      * left. eexists. split; [reflexivity|]. split; [cbn; lia | intros el_ []].
      * destruct (Hn p x y Hpv).
    + destruct H; all_keys.
Qed.
Lemma fn_cidr_crash m x y p : plain_parameters (template c) -> leads (c_tmpl c) (p ++ [PKey "Fn::Cidr"])%list (MList m [x; y]) ->
  lints w sp tr k rg man c ds "E1024" l -> tells_crash c man ds l "E1024".
Proof using Hwf.
  intros Hp Hlead. start Hl. destruct (cidr_match (template c) (VDict []) (w_str w) (w_order_values w)) as [ms|e] eqn:E.
  - assert (Ho : occurs "Fn::Cidr" (template c) (VDict []) p (VList [erase x; erase y])) by (left; exact (leads_erase _ _ _ Hlead)).
    assert (Hi : In ((p ++ [PKey "Fn::Cidr"])%list, VList [erase x; erase y]) (search_deep_keys "Fn::Cidr" (template c) (VDict []))) by (apply in_search_deep; eauto).
    set (q := (p ++ [PKey "Fn::Cidr"])%list) in *.
    assert (Hm : exists words, In (mkRM (q ++ [PIdx 2])%list words) ms).
    { pose proof E as K. unfold cidr_match in K. destruct (py_set _ _) as [s1|]; [|discriminate K]. cbn [bind] in K. destruct (concat_res _ s1) as [o1|]; [|discriminate K]. cbn [bind] in K.
      destruct (py_set _ _) as [s2|]; [|discriminate K]. cbn [bind] in K. destruct (concat_res _ s2) as [o2|]; [|discriminate K]. cbn [bind] in K. injection K as <-.
      eexists. apply in_or_app. left. apply in_flat_map. exists (q, VList [erase x; erase y]). split; [exact Hi|]. cbn [fst snd cidr_check]. apply in_or_app. right. apply in_or_app. right.
      cbn [cidr_number]. left. reflexivity. }
    destruct Hm as [words Hm]. eapply (crash_place w sp tr k rg man c ds l "E1024" _ ms _ Hl); [by_id | rewrite Hg; exact E | exact Hm |].
    cbn [rm_path]. apply (location_beyond _ _ m [x; y] 2 Hlead). cbn. lia.
  - eapply (crash_err w sp tr k rg man c ds l "E1024" _ Hl); [by_id | rewrite Hg; now apply cidr_safe | rewrite Hg, E; discriminate].
Qed.

(** * Attributes *)
Section Types.
Hypothesis Hpl : plain_sections (template c).
Hypothesis Hty : plain_types (w_getatts w).
Lemma getatts_ok : exists valid, get_valid_getatts (template c) (w_getatts w) = Ok valid.
Proof using Hpl Hwf. destruct (valid_getatts_spec (template c) (w_getatts w) Hwf Hpl) as [valid [E _]]. eauto. Qed.
Lemma fn_getatt : lints w sp tr k rg man c ds "E1010" l ->
  tells_crash c man ds l "E1010" \/ tells_uses c man ds l "E1010" "Fn::GetAtt" (unless (getatt_ok (w_getatts w) (template c))).
Proof using Hwf Hpl Hty.
  start Hl. eapply (crash_or w sp tr k rg man c ds l "E1010" _ _ Hl); [by_id | rewrite Hg |].
  - unfold getatt_match. destruct getatts_ok as [valid ->]. cbn [bind]. apply each_safe. intros p v. unfold getatt_check.
    apply safe_bind; [destruct v; discriminate | intros n _]. destruct (Nat.ltb n 2); [discriminate|]. apply safe_bind.
    + unfold getatt_parts. destruct v as [| | | |s|[|a [|[] ?]]|]; try discriminate; [destruct (split_dot s) as [[? ?]|]; discriminate|].
      apply safe_bind; [|discriminate]. unfold join_dots. apply safe_bind; [|discriminate]. apply safe_map. intros [] _; discriminate.
    + intros [[name attr] o] _. destruct name as [r|]; [|discriminate]. apply safe_bind; [|discriminate]. unfold getatt_target_check.
      destruct (truthy r); [|discriminate]. destruct (modules_spec (template c) (w_str w) Hwf Hpl) as [mods [Em _]].
      assert (G : safe (do ms <- get_modules (w_str w) (template c); do b <- in_module ms r; Ok (if b then [] else [invalid_getatt (w_str w) p v (key_text (w_str w) r) attr]))).
      { rewrite Em. cbn [bind]. apply safe_bind; [|discriminate]. unfold in_module. destruct mods; [discriminate|]. destruct r; discriminate. }
      destruct r; try discriminate; try exact G. destruct (assoc _ valid); [discriminate | exact G].
  - rewrite Hg. intros ms E. eapply (tells_judged w sp tr k rg man c ds l "E1010" _ _ _ ms Hl); [by_id | rewrite Hg; exact E | exact (c52_getatt _ _ _ _ _ Hwf He Hpl Hty E) | no_rest].
Qed.
Lemma ref_list_safe x params : safe (is_ref_a_list x params).
Proof using. destruct x; discriminate. Qed.
Lemma getatt_list_safe x valid : safe (is_getatt_a_list x valid).
Proof using.
  unfold is_getatt_a_list. assert (I : forall i, safe (getatt_item x i)).
  { intros i. unfold getatt_item. destruct x as [| | | |s|y|]; try discriminate; [destruct (split_dot s) as [[? ?]|]; destruct i as [|[|?]]; discriminate | destruct (nth_error y i); discriminate]. }
  induction valid as [|[r atts] valid IH]; [discriminate|]. cbn [getatt_list]. apply safe_bind; [|intros [b|] _; [discriminate | exact IH]].
  induction atts as [|[n a] atts IHa]; [discriminate|]. cbn [getatt_list_atts]. apply safe_bind; [apply I | intros y _]. destruct (eq_str r y); [|exact IHa].
  destruct (String.eqb n "*"); [discriminate|]. apply safe_bind; [apply I | intros z _]. destruct (eq_str n z); [|exact IHa].
  destruct (att_type a) as [t|]; [|exact IHa]. destruct (String.eqb t "List"); [discriminate | exact IHa].
Qed.
Lemma fn_join : lints w sp tr k rg man c ds "E1022" l ->
  tells_crash c man ds l "E1022" \/ tells_uses c man ds l "E1022" "Fn::Join" (unless (join_ok (w_getatts w) (template c))).
Proof using Hwf Hpl Hty.
  start Hl. eapply (crash_or w sp tr k rg man c ds l "E1022" _ _ Hl); [by_id | rewrite Hg |].
  - unfold join_match. destruct getatts_ok as [valid Ev]. destruct (parameter_types_ok (template c) Hwf Hpl) as [ps Ep]. apply each_safe. intros p v. unfold join_check.
    destruct v as [| | | | |[|d [|x [|? ?]]]|]; try discriminate. apply safe_bind; [|discriminate]. unfold join_values. rewrite Ep, Ev. cbn [bind].
    destruct x as [| | | | |y|[|[kk z] [|? ?]]]; try discriminate.
    + apply safe_concat. intros z _. unfold join_item. destruct z as [| | | | | |[|[k2 z2] [|? ?]]]; try discriminate. destruct (smem k2 single_functions); [|discriminate].
      destruct (String.eqb k2 "Ref"); [apply safe_bind; [apply ref_list_safe | discriminate]|]. destruct (String.eqb k2 "Fn::GetAtt"); [|discriminate].
      apply safe_bind; [apply getatt_list_safe | discriminate].
    + destruct (smem kk list_functions); [|discriminate].
      destruct (String.eqb kk "Ref"); [apply safe_bind; [apply ref_list_safe | discriminate]|]. destruct (String.eqb kk "Fn::GetAtt"); [|discriminate].
      apply safe_bind; [apply getatt_list_safe | discriminate].
  - rewrite Hg. intros ms E. eapply (tells_judged w sp tr k rg man c ds l "E1022" _ _ _ ms Hl); [by_id | rewrite Hg; exact E | exact (c32_join _ _ _ _ Hwf He Hpl Hty E) | no_rest].
Qed.
Lemma fn_sub : dotless_parameters (template c) -> closed_subs (template c) (VDict []) -> lints w sp tr k rg man c ds "E1019" l ->
  tells_crash c man ds l "E1019" \/ tells_uses c man ds l "E1019" "Fn::Sub" (sub_fault (w_getatts w) (template c)).
Proof using Hwf Hpl Hty.
  intros Hd Hc. start Hl. eapply (crash_or w sp tr k rg man c ds l "E1019" _ _ Hl); [by_id | rewrite Hg |].
  - destruct getatts_ok as [valid Ev]. destruct (parameter_types_ok (template c) Hwf Hpl) as [ps Ep]. destruct (resource_names_spec (template c) Hwf Hpl) as [names [En _]].
    assert (T : forall params p v, safe (sub_test (template c) (w_str w) (w_getatts w) params p v)).
    { intros params p v. unfold sub_test. rewrite Ev, Ep, En. cbn [bind]. destruct (existsb _ _); [discriminate|]. apply safe_bind; [destruct v; discriminate | intros isp _].
      apply safe_bind; [|discriminate]. apply safe_map. intros [r a] _. destruct v; try discriminate. unfold sub_attribute. destruct (split_on _ _) as [|first rest]; [discriminate|].
      destruct (String.eqb _ first); [|discriminate]. destruct (String.eqb _ "*"); [discriminate|]. destruct (String.eqb _ (join_str "." rest)); [discriminate|]. destruct rest; discriminate. }
    assert (S : forall params p v, safe (sub_string (template c) (w_str w) (w_getatts w) params p v)).
    { intros params p v. unfold sub_string. destruct v; try discriminate. apply safe_concat. intros x _. apply T. }
    unfold sub_match. apply each_safe. intros p v. unfold sub_check.
    destruct v as [| | | |s|[|x [|y [|? ?]]]|[|[kk z] [|? ?]]]; try discriminate; [apply S|]. destruct y as [| | | | | |d]; try discriminate.
    apply safe_bind; [apply S | intros a _]. apply safe_bind; [|discriminate]. apply safe_concat. intros [n u] _. unfold sub_parameter. cbn [fst snd].
    destruct u as [| | | | | |[|[kk z] [|? ?]]]; try discriminate. destruct (smem kk sub_functions); [|discriminate]. destruct (String.eqb kk "Ref"); [apply T|].
    destruct (String.eqb kk "Fn::GetAtt"); [|discriminate]. destruct z as [| | | |s|y|]; try discriminate; [apply T|]. destruct (forallb is_str y); [|discriminate].
    apply safe_bind; [|intros t _; apply T]. unfold join_dots. apply safe_bind; [|discriminate]. apply safe_map. intros [] _; discriminate.
  - rewrite Hg. intros ms E. eapply (tells_judged w sp tr k rg man c ds l "E1019" _ _ _ ms Hl); [by_id | rewrite Hg; exact E | exact (c53_sub _ _ _ _ _ Hwf He Hpl Hty Hd Hc E) |].
    intros p v r _ H. destruct H as [v H1 H2 H3|s n H1 H2|s ps H1|s ps H1|s d n H1 H2|s d n x H1|s d n o H1 H2|s d n x H1 H2|s d n x m H1 H2 H3].
    1, 2, 8, 9: intros el_ [].
    4, 5: intros el_ [<-|[]]; eauto.
    all: left; eexists; split; [reflexivity|]; split; [cbn; lia | intros el_ []].
Qed.
End Types.

(** * Conditions *)
Lemma list_item_spec f p i x m : In m (list_item_check f p (i, x)) <->
  (exists r, rm_path m = (p ++ r)%list /\ rm_msg m = f ++ " list must be another valid condition" /\
    ((r = [PIdx i] /\ forall kk y, x <> VDict [(kk, y)]) \/ exists kk y, r = [PIdx i; PKey kk] /\ x = VDict [(kk, y)] /\ ~ In kk ["Fn::And"; "Fn::Or"; "Fn::Not"; "Condition"; "Fn::Equals"])).
Proof using.
  assert (Other : (forall kk y, x <> VDict [(kk, y)]) -> list_item_check f p (i, x) = [mkRM (p ++ [PIdx i])%list (f ++ " list must be another valid condition")]).
  { intros H. unfold list_item_check. cbn [fst snd]. destruct x as [| | | | | |[|[kk y] [|? ?]]]; try reflexivity. destruct (H kk y eq_refl). }
  assert (D : (exists kk y, x = VDict [(kk, y)]) \/ forall kk y, x <> VDict [(kk, y)]).
  { destruct x as [| | | | | |[|[kk y] [|? ?]]]; try (right; discriminate). left. eauto. }
  destruct D as [[kk [y ->]]|D].
  - unfold list_item_check. cbn [fst snd]. destruct (smem kk _) eqn:Es; split.
    + intros [].
    + intros (r & _ & _ & [[_ H]|(k2 & y2 & _ & [= <- <-] & H)]); [destruct (H kk y eq_refl) | destruct H; now apply smem_iff].
    + intros [<-|[]]. cbn [rm_path rm_msg]. eexists. split; [reflexivity|]. split; [reflexivity|]. right. exists kk, y. split; [reflexivity|]. split; [reflexivity|].
      intros K. apply smem_iff in K. congruence.
    + destruct m as [q words]. cbn [rm_path rm_msg]. intros (r & -> & -> & [[_ H]|(k2 & y2 & -> & [= <- <-] & H)]); [destruct (H kk y eq_refl) | now left].
  - rewrite (Other D). split.
    + intros [<-|[]]. cbn [rm_path rm_msg]. eexists. split; [reflexivity|]. split; [reflexivity|]. left. auto.
    + destruct m as [q words]. cbn [rm_path rm_msg]. intros (r & -> & -> & [[-> _]|(k2 & y2 & _ & -> & _)]); [now left | destruct (D k2 y2 eq_refl)].
Qed.
Lemma list_fault_list f x r words : list_fault f (VList x) r words ->
  (f = "Fn::Not" /\ List.length x <> 1 /\ r = [] /\ words = f ++ " must be a list of exactly 1 condition") \/
  (f <> "Fn::Not" /\ ~ (2 <= List.length x <= 10) /\ r = [] /\ words = f ++ " must be a list of between 2 to 10 conditions") \/
  ((f = "Fn::Not" /\ List.length x = 1 \/ f <> "Fn::Not" /\ 2 <= List.length x <= 10) /\ words = f ++ " list must be another valid condition" /\
   exists i y, nth_error x i = Some y /\ ((r = [PIdx i] /\ forall kk z, y <> VDict [(kk, z)]) \/
     exists kk z, r = [PIdx i; PKey kk] /\ y = VDict [(kk, z)] /\ ~ In kk ["Fn::And"; "Fn::Or"; "Fn::Not"; "Condition"; "Fn::Equals"])).
Proof using.
  remember (VList x) as v eqn:Q. intros K. revert Q. destruct K as [v' H|y H1 H2|y H1 H2|y i z H1 H2 H3|y i kk z H1 H2 H3]; intros Q.
  - destruct (H x Q).
  - injection Q as ->. left. auto.
  - injection Q as ->. right. left. auto.
  - injection Q as ->. right. right. split; [exact H1|]. split; [reflexivity|]. exists i, z. auto.
  - injection Q as ->. right. right. split; [exact H1|]. split; [reflexivity|]. exists i, (VDict [(kk, z)]). split; [exact H2|]. right. eauto.
Qed.
Lemma list_check_spec f p v m : from_conditions p = true -> In m (list_check f (p, v)) <-> exists r, list_fault f v r (rm_msg m) /\ rm_path m = (p ++ r)%list.
Proof using.
  intros Hp. unfold list_check. rewrite Hp.
  assert (One : forall words, (forall r w', list_fault f v r w' <-> r = [] /\ w' = words) -> In m [mkRM p words] <-> exists r, list_fault f v r (rm_msg m) /\ rm_path m = (p ++ r)%list).
  { intros words H. destruct m as [q w']. cbn [rm_path rm_msg In]. split.
    - intros [[= <- <-]|[]]. exists []. rewrite app_nil_r. split; [now apply H | reflexivity].
    - intros [r [K ->]]. apply H in K as [-> ->]. rewrite app_nil_r. now left. }
  assert (D : (exists x, v = VList x) \/ forall x, v <> VList x) by (destruct v; try (right; discriminate); left; eauto).
  destruct D as [[x ->]|D].
  - destruct (String.eqb_spec f "Fn::Not") as [Ef|Ef].
    + cbn [andb negb]. destruct (Nat.eqb_spec (List.length x) 1) as [El|El]; cbn [negb].
      * rewrite in_flat_map. split.
        -- intros [[i y] [Hi Hm]]. apply enum_nth in Hi. apply list_item_spec in Hm as (r & Er & Ew & H). exists r. split; [|exact Er]. rewrite Ew.
           destruct H as [[-> H]|(kk & z & -> & -> & H)]; [apply (lf_item f x i y); auto | apply (lf_key f x i kk z); auto].
        -- intros [r [H Er]]. apply list_fault_list in H as [(_ & H & _)|[(H & _)|(_ & Ew & i & y & Hn & H)]]; [contradiction | contradiction |].
           exists (i, y). split; [now apply enum_nth|]. apply list_item_spec. exists r. auto.
      * apply One. intros r w'. split; [|intros [-> ->]; now apply lf_one].
        intros H. apply list_fault_list in H as [(_ & _ & H)|[(H & _)|([[_ H]|[H _]] & _)]]; [exact H | contradiction | contradiction | contradiction].
    + cbn [andb negb]. destruct (_ && _)%bool eqn:El; cbn [negb].
      * apply andb_prop in El as [L1 L2]. apply Nat.leb_le in L1. apply Nat.leb_le in L2. rewrite in_flat_map. split.
        -- intros [[i y] [Hi Hm]]. apply enum_nth in Hi. apply list_item_spec in Hm as (r & Er & Ew & H). exists r. split; [|exact Er]. rewrite Ew.
           destruct H as [[-> H]|(kk & z & -> & -> & H)]; [apply (lf_item f x i y); auto | apply (lf_key f x i kk z); auto].
        -- intros [r [H Er]]. apply list_fault_list in H as [(H & _)|[(_ & H & _)|(_ & Ew & i & y & Hn & H)]]; [contradiction | destruct H; auto |].
           exists (i, y). split; [now apply enum_nth|]. apply list_item_spec. exists r. auto.
      * assert (N : ~ (2 <= List.length x <= 10)).
        { intros [L1 L2]. apply Nat.leb_le in L1. apply Nat.leb_le in L2. rewrite L1, L2 in El. discriminate El. }
        apply One. intros r w'. split; [|intros [-> ->]; now apply lf_many].
        intros H. apply list_fault_list in H as [(H & _)|[(_ & _ & H)|([[H _]|[_ H]] & _)]]; [contradiction | exact H | contradiction | contradiction].
  - assert (E : match v with VList x => if (String.eqb f "Fn::Not" && negb (Nat.eqb (List.length x) 1))%bool then [mkRM p (f ++ " must be a list of exactly 1 condition")]
        else if (negb (String.eqb f "Fn::Not") && negb (Nat.leb 2 (List.length x) && Nat.leb (List.length x) 10))%bool then [mkRM p (f ++ " must be a list of between 2 to 10 conditions")]
        else flat_map (list_item_check f p) (enum x) | _ => [mkRM p (f ++ " must be a condition list")] end = [mkRM p (f ++ " must be a condition list")]).
    { destruct v as [| | | | |x|]; try reflexivity. destruct (D x eq_refl). }
    rewrite E. apply One. intros r w'. split; [|intros [-> ->]; now apply lf_list].
    intros K. clear E One. destruct K as [v' H|y H1 H2|y H1 H2|y i z H1 H2 H3|y i kk z H1 H2 H3]; [auto | | | |]; destruct (D y eq_refl).
Qed.
Lemma list_fault_fine f v r words : list_fault f v r words -> fine_rest v r.
Proof using.
  intros [v' H|x _ _|x _ _|x i y _ Hn _|x i kk y _ Hn _]; try (intros el_ []).
  - left. exists x. split; [reflexivity|]. split; [apply nth_error_Some; congruence | intros el_ []].
  - left. exists x. split; [reflexivity|]. split; [apply nth_error_Some; congruence | intros el_ [<-|[]]; eauto].
Qed.
Lemma condition_lists f id : f <> "Conditions" -> checks_by w c id (Ok (check_condition_list (template c) (w_globals w c) f)) -> lints w sp tr k rg man c ds id l ->
  tells_exactly c man ds l id (condition_faults f (template c)).
Proof using Hwf.
  intros Hf Hc. start Hl. rewrite Hg in Hc.
  apply (tells_as w sp tr k rg man c ds l id _ (fun m => condition_faults f (template c) (rm_path m) (rm_msg m)) _ Hl Hc).
  - eexists. split; [reflexivity|]. intros m. unfold check_condition_list. rewrite in_flat_map. split.
    + intros [[q v] [Hi Hm]]. apply in_search_deep in Hi as [p [-> Ho]]; [|assumption|assumption].
      destruct (from_conditions (p ++ [PKey f])%list) eqn:Ef; [|cbn [list_check] in Hm; rewrite Ef in Hm; destruct Hm].
      apply (list_check_spec f _ v m Ef) in Hm as [r [H Er]]. apply (from_conditions_snoc p f Hf) in Ef as [p' ->]. exists p', v, r. split; [exact Ho|]. split; [exact H|].
      rewrite Er. rewrite <- app_assoc. reflexivity.
    + intros (p & v & r & Ho & H & Er). exists ((PKey "Conditions" :: p) ++ [PKey f], v)%list. split; [apply in_search_deep; eauto|].
      apply list_check_spec; [reflexivity|]. exists r. split; [exact H|]. rewrite Er. cbn [app]. rewrite <- app_assoc. reflexivity.
  - reflexivity.
  - intros q words (p & v & r & Ho & H & ->). apply (fault_fine c f (PKey "Conditions" :: p) v r Ho). exact (list_fault_fine _ _ _ _ H).
Qed.
Lemma fn_and : lints w sp tr k rg man c ds "E8004" l -> tells_exactly c man ds l "E8004" (condition_faults "Fn::And" (template c)).
Proof using Hwf. apply condition_lists; [discriminate | by_id]. Qed.
Lemma fn_not_list : lints w sp tr k rg man c ds "E8005" l -> tells_exactly c man ds l "E8005" (condition_faults "Fn::Not" (template c)).
Proof using Hwf. apply condition_lists; [discriminate | by_id]. Qed.
Lemma fn_or : lints w sp tr k rg man c ds "E8006" l -> tells_exactly c man ds l "E8006" (condition_faults "Fn::Or" (template c)).
Proof using Hwf. apply condition_lists; [discriminate | by_id]. Qed.

Lemma if_check_faults p v ms m : if_check (p, v) = Ok ms -> (In m ms <-> exists r, if_fault v r (rm_msg m) /\ rm_path m = (p ++ r)%list).
Proof using.
  intros E. destruct m as [q words]. cbn [rm_path rm_msg].
  assert (One : (forall x, v <> VList x) -> In (mkRM q words) [mkRM p "Fn::If must be a list of 3 elements."] <-> exists r, if_fault v r words /\ q = (p ++ r)%list).
  { intros D. split.
    - intros [[= <- <-]|[]]. exists []. rewrite app_nil_r. split; [apply if_list; intros a b d K; exact (D _ K) | reflexivity].
    - intros [r [H ->]]. inversion H as [? K|x rest K]; subst; [rewrite app_nil_r; now left | destruct (D (x :: rest) eq_refl)]. }
  destruct v as [| | | | |[|x rest]|]; cbn [if_check] in E; try discriminate E; injection E as <-; try (apply One; discriminate). clear One.
  rewrite in_app_iff.
  assert (A : In (mkRM q words) (if Nat.eqb (List.length (x :: rest)) 3 then [] else [mkRM p "Fn::If must be a list of 3 elements."]) <->
    (forall a b d, VList (x :: rest) <> VList [a; b; d]) /\ q = p /\ words = "Fn::If must be a list of 3 elements.").
  { destruct (Nat.eqb_spec (List.length (x :: rest)) 3) as [El|El]; split.
    - intros [].
    - intros [H _]. destruct rest as [|b [|d [|? ?]]]; try discriminate El. destruct (H x b d eq_refl).
    - intros [[= <- <-]|[]]. split; [|auto]. intros a b d [= -> ->]. apply El. reflexivity.
    - intros (_ & -> & ->). now left. }
  assert (B : In (mkRM q words) (match x with VStr _ => [] | _ => [mkRM (p ++ [PIdx 0])%list "Fn::If first element must be a condition and a string."] end) <->
    (forall s, x <> VStr s) /\ q = (p ++ [PIdx 0])%list /\ words = "Fn::If first element must be a condition and a string.").
  { destruct x; split; try (intros [[= <- <-]|[]]; split; [discriminate | auto]); try (intros (_ & -> & ->); now left); [intros [] | intros [K _]; destruct (K s eq_refl)]. }
  rewrite A, B. split.
  - intros [(H & -> & ->)|(H & -> & ->)]; [exists []; rewrite app_nil_r; split; [now apply if_list | reflexivity] | exists [PIdx 0]; split; [now apply if_name | reflexivity]].
  - intros [r [H ->]]. inversion H as [? K|? ? K]; subst; [left; rewrite app_nil_r; auto | right; auto].
Qed.
Lemma fn_if : (forall p, ~ occurs "Fn::If" (template c) (VDict []) p (VList [])) -> lints w sp tr k rg man c ds "E1028" l ->
  tells_exactly c man ds l "E1028" (if_faults (template c)).
Proof using Hwf.
  intros Hn. start Hl.
  eapply (tells_as w sp tr k rg man c ds l "E1028" _ (fun m => if_faults (template c) (rm_path m) (rm_msg m)) _ Hl); [by_id | rewrite Hg | reflexivity |].
  - destruct (concat_res_total if_check (search_deep_keys "Fn::If" (template c) (VDict []))) as [ms E].
    { intros [q v] Hx. apply in_search_deep in Hx as [p [-> Ho]]; [|assumption|assumption]. destruct v as [| | | | |[|? ?]|]; try (eexists; reflexivity). destruct (Hn p Ho). }
    exists ms. split; [exact E|]. apply concat_res_inv in E as [h [Hh ->]]. intros m. rewrite in_flat_map. split.
    + intros [[q v] [Hi Hm]]. pose proof (Hh _ Hi) as K. apply in_search_deep in Hi as [p [-> Ho]]; [|assumption|assumption].
      apply (if_check_faults _ _ _ m K) in Hm as [r [H Er]]. exists p, v, r. split; [exact Ho|]. split; [exact H|]. rewrite Er, <- app_assoc. reflexivity.
    + intros (p & v & r & Ho & H & Er). assert (Hi : In ((p ++ [PKey "Fn::If"])%list, v) (search_deep_keys "Fn::If" (template c) (VDict []))) by (apply in_search_deep; eauto).
      exists ((p ++ [PKey "Fn::If"])%list, v). split; [exact Hi|]. apply (if_check_faults _ _ _ m (Hh _ Hi)). exists r. split; [exact H|]. rewrite Er, <- app_assoc. reflexivity.
  - intros q words (p & v & r & Ho & H & ->). apply (fault_fine c "Fn::If" p v r Ho). destruct H as [v H|x rest H]; [intros el_ [] |].
    left. eexists. split; [reflexivity|]. split; [cbn; lia | intros el_ []].
Qed.
Lemma fn_if_crash p : occurs "Fn::If" (template c) (VDict []) p (VList []) -> lints w sp tr k rg man c ds "E1028" l -> tells_crash c man ds l "E1028".
Proof using Hwf.
  intros Ho. start Hl. eapply (crash_err w sp tr k rg man c ds l "E1028" _ Hl); [by_id | rewrite Hg | rewrite Hg; intros ms E].
  - apply safe_concat. intros [q v] _. destruct v as [| | | | |[|? ?]|]; discriminate.
  - apply concat_res_inv in E as [h [Hh _]]. specialize (Hh ((p ++ [PKey "Fn::If"])%list, VList [])). discriminate Hh. apply in_search_deep; eauto.
Qed.

Lemma fn_configuration cs : (at_path [PKey "Conditions"] (template c) = Some (VDict cs) \/ at_path [PKey "Conditions"] (template c) = None /\ cs = []) ->
  lints w sp tr k rg man c ds "E8001" l -> tells_exactly c man ds l "E8001" (conditions_faults cs).
Proof using Hwf.
  intros Hcs. start Hl. assert (Hd : exists d, template c = VDict d) by (destruct Hl as (_ & _ & _ & _ & _ & (m & d & Ec) & _); unfold template; rewrite Ec; eexists; reflexivity).
  destruct Hd as [d Ed]. rewrite Ed in Hcs. cbn [at_path] in Hcs.
  eapply (tells_as w sp tr k rg man c ds l "E8001" _ (fun m => conditions_faults cs (rm_path m) (rm_msg m)) _ Hl); [by_id | | reflexivity |].
  - exists (flat_map configuration_check cs). split.
    + rewrite Ed. unfold configuration_match. cbn [vget_def bind]. destruct Hcs as [H|[H ->]]; [|destruct (assoc "Conditions" d); [discriminate H | reflexivity]].
      destruct (assoc "Conditions" d) as [x|]; [|discriminate H]. injection H as ->. destruct cs; reflexivity.
    + intros m. rewrite in_flat_map.
      assert (S : forall n x, In m (configuration_check (n, x)) <-> exists r, condition_fault n x r (rm_msg m) /\ rm_path m = (PKey "Conditions" :: PKey n :: r)%list).
      { clear. intros n x. destruct m as [q words]. cbn [rm_path rm_msg]. unfold configuration_check. split.
        - destruct x as [| | | | | |[|[kk y] [|? ?]]]; try (intros [[= <- <-]|[]]; exists []; split; [apply cn_value; discriminate | reflexivity]);
            try (intros [[= <- <-]|[]]; exists []; split; [apply cn_count; discriminate | reflexivity]).
          destruct (smem kk condition_keys) eqn:Es; [intros []|]. intros [[= <- <-]|[]]. exists [PKey kk]. split; [apply cn_key; intros K; apply smem_iff in K; unfold condition_keys in Es; congruence | reflexivity].
        - intros [r [H ->]]. destruct H as [kk y H|d H|x H].
          + destruct (smem kk condition_keys) eqn:Es; [destruct H; now apply smem_iff | now left].
          + destruct d as [|[? ?] [|? ?]]; [now left | destruct (H eq_refl) | now left].
          + destruct x; try (now left). destruct (H d eq_refl). }
      split.
      * intros [[n x] [Hi Hm]]. apply S in Hm as [r [H Er]]. exists n, x, r. auto.
      * intros (n & x & r & Hi & H & Er). exists (n, x). split; [exact Hi|]. apply S. eauto.
  - intros q words (n & x & r & _ & H & ->). split; [discriminate|]. apply keys_indices. intros el_ [<-|[<-|Hel]]; eauto. destruct H; [destruct Hel as [<-|[]]; eauto | destruct Hel | destruct Hel].
Qed.

(** Fn::Equals and the names of conditions: each fault is told of. *)
Lemma equals_fine valid q v ms m : equals_check valid (q, v) = Ok ms -> In m ms -> exists r, rm_path m = (q ++ r)%list /\ fine_rest v r.
Proof using.
  unfold equals_check. destruct (from_conditions q); [|intros [= <-] []].
  assert (One : forall words, In m [mkRM q words] -> exists r, rm_path m = (q ++ r)%list /\ fine_rest v r) by (intros words [<-|[]]; exists []; rewrite app_nil_r; split; [reflexivity | intros el_ []]).
  destruct v as [| | | | |[|a [|b [|? ?]]]|]; try (intros [= <-]; apply One). clear One. intros E Hm. apply concat_res_inv in E as [h [Hh ->]]. apply in_flat_map in Hm as [[i x] [Hi Hm]].
  pose proof (Hh _ Hi) as K. apply enum_nth in Hi. assert (Hb : i < List.length [a; b]) by (apply nth_error_Some; congruence).
  assert (R : forall words, In m [mkRM (q ++ [PIdx i])%list words] -> exists r, rm_path m = (q ++ r)%list /\ fine_rest (VList [a; b]) r).
  { intros words [<-|[]]. eexists. split; [reflexivity|]. left. eexists. split; [reflexivity|]. split; [exact Hb | intros el_ []]. }
  assert (R2 : forall kk words, In m [mkRM ((q ++ [PIdx i]) ++ [PKey kk])%list words] -> exists r, rm_path m = (q ++ r)%list /\ fine_rest (VList [a; b]) r).
  { intros kk words [<-|[]]. cbn [rm_path]. rewrite <- app_assoc. eexists. split; [reflexivity|]. left. eexists. split; [reflexivity|]. split; [exact Hb | intros el_ [<-|[]]; eauto]. }
  unfold equals_operand in K. cbn [fst snd] in K. destruct x as [| | | | | |o]; try (injection K as K; rewrite <- K in Hm; first [exact (R _ Hm) | destruct Hm]).
  unfold equals_object in K. destruct o as [|[kk y] [|? ?]]; try (injection K as K; rewrite <- K in Hm; exact (R _ Hm)).
  destruct (smem kk allowed_functions); [|injection K as K; rewrite <- K in Hm; exact (R2 _ _ Hm)]. destruct (String.eqb kk "Ref"); [|injection K as K; rewrite <- K in Hm; destruct Hm].
  destruct y; try (destruct valid; [injection K as K; rewrite <- K in Hm; destruct Hm | discriminate K]). destruct (regex_get valid _) as [info|]; [|injection K as K; rewrite <- K in Hm; destruct Hm].
  destruct (_ && _)%bool; injection K as K; rewrite <- K in Hm; [exact (R _ Hm) | destruct Hm].
Qed.
Lemma fn_equals : plain_sections (template c) ->
  (forall r a b, occurs "Fn::Equals" (template c) (VDict []) (PKey "Conditions" :: r) (VList [a; b]) -> plain_operand (template c) a /\ plain_operand (template c) b) ->
  lints w sp tr k rg man c ds "E8003" l ->
  tells_each c man ds l "E8003" (fun pv => exists r, fst pv = (PKey "Conditions" :: r) /\ occurs "Fn::Equals" (template c) (VDict []) (fst pv) (snd pv) /\ ~ valid_equals (template c) (snd pv))
    (fun pv q words => at_or_below (fst pv ++ [PKey "Fn::Equals"])%list q).
Proof using Hwf.
  intros Hp Ho. start Hl. destruct (c31_equals (template c) (VDict []) Hwf He Hp Ho) as (ms & E & H1 & H2).
  eapply (tells_faults w sp tr k rg man c ds l "E8003" _ ms _ _ Hl); [by_id | rewrite Hg; exact E | | |].
  - intros m Hm. destruct (H1 m Hm) as (r & v & K1 & K2 & K3). exists (PKey "Conditions" :: r, v). cbn [fst snd]. split; [|exact K3]. eauto.
  - intros [p v] (r & Er & K1 & K2). cbn [fst snd] in *. subst p. exact (H2 r v K1 K2).
  - intros m Hm. unfold equals_match in E. destruct (get_valid_refs (template c)) as [valid|]; [|discriminate E]. cbn [bind] in E. apply concat_res_inv in E as [h [Hh ->]].
    apply in_flat_map in Hm as [[q v] [Hi Hm]]. destruct (equals_fine _ _ _ _ m (Hh _ Hi) Hm) as [r [Er Hf]]. apply in_search_deep in Hi as [p [-> Hpv]]; [|assumption|assumption].
    rewrite Er, <- app_assoc. cbn [app]. exact (fault_fine c "Fn::Equals" p v r Hpv Hf).
Qed.
Definition fine_paths (d : list (val * path)) : Prop := forall n p, In (n, p) d -> p <> [] /\ indices_ok (c_tmpl c) p.
Lemma set_key_fine n p d : fine_paths d -> p <> [] /\ indices_ok (c_tmpl c) p -> fine_paths (set_key n p d).
Proof using.
  intros Hd Hp. induction d as [|[n' p'] d IH]; intros m q H; cbn [set_key] in H.
  - destruct H as [[= <- <-]|[]]. exact Hp.
  - destruct (py_eq n n').
    + destruct H as [[= <- <-]|H]; [exact Hp | apply (Hd m q); now right].
    + destruct H as [[= <- <-]|H]; [apply (Hd n' p'); now left | apply (IH (fun a b K => Hd a b (or_intror K)) m q H)].
Qed.
Lemma ifs_fine L : forall d d', (forall q v, In (q, v) L -> q <> [] /\ indices_ok (c_tmpl c) q) -> fine_paths d -> exists_ifs L d = Ok d' -> fine_paths d'.
Proof using.
  induction L as [|[q v] L IH]; intros d d' HL Hd E; [injection E as <-; exact Hd|]. cbn [exists_ifs] in E. assert (HL' : forall q0 v0, In (q0, v0) L -> q0 <> [] /\ indices_ok (c_tmpl c) q0) by (intros q0 v0 H; apply (HL q0 v0); now right).
  destruct v as [| | | | |[|[] ?]|]; try discriminate E; try exact (IH _ _ HL' Hd E). apply (IH _ _ HL' (set_key_fine _ _ _ Hd (HL q _ (or_introl eq_refl))) E).
Qed.
Lemma resources_fine L : forall d d', fine_paths d -> exists_resources L d = Ok d' -> fine_paths d'.
Proof using.
  induction L as [|[n x] L IH]; intros d d' Hd E; [injection E as <-; exact Hd|]. cbn [exists_resources] in E. destruct (vget "Condition" x) as [y|]; [|discriminate E]. cbn [bind] in E.
  apply (IH _ _) in E; [exact E|]. destruct y; try exact Hd. apply set_key_fine; [exact Hd | all_keys].
Qed.
Lemma conditions_fine L : forall d, fine_paths d -> fine_paths (exists_conditions L d).
Proof using.
  induction L as [|[q v] L IH]; intros d Hd; [exact Hd|]. cbn [exists_conditions]. apply IH. destruct v; try exact Hd. destruct (from_conditions q); [|exact Hd]. apply set_key_fine; [exact Hd | all_keys].
Qed.
Lemma outputs_fine L : forall d d', fine_paths d -> exists_outputs (w_str w) L d = Ok d' -> fine_paths d'.
Proof using.
  induction L as [|[n x] L IH]; intros d d' Hd E; [injection E as <-; exact Hd|]. cbn [exists_outputs] in E. destruct (member_of "Condition" x) as [[y|]|]; [| |discriminate E]; cbn [bind] in E; [|exact (IH _ _ Hd E)].
  destruct (hashable y); [|discriminate E]. apply (IH _ _) in E; [exact E|]. apply set_key_fine; [exact Hd | all_keys].
Qed.
Lemma fn_exists : plain_uses (template c) (VDict []) -> lints w sp tr k rg man c ds "E8002" l ->
  tells_each c man ds l "E8002" (fun n => uses_condition (template c) (VDict []) n /\ ~ condition_defined (template c) n)
    (fun n q words => words = "Condition " ++ n ++ " is not defined.").
Proof using Hwf.
  intros Hp. start Hl. destruct (c22_all (template c) (VDict []) (w_str w) Hwf He Hp) as (ms & E & _ & H1 & H2).
  eapply (tells_faults w sp tr k rg man c ds l "E8002" _ ms _ _ Hl); [by_id | rewrite Hg; exact E | | |].
  - intros m Hm. destruct (H1 m Hm) as (n & K1 & K2 & K3). exists n. auto.
  - intros n [K1 K2]. exact (H2 n K1 K2).
  - intros m Hm. unfold exists_match in E. destruct (vget_def "Conditions" _ _) as [cs|]; [|discriminate E]. cbn [bind] in E.
    destruct (exists_ifs _ _) as [d1|] eqn:E1; [|discriminate E]. cbn [bind] in E. destruct (exists_resources _ _) as [d2|] eqn:E2; [|discriminate E]. cbn [bind] in E.
    destruct (vget_def "Outputs" _ _) as [os|]; [|discriminate E]. cbn [bind] in E. destruct (items_of os) as [os'|]; [|discriminate E]. cbn [bind] in E.
    destruct (exists_outputs _ _ _) as [d3|] eqn:E3; [|discriminate E]. cbn [bind] in E.
    assert (F1 : fine_paths d1).
    { apply (ifs_fine (search_deep_keys "Fn::If" (template c) (VDict [])) [] d1); [|intros n p []|exact E1]. intros q v Hi. apply in_search_deep in Hi as [p [-> Ho]]; [|assumption|assumption]. apply (fault_fine c "Fn::If" p v [] Ho). intros el_ []. }
    pose proof (outputs_fine _ _ _ (conditions_fine _ _ (resources_fine _ _ _ F1 E2)) E3) as F.
    unfold exists_report in E. apply concat_res_inv in E as [h [Hh ->]]. apply in_flat_map in Hm as [[n p] [Hi Hm]]. pose proof (Hh _ Hi) as K. cbn [fst snd] in K.
    destruct (in_conditions n cs) as [b|]; [|discriminate K]. cbn [bind] in K. injection K as K. rewrite <- K in Hm. destruct b; [destruct Hm|]. destruct Hm as [<-|[]]. exact (F n p Hi).
Qed.
Lemma fn_exists_crash p : occurs "Fn::If" (template c) (VDict []) p (VList []) -> lints w sp tr k rg man c ds "E8002" l -> tells_crash c man ds l "E8002".
Proof using Hwf.
  intros Ho. start Hl. assert (Hd : exists d, template c = VDict d) by (destruct Hl as (_ & _ & _ & _ & _ & (m & d & Ec) & _); unfold template; rewrite Ec; eexists; reflexivity).
  assert (X : exists_ifs (search_deep_keys "Fn::If" (template c) (VDict [])) [] = Err EIndex).
  { assert (Hi : In ((p ++ [PKey "Fn::If"])%list, VList []) (search_deep_keys "Fn::If" (template c) (VDict []))) by (apply in_search_deep; eauto).
    revert Hi. generalize (search_deep_keys "Fn::If" (template c) (VDict [])). intros L. generalize (@nil (val * path)). induction L as [|[q v] L IH]; intros d0 Hi; [destruct Hi|].
    cbn [exists_ifs]. destruct Hi as [[= -> ->]|Hi]; [reflexivity|]. destruct v as [| | | | |[|[] ?]|]; try reflexivity; apply IH; exact Hi. }
  assert (E : exists_match (template c) (VDict []) (w_str w) = Err EIndex).
  { destruct Hd as [d Ed]. unfold exists_match. rewrite X. rewrite Ed. reflexivity. }
  eapply (crash_err w sp tr k rg man c ds l "E8002" _ Hl); [by_id | rewrite Hg, E; discriminate | rewrite Hg, E; discriminate].
Qed.
End Runs.
