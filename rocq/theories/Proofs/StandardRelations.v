(** What W1001 tells in a run (C99). *)
From Coq Require Import Lia Permutation.
From Verif.Model Require Import Base Node Locate Helpers Conditions Search Resolve Rules Runner Config Core Relationship Standard.
From Verif.Spec Require Import Pipeline Paths Branches References Walk Truth Resolved ConditionUse Shipped Configured.
From Verif.Proofs Require Import BaseFacts SearchProofs ConditionProofs ScenarioMain RelationProofs RelationRule RegistryProofs StandardProofs StandardRules.
Import Verif.Model.Rules.
Import ListNotations.
Local Open Scope string_scope.

Section W.
Variables (order : list string -> list string) (cs : conditions) (t : val).
Hypothesis (Hpl : plain_conditions t) (Hsc : forall names, NoDup names -> (forall n, In n names -> mem_assoc n (cs_conditions cs) = true) -> exists scs, get_scenarios order cs names = Ok scs).

Lemma unknown_names l : forall m b, (exists n, In n l /\ mem_assoc n (cs_conditions cs) = false) -> match_conditions (cs_conditions cs) l m b = None.
Proof using.
  induction l as [|x l IH]; intros m b [n [Hi Hn]]; [destruct Hi|]. cbn [match_conditions]. destruct (assoc x (cs_conditions cs)) as [t0|] eqn:E; [|reflexivity].
  destruct (match_equals (infl_of t0) m b) as [m' b']. apply IH. destruct Hi as [->|Hi]; [|eauto]. exfalso. apply not_true_iff_false in Hn. apply Hn. apply mem_assoc_iff. apply assoc_Some_key. eauto.
Qed.
Lemma scenarios_ok l : NoDup l -> exists scs, get_scenarios order cs l = Ok scs.
Proof using Hsc.
  intros Hl. destruct (forallb (fun n => mem_assoc n (cs_conditions cs)) l) eqn:E.
  - apply Hsc; [exact Hl|]. now apply forallb_forall.
  - unfold get_scenarios. destruct (cs_conditions cs) as [|x cs'] eqn:Ec; [eauto|]. rewrite <- Ec. rewrite unknown_names; [eauto|].
    rewrite <- Ec in E. clear -E. induction l as [|x l IH]; [discriminate E|]. cbn [forallb] in E. destruct (mem_assoc x (cs_conditions cs)) eqn:Ex; [|exists x; split; [now left | exact Ex]].
    destruct (IH E) as [n [H1 H2]]. exists n. split; [now right | exact H2].
Qed.

Lemma available_total p n : place t p -> p <> [] -> exists out, is_resource_available order cs t p n = Ok out.
Proof using Hpl Hsc.
  intros Hp Hne. destruct (path_needs t p Hp Hne Hpl) as [r [Hr [Hnd _]]]. unfold is_resource_available. rewrite Hr. cbn [bind fst snd].
  destruct Hpl as [d [-> Hd]]. cbn [vget_def bind]. destruct (assoc "Resources" d) as [s|] eqn:Es; cbn [bind vget_def assoc vget truthy]; [|eauto].
  destruct (Hd "Resources" s (or_introl eq_refl) Es) as [m [-> Hm]]. cbn [vget_def]. destruct (assoc n m) as [x|] eqn:Ex; cbn [bind vget assoc truthy]; [|eauto].
  destruct (Hm n x Ex) as [o [-> Ho]]. cbn [vget]. destruct Ho as [->|[rc ->]]; cbn [bind truthy]; [eauto|]. destruct (negb (String.eqb rc "")); [|eauto].
  destruct (mem_assoc rc r) eqn:Em; [eauto|].
  destruct (scenarios_ok (keys r ++ [rc])%list) as [scs ->]; [|cbn [bind]; eauto]. apply (Permutation_NoDup (Permutation_cons_append (keys r) rc)). constructor; [|exact Hnd].
  intros K. apply mem_assoc_iff in K. congruence.
Qed.
Lemma reference_says f p v n : In f ["Ref"; "Fn::GetAtt"] -> place t (p ++ [PKey f])%list -> names_target f v n ->
  exists o, (if String.eqb f "Ref" then ref_matches order cs t ((p ++ [PKey f])%list, v) else getatt_matches order cs t ((p ++ [PKey f])%list, v)) = Ok o /\
    forall m, In m o <-> ~ In n PSEUDOPARAMS /\ exists sc out, is_resource_available order cs t (p ++ [PKey f])%list n = Ok out /\ In sc out /\
      m = mkRM (p ++ [PKey f])%list (call_word f ++ " to resource """ ++ n ++ """ that may not be available " ++ scenario_text sc ++ " at " ++ path_text (p ++ [PKey f])%list).
Proof using Hpl Hsc.
  intros Hf Hp Hn. assert (Hne : (p ++ [PKey f])%list <> []) by (intros K; apply app_eq_nil in K as [_ K]; discriminate K).
  destruct (available_total (p ++ [PKey f])%list n Hp Hne) as [out Ho].
  assert (C : forall o, o = (if smem n PSEUDOPARAMS then Ok [] else Ok (map (fun sc => mkRM (p ++ [PKey f])%list (call_word f ++ " to resource """ ++ n ++ """ that may not be available " ++ scenario_text sc ++ " at " ++ path_text (p ++ [PKey f])%list)) out)) ->
    exists l, o = Ok l /\ forall m, In m l <-> ~ In n PSEUDOPARAMS /\ exists sc out, is_resource_available order cs t (p ++ [PKey f])%list n = Ok out /\ In sc out /\
      m = mkRM (p ++ [PKey f])%list (call_word f ++ " to resource """ ++ n ++ """ that may not be available " ++ scenario_text sc ++ " at " ++ path_text (p ++ [PKey f])%list)).
  { intros o ->. destruct (smem n PSEUDOPARAMS) eqn:E.
    - exists []. split; [reflexivity|]. intros m. split; [intros [] | intros [K _]; elim K; now apply smem_iff].
    - eexists. split; [reflexivity|]. intros m. rewrite in_map_iff. split.
      + intros (sc & <- & H). split; [intros K; apply smem_iff in K; congruence|]. exists sc, out. auto.
      + intros [_ (sc & out' & H1 & H2 & ->)]. rewrite Ho in H1. injection H1 as <-. exists sc. auto. }
  apply C. clear C. destruct Hn as [n Hif|n rest Hn|n s Hn Hd Hif Hs].
  - change (String.eqb "Ref" "Ref") with true. cbn match. unfold ref_matches. cbn [is_pseudo]. destruct (smem n PSEUDOPARAMS); [reflexivity|]. unfold available_at.
    rewrite available_last; [|now left|exact Hp|exact Hif]. rewrite Ho. reflexivity.
  - change (String.eqb "Fn::GetAtt" "Ref") with false. cbn match. unfold getatt_matches. cbn [getatt_target bind truthy is_pseudo]. destruct (String.eqb_spec n ""); [contradiction|].
    destruct (smem n PSEUDOPARAMS); [reflexivity|]. cbn [negb andb]. unfold available_at. rewrite Ho. reflexivity.
  - change (String.eqb "Fn::GetAtt" "Ref") with false. cbn match. unfold getatt_matches. assert (E : getatt_target (VStr s) = Ok (VStr n)).
    { cbn [getatt_target]. assert (Hc : has_char "." n = false) by (apply not_true_iff_false; intros K; apply Hd; now apply RegistryProofs.has_in).
      destruct Hs as [->|[rest ->]]; [now rewrite (split_on_nochar _ _ Hc)|]. cbn [append]. now rewrite (split_on_app _ _ _ Hc). }
    rewrite E. cbn [bind truthy is_pseudo]. destruct (String.eqb_spec n ""); [contradiction|].
    destruct (smem n PSEUDOPARAMS); [reflexivity|]. cbn [negb andb]. unfold available_at. rewrite available_last; [|right; now left|exact Hp|exact Hif]. rewrite Ho. reflexivity.
Qed.
Lemma relations_says : wf t -> plain_references t -> exists ms, relationship_match order cs t (VDict []) = Ok ms /\
  forall m, In m ms <-> exists f p v n, In f ["Ref"; "Fn::GetAtt"] /\ at_path (p ++ [PKey f])%list t = Some v /\ names_target f v n /\ ~ In n PSEUDOPARAMS /\
    exists sc out, is_resource_available order cs t (p ++ [PKey f])%list n = Ok out /\ In sc out /\
      m = mkRM (p ++ [PKey f])%list (call_word f ++ " to resource """ ++ n ++ """ that may not be available " ++ scenario_text sc ++ " at " ++ path_text (p ++ [PKey f])%list).
Proof using Hpl Hsc.
  intros Hw Hr.
  assert (S : forall f q v, In (q, v) (search_deep_keys f t (VDict [])) <-> exists p, q = (p ++ [PKey f])%list /\ at_path (p ++ [PKey f])%list t = Some v).
  { intros f q v. unfold search_deep_keys. rewrite in_app_iff, !search_spec; [|exact wf_empty|exact Hw]. split.
    - intros [[p [-> H]]|[p [-> H]]]; [exists p; auto|]. exfalso. destruct p as [|[k|i] p]; discriminate H.
    - intros [p [-> H]]. left. exists p. auto. }
  unfold relationship_match.
  assert (A : forall f, In f ["Ref"; "Fn::GetAtt"] -> exists ms, concat_res (fun pv => if String.eqb f "Ref" then ref_matches order cs t pv else getatt_matches order cs t pv) (search_deep_keys f t (VDict [])) = Ok ms /\
    forall m, In m ms <-> exists p v n, at_path (p ++ [PKey f])%list t = Some v /\ names_target f v n /\ ~ In n PSEUDOPARAMS /\
    exists sc out, is_resource_available order cs t (p ++ [PKey f])%list n = Ok out /\ In sc out /\
      m = mkRM (p ++ [PKey f])%list (call_word f ++ " to resource """ ++ n ++ """ that may not be available " ++ scenario_text sc ++ " at " ++ path_text (p ++ [PKey f])%list)).
  { intros f Hf. set (g := fun pv => if String.eqb f "Ref" then ref_matches order cs t pv else getatt_matches order cs t pv).
    assert (T : exists ms, concat_res g (search_deep_keys f t (VDict [])) = Ok ms).
    { apply concat_res_total. intros [q v] Hi. apply S in Hi as [p [-> Hi]]. destruct (Hr f p v Hf Hi) as [Hp [n Hn]]. destruct (reference_says f p v n Hf Hp Hn) as [o [Ho _]]. exists o. exact Ho. }
    destruct T as [ms E]. exists ms. split; [exact E|]. intros m. rewrite (concat_res_in g _ _ m E). split.
    - intros ([q v] & ys & Hi & Hg & Hm). apply S in Hi as [p [-> Hi]]. destruct (Hr f p v Hf Hi) as [Hp [n Hn]]. destruct (reference_says f p v n Hf Hp Hn) as [o [Ho Hin]]. pose proof (eq_trans (eq_sym Ho) Hg) as K. injection K as <-.
      apply Hin in Hm as [H1 H2]. exists p, v, n. auto.
    - intros (p & v & n & Hi & Hn & H). destruct (Hr f p v Hf Hi) as [Hp _]. destruct (reference_says f p v n Hf Hp Hn) as [o [Ho Hin]]. exists ((p ++ [PKey f])%list, v), o. split; [apply S; eauto|]. split; [exact Ho|]. apply Hin. exact H. }
  destruct (A "Ref" (or_introl eq_refl)) as [a [Ea Ha]]. destruct (A "Fn::GetAtt" (or_intror (or_introl eq_refl))) as [b [Eb Hb]].
  exists (a ++ b)%list. split.
  - etransitivity; [|apply f_equal; reflexivity]. match goal with |- bind ?x _ = _ => replace x with (Ok a) by (rewrite <- Ea; reflexivity) end. cbn [bind].
    match goal with |- bind ?x _ = _ => replace x with (Ok b) by (rewrite <- Eb; reflexivity) end. reflexivity.
  - intros m. rewrite in_app_iff, Ha, Hb. split.
    + intros [(p & v & n & H)|(p & v & n & H)]; [exists "Ref" | exists "Fn::GetAtt"]; exists p, v, n; (split; [cbn; auto | exact H]).
    + intros (f & p & v & n & [<- | [<- | []]] & H); [left | right]; exists p, v, n; exact H.
Qed.
End W.

Lemma set_relations w sp tr k rg man c ds l : lints w sp tr k rg man c ds "W1001" l -> wf (template c) -> plain_conditions (template c) -> plain_references (template c) ->
  (forall names, NoDup names -> (forall n, In n names -> mem_assoc n (cs_conditions (load (w_hash w) (w_fuel w) (template c))) = true) ->
     exists scs, get_scenarios (w_order w) (load (w_hash w) (w_fuel w) (template c)) names = Ok scs) ->
  tells_exactly c man ds l "W1001" (fun q words => exists f p v n, In f ["Ref"; "Fn::GetAtt"] /\ q = (p ++ [PKey f])%list /\ at_path q (template c) = Some v /\ names_target f v n /\ ~ In n PSEUDOPARAMS /\
    exists sc out, is_resource_available (w_order w) (load (w_hash w) (w_fuel w) (template c)) (template c) q n = Ok out /\ In sc out /\
      words = call_word f ++ " to resource """ ++ n ++ """ that may not be available " ++ scenario_text sc ++ " at " ++ path_text q).
Proof.
  intros Hl Hw Hc Hr Hs. destruct (lints_before w sp tr k rg man c ds l _ Hl) as [_ Hg].
  eapply (tells_as w sp tr k rg man c ds l "W1001" (relationship_match (w_order w) (load (w_hash w) (w_fuel w) (template c)) (template c) (w_globals w c))); [exact Hl | by_id | rewrite Hg; exact (relations_says _ _ _ Hc Hs Hw Hr) | |].
  - intros q words. cbn beta. setoid_rewrite mk_rm. split.
    + intros (f & p & v & n & H1 & H2 & H3 & H4 & sc & out & H5 & H6 & -> & ->). exists f, p, v, n. split; [exact H1|]. split; [reflexivity|]. split; [exact H2|]. split; [exact H3|]. split; [exact H4|]. exists sc, out. auto.
    + intros (f & p & v & n & H1 & -> & H2 & H3 & H4 & sc & out & H5 & H6 & ->). exists f, p, v, n. split; [exact H1|]. split; [exact H2|]. split; [exact H3|]. split; [exact H4|]. exists sc, out. auto.
  - intros q words (f & p & v & n & _ & -> & H & _). exact (parts_ok c p _ _ H).
Qed.

(** A reference to a resource that a deployment does not have is told, together with the values of the conditions. *)
Lemma set_missing w sp tr k rg man c ds l defs parameters : lints w sp tr k rg man c ds "W1001" l -> wf (template c) -> plain_conditions (template c) -> plain_references (template c) ->
  (forall names, NoDup names -> (forall n, In n names -> mem_assoc n (cs_conditions (load (w_hash w) (w_fuel w) (template c))) = true) ->
     exists scs, get_scenarios (w_order w) (load (w_hash w) (w_fuel w) (template c)) names = Ok scs) ->
  (forall v, digest (w_hash w v)) -> (forall l, Permutation (w_order w l) l) ->
  section_of "Conditions" (template c) defs -> section_of "Parameters" (template c) parameters ->
  forall f p v n rc names, In f ["Ref"; "Fn::GetAtt"] -> at_path (p ++ [PKey f])%list (template c) = Some v -> names_target f v n -> ~ In n PSEUDOPARAMS ->
  condition_of "Resources" n (template c) rc -> NoDup names -> (forall x, In x names <-> x = rc \/ exists b, needs (template c) (p ++ [PKey f])%list x b) ->
  (forall b, ~ needs (template c) (p ++ [PKey f])%list rc b) ->
  (forall x, In x names -> mem_assoc x (cs_conditions (load (w_hash w) (w_fuel w) (template c))) = true) -> (List.length names <= 4 \/ some_related defs names) ->
  forall values b, deployment (w_hash w) parameters values -> gives defs values names b -> place_exists b (template c) (p ++ [PKey f])%list -> b rc = false ->
  exists sc fi, Permutation sc (scenario_of names b) /\
    finding_of c "W1001" (p ++ [PKey f])%list (call_word f ++ " to resource """ ++ n ++ """ that may not be available " ++ scenario_text sc ++ " at " ++ path_text (p ++ [PKey f])%list) fi /\
    (suppressed man ds fi \/ exists u, In u l /\ same_finding fi u).
Proof.
  intros Hl Hw Hc Hr Hs Hh Ho Hd Hpa f p v n rc names Hf Hat Hn Hps Hrc Hnd Hnm Hno Hk Hsz values b Hdep Hgv Hex Hb.
  assert (Hne : (p ++ [PKey f])%list <> []) by (intros K; apply app_eq_nil in K as [_ K]; discriminate K). destruct (Hr f p v Hf Hat) as [Hp _].
  destruct (c33_reported (w_hash w) (w_order w) (template c) defs parameters Hh Ho Hd Hpa Hc (p ++ [PKey f])%list n rc names Hp Hne Hrc Hnd Hnm Hno (w_fuel w) values b Hk Hsz Hdep Hgv Hex Hb) as [out [H1 [sc [H2 H3]]]].
  destruct (set_relations w sp tr k rg man c ds l Hl Hw Hc Hr Hs) as [_ T]. destruct (T (p ++ [PKey f])%list (call_word f ++ " to resource """ ++ n ++ """ that may not be available " ++ scenario_text sc ++ " at " ++ path_text (p ++ [PKey f])%list)) as [fi [H4 H5]].
  { exists f, p, v, n. split; [exact Hf|]. split; [reflexivity|]. split; [exact Hat|]. split; [exact Hn|]. split; [exact Hps|]. exists sc, out. auto. }
  exists sc, fi. auto.
Qed.
