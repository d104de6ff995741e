(** C77: the record sets of a template. *)
From Coq Require Import List String Ascii ZArith Lia Permutation.
From Verif.Model Require Import Base Locate Helpers Node Conditions Search Resolve Rules Refs Relationship Parameters Limits Functions PropertyRules Events SubProps Route53.
From Verif.Spec Require Import Paths Branches References Walk Values Permissions Truth Resolved Groups SubProps Nested Records.
From Verif.Proofs Require Import BaseFacts SearchProofs SizeProofs PropertyRuleProofs MatchRun ValueRun Says SubPropsProofs ResolveProofs DeepProofs RecordProofs.
Import Verif.Model.Rules.
Import ListNotations.
Local Open Scope string_scope.

Section Records.
Variable ipv6 : string -> bool.
Variables (order : list string -> list string) (c : conditions) (globals t : val).
Hypothesis Hw : wf t.
Hypothesis Hs : records_shaped t.
Variable counted : val -> path -> rulematch -> Prop.
Hypothesis Hcount : forall d p x, record_set t d p -> records_of d "CNAME" x -> says (count_names order c t globals x (p ++ [PKey "ResourceRecords"])%list) (counted x (p ++ [PKey "ResourceRecords"])%list).
Definition set_fault (d : list (string * val)) (p : path) (m : rulematch) : Prop :=
  exists ty x, records_of d ty x /\
    ((exists s r words, single x (p ++ [PKey "ResourceRecords"])%list (VStr s) r /\ record_fault ipv6 r ty s words /\ m = mkRM r words) \/ (ty = "CNAME" /\ counted x (p ++ [PKey "ResourceRecords"])%list m)).
Lemma set_says d p : record_set t d p -> says (check_recordset ipv6 order c t globals p (VDict d)) (set_fault d p).
Proof using Hs Hcount.
  intros Hr. unfold check_recordset. cbn [vget bind].
  assert (N : (forall ty x, ~ records_of d ty x) -> says (@Ok (list rulematch) []) (set_fault d p)).
  { intros Hn. eapply says_ext; [apply says_none|]. intros m. split; [intros [] | intros [ty [x [K _]]]; now elim (Hn ty x)]. }
  destruct (assoc "Type" d) as [tv|] eqn:Et.
  2:{ cbn [is_dict]. assert (K : forall ty x, ~ records_of d ty x) by (intros ty x [K _]; congruence).
      destruct (truthy _); [now apply N|]. destruct (negb _); now apply N. }
  destruct (is_dict tv) eqn:Ed; [apply N; intros ty x [K _]; rewrite Et in K; injection K as ->; discriminate Ed|].
  destruct (truthy (match assoc "AliasTarget" d with Some x => x | None => VNull end)) eqn:Ea.
  { apply N. intros ty x [_ [[K|[y [K Ky]]] _]]; rewrite K in Ea; [discriminate Ea | congruence]. }
  assert (Ha : assoc "AliasTarget" d = None \/ exists y, assoc "AliasTarget" d = Some y /\ truthy y = false) by (destruct (assoc "AliasTarget" d) as [y|]; [right; eauto | now left]).
  destruct (assoc "ResourceRecords" d) as [x|] eqn:Ex; [|apply N; intros ty x [_ [_ [K _]]]; congruence].
  destruct (truthy x) eqn:Exx; cbn [negb]; [|apply N; intros ty y [_ [_ [K Kt]]]; congruence].
  destruct tv as [| | | |ty| |]; try (apply N; intros ty' y [K _]; rewrite Et in K; discriminate K).
  assert (R : records_of d ty x) by (split; [exact Et|]; split; [exact Ha|]; split; [exact Ex | exact Exx]).
  assert (U : forall ty' x', records_of d ty' x' -> ty' = ty /\ x' = x) by (intros ty' x' [K1 [_ [K2 _]]]; split; congruence).
  destruct (record_check ipv6 ty) as [f|] eqn:Ef.
  - destruct Hs as [_ [_ Hsh]]. destruct (Hsh d p ty x Hr R) as [S1 [S2 S3]].
    assert (V : says (check_value (VDict d) "ResourceRecords" p f []) (fun m => exists s r words, single x (p ++ [PKey "ResourceRecords"])%list (VStr s) r /\ record_fault ipv6 r ty s words /\ m = mkRM r words)).
    { eapply says_ext; [apply value_says with (P := faulty ipv6 ty)|].
      - intros x' Ex'. rewrite Ex in Ex'. injection Ex' as <-. split; [exact S1|]. intros w r Hsg _. apply record_says; [exact Ef | intros K; exact (S2 K w r Hsg)|].
        intros K s a b ->. exact (S3 K s r a b Hsg).
      - intros m. split.
        + intros [x' [w [r [Ex' [Hsg [_ [s [words [-> [Hf ->]]]]]]]]]]. rewrite Ex in Ex'. injection Ex' as <-. exists s, r, words. auto.
        + intros [s [r [words [Hsg [Hf ->]]]]]. exists x, (VStr s), r. split; [exact Ex|]. split; [exact Hsg|]. split; [intros [fn [a [E _]]]; discriminate E|]. exists s, words. auto. }
    assert (C : says (if String.eqb ty "CNAME" then count_names order c t globals x (p ++ [PKey "ResourceRecords"])%list else Ok []) (fun m => ty = "CNAME" /\ counted x (p ++ [PKey "ResourceRecords"])%list m)).
    { destruct (String.eqb_spec ty "CNAME") as [->|Hne].
      - eapply says_ext; [eapply Hcount; eassumption|]. tauto.
      - eapply says_ext; [apply says_none|]. tauto. }
    eapply says_ext; [apply (says_app _ _ _ _ C V)|]. intros m. split.
    + intros [K|K]; exists ty, x; auto.
    + intros [ty' [x' [K1 K2]]]. destruct (U _ _ K1) as [-> ->]. destruct K2; auto.
  - eapply says_ext; [apply says_none|]. intros m. split; [intros []|]. intros [ty' [x' [K1 K2]]]. destruct (U _ _ K1) as [-> ->]. destruct K2 as [[s [r [w [_ [Hf _]]]]]|[-> _]]; [|discriminate Ef].
    apply fault_known in Hf as [f Hf]. congruence.
Qed.
Lemma sets_say : says (recordsets_match ipv6 order c globals t) (fun m => exists d p, record_set t d p /\ set_fault d p m).
Proof using Hw Hs Hcount.
  unfold recordsets_match. eapply says_ext; [apply says_app with
    (P1 := fun m => exists name attrs d, resource_of t name "AWS::Route53::RecordSet" attrs /\ assoc "Properties" attrs = Some (VDict d) /\ set_fault d [PKey "Resources"; PKey name; PKey "Properties"] m)
    (P2 := fun m => exists name attrs pd l i d, resource_of t name "AWS::Route53::RecordSetGroup" attrs /\ assoc "Properties" attrs = Some (VDict pd) /\ assoc "RecordSets" pd = Some (VList l) /\ nth_error l i = Some (VDict d) /\
       set_fault d [PKey "Resources"; PKey name; PKey "Properties"; PKey "RecordSets"; PIdx i] m)|].
  - eapply says_ext; [apply says_concat with (P := fun nr m => exists attrs d, snd nr = VDict attrs /\ assoc "Properties" attrs = Some (VDict d) /\ set_fault d [PKey "Resources"; PKey (fst nr); PKey "Properties"] m)|].
    + intros [name x] Hi. cbn [fst snd]. apply in_resources_of in Hi as [rt [attrs [[<-|[]] [-> Hres]]]]; [|exact Hw]. cbn [vget bind]. destruct (proj1 Hs _ _ Hres) as [E|[d E]]; rewrite E; cbn [bind truthy].
      * eapply says_ext; [apply says_none|]. intros m. split; [intros []|]. intros [a [d [[= <-] [E' _]]]]. congruence.
      * assert (G : says (check_recordset ipv6 order c t globals [PKey "Resources"; PKey name; PKey "Properties"] (VDict d)) (fun m => exists attrs' d', VDict attrs = VDict attrs' /\ assoc "Properties" attrs' = Some (VDict d') /\ set_fault d' [PKey "Resources"; PKey name; PKey "Properties"] m)).
        { eapply says_ext; [apply set_says; eapply rs_resource; eassumption|]. intros m. split; [intros K; exists attrs, d; auto|]. intros [a [d' [[= <-] [E' K]]]]. rewrite E in E'. now injection E' as <-. }
        destruct d as [|kx d]; cbn [negb]; [|exact G]. exact G.
    + intros m. split.
      * intros [[name x] [Hi [attrs [d [E K]]]]]. cbn [fst snd] in *. subst x. apply in_resources_of in Hi as [rt [attrs' [[<-|[]] [[= <-] Hres]]]]; [|exact Hw]. exists name, attrs, d. tauto.
      * intros [name [attrs [d [Hres K]]]]. exists (name, VDict attrs). split; [apply in_resources_of; [exact Hw|]; exists "AWS::Route53::RecordSet", attrs; split; [now left | auto]|]. exists attrs, d. tauto.
  - destruct (props_found "AWS::Route53::RecordSetGroup" "RecordSets" t Hw) as [l [-> Hl]].
    { intros name attrs l Hres E. destruct (proj1 (proj2 Hs) _ _ Hres) as [E'|[d [E' _]]]; congruence. }
    cbn [bind]. eapply says_ext; [apply says_concat with (P := fun qx m => exists items i d, snd qx = VList items /\ nth_error items i = Some (VDict d) /\ set_fault d (fst qx ++ [PIdx i])%list m)|].
    + intros [q x] Hq. apply Hl in Hq. cbn [fst snd] in *. destruct x as [| | | | |items|]; try (eapply says_ext; [apply says_none|]; intros m; split; [intros [] | intros [its [i [e [E _]]]]; discriminate E]).
      destruct Hq as [name [attrs [pd [Hres [Hp [Hk ->]]]]]].
      eapply says_ext; [apply says_concat with (P := fun ix m => exists d, snd ix = VDict d /\ set_fault d [PKey "Resources"; PKey name; PKey "Properties"; PKey "RecordSets"; PIdx (fst ix)] m)|].
      * intros [i y] Hi. apply enum_nth in Hi. cbn [fst snd app]. destruct (proj1 (proj2 Hs) _ _ Hres) as [E|[pd' [E Ho]]]; [congruence|]. rewrite Hp in E. injection E as <-.
        destruct (Ho _ y Hk (nth_error_In _ _ Hi)) as [d ->]. eapply says_ext; [apply set_says; eapply rs_group; eassumption|].
        intros m. split; [intros K; exists d; split; [reflexivity | exact K] | intros [d' [[= <-] K]]; exact K].
      * intros m. split.
        -- intros [[i y] [Hi [d [Ed K]]]]. apply enum_nth in Hi. cbn [fst snd] in *. subst y. exists items, i, d. auto.
        -- intros [its [i [d [[= <-] [Hi K]]]]]. exists (i, VDict d). split; [now apply enum_nth|]. exists d. auto.
    + intros m. split.
      * intros [[q x] [Hq [items [i [d [Ex [Hi K]]]]]]]. cbn [fst snd] in *. subst x. apply Hl in Hq as [name [attrs [pd [Hres [Hp [Hk Eq]]]]]]. cbn [fst snd] in *. subst q. exists name, attrs, pd, items, i, d. auto 8.
      * intros [name [attrs [pd [items [i [d [Hres [Hp [Hk [Hi K]]]]]]]]]]. exists ([PKey "Resources"; PKey name; PKey "Properties"; PKey "RecordSets"], VList items). split; [apply Hl; exists name, attrs, pd; auto|]. exists items, i, d. auto.
  - intros m. split.
    + intros [[name [attrs [d [Hres [Hp K]]]]]|[name [attrs [pd [l [i [d [Hres [Hp [Hk [Hi K]]]]]]]]]]]; do 2 eexists; (split; [|exact K]); [eapply rs_resource | eapply rs_group]; eassumption.
    + intros [d [p [Hr K]]]. destruct Hr as [name attrs d Hres Hp|name attrs pd l i d Hres Hp Hk Hi].
      * left. exists name, attrs, d. auto.
      * right. exists name, attrs, pd, l, i, d. auto 8.
Qed.
End Records.
Lemma set_at t d p : wf t -> record_set t d p -> at_path p t = Some (VDict d).
Proof.
  intros Hw Hr. destruct Hr as [name attrs d [top [rs [-> [Hr [Hi Ht]]]]] Hp|name attrs pd l i d [top [rs [-> [Hr [Hi Ht]]]]] Hp Hk Hi'].
  all: assert (En : assoc name rs = Some (VDict attrs)) by (apply assoc_NoDup; [|exact Hi]; apply wf_dict in Hw as [_ Hw]; apply assoc_In in Hr; apply Hw in Hr; now apply wf_dict in Hr as [Hr _]).
  - cbn [at_path]. rewrite Hr. cbn [at_path]. rewrite En. cbn [at_path]. now rewrite Hp.
  - cbn [at_path]. rewrite Hr. cbn [at_path]. rewrite En. cbn [at_path]. rewrite Hp. cbn [at_path]. rewrite Hk. cbn [at_path]. now rewrite Hi'.
Qed.
Lemma records_at t d p ty x : wf t -> record_set t d p -> records_of d ty x -> at_path (p ++ [PKey "ResourceRecords"])%list t = Some x.
Proof. intros Hw Hr [_ [_ [Hx _]]]. rewrite at_path_app, (set_at t d p Hw Hr). cbn [at_path]. now rewrite Hx. Qed.
Lemma count_plain order c t globals d p x : wf t -> wf globals -> unconditional_names t globals -> record_set t d p -> records_of d "CNAME" x ->
  says (count_names order c t globals x (p ++ [PKey "ResourceRecords"])%list) (fun m => exists l, x = VList l /\ 1 < List.length l /\ m = mkRM (p ++ [PKey "ResourceRecords"])%list "A CNAME recordset can only contain 1 value").
Proof.
  intros Hw Hg Hu Hr Hx. destruct (Hu d p x Hr Hx) as [Hpl [Hgp [Ht [Hno Hform]]]]. unfold count_names.
  rewrite (nested_plain t globals (p ++ [PKey "ResourceRecords"])%list x); auto.
  - cbn [bind concat_res snd fst]. destruct Hform as [[l ->]|[k [y [-> Hne]]]]; cbn [py_len bind].
    + destruct (Z.ltb_spec 1 (Z.of_nat (List.length l))) as [Hl|Hl].
      * eapply says_ext; [apply says_one|]. intros m. split; [intros ->; exists l; split; [reflexivity|]; split; [lia | reflexivity] | intros [l' [_ [_ ->]]]; reflexivity].
      * eapply says_ext; [apply says_none|]. intros m. split; [intros []|]. intros [l' [[= <-] [K _]]]. lia.
    + eapply says_ext; [apply says_none|]. intros m. split; [intros [] | intros [l [[=] _]]].
  - eapply records_at; eassumption.
  - intros k K. apply in_app_iff in K as [K|[K|[]]]; [now apply Hpl|]. injection K as <-. intros K. cbn in K. intuition discriminate.
  - destruct Hform as [[l ->]|[k [y [-> _]]]]; reflexivity.
  - destruct Hform as [[l ->]|[k [y [_ H]]]]; [discriminate | exact H].
Qed.
Lemma c77_records ipv6 order c globals t : wf t -> wf globals -> records_shaped t -> unconditional_names t globals ->
  exists ms, recordsets_match ipv6 order c globals t = Ok ms /\
    forall m, In m ms <-> exists d p ty x, record_set t d p /\ records_of d ty x /\
      ((exists s r words, single x (p ++ [PKey "ResourceRecords"])%list (VStr s) r /\ record_fault ipv6 r ty s words /\ m = mkRM r words) \/
       (ty = "CNAME" /\ exists l, x = VList l /\ 1 < List.length l /\ m = mkRM (p ++ [PKey "ResourceRecords"])%list "A CNAME recordset can only contain 1 value")).
Proof.
  intros Hw Hg Hs Hu. destruct (sets_say ipv6 order c globals t Hw Hs (fun x q m => exists l, x = VList l /\ 1 < List.length l /\ m = mkRM q "A CNAME recordset can only contain 1 value")) as [ms [E Hms]].
  - intros d p x Hr Hx. now apply (count_plain order c t globals d p x).
  - exists ms. split; [exact E|]. intros m. rewrite Hms. unfold set_fault. split.
    + intros [d [p [Hr [ty [x [Hx K]]]]]]. exists d, p, ty, x. auto.
    + intros [d [p [ty [x [Hr [Hx K]]]]]]. exists d, p. split; [exact Hr|]. exists ty, x. auto.
Qed.
Lemma c77_names template globals p v hash order defs parameters names w0 b0 :
  wf template -> wf globals -> at_path p template = Some v -> plain_path p -> at_path p globals = None -> tidy v -> is_dict v || is_list v = true -> v <> no_value ->
  (forall v, digest (hash v)) -> (forall l, Permutation (order l) l) ->
  section_of "Conditions" template defs -> section_of "Parameters" template parameters ->
  NoDup (keys defs) -> (forall n v, In (n, v) defs -> well_formed defs v) ->
  NoDup (keys parameters) -> (forall n p, In (n, p) parameters -> plain_parameter p) -> told_apart hash parameters ->
  NoDup names -> names <> [] -> (forall n, In n names <-> rests_on v n) -> (forall n, In n names -> In n (keys defs)) ->
  (List.length names <= 4 \/ some_related defs names) -> deployment hash parameters w0 -> gives defs w0 names b0 ->
  (forall b r, deep (known names b) v r -> exists l, r = Some (VList l)) ->
  exists limit, forall fuel, limit <= fuel ->
  exists ms, count_names order (load hash fuel template) template globals v p = Ok ms /\
    (forall m, In m ms -> exists b sc l, Permutation sc (scenario_of names b) /\ deep (known names b) v (Some (VList l)) /\ 1 < List.length l /\
      m = mkRM p ("A CNAME recordset can only contain 1 value " ++ scenario_text sc ++ " at " ++ path_text p) /\
      ((some_related defs names \/ forall n, In n names -> exists w, deployment hash parameters w /\ gives defs w [n] b) ->
       exists w, deployment hash parameters w /\ gives defs w names b)) /\
    (forall w b l, deployment hash parameters w -> gives defs w names b -> deep (known names b) v (Some (VList l)) -> 1 < List.length l ->
      exists sc, Permutation sc (scenario_of names b) /\ In (mkRM p ("A CNAME recordset can only contain 1 value " ++ scenario_text sc ++ " at " ++ path_text p)) ms).
Proof.
  intros Hw Hg Hat Hpl Hgp Ht Hv Hnv Hh Ho Hc Hps Hcn Hcw Hpn Hpp Hta Hnd Hne Hn Hdef Hsz Hw0 Hg0 Hlist.
  destruct (nested_both template globals p v Hw Hg Hat Hpl Hgp Ht Hv Hnv hash order defs parameters names w0 b0) as [limit Hlim]; auto.
  exists limit. intros fuel Hf. destruct (Hlim fuel Hf) as [out [E [Hreal Hfound]]]. unfold count_names. rewrite E. cbn [bind].
  assert (S : says (concat_res (fun so : option scenario * val => do n <- py_len (snd so); Ok (if Z.ltb 1 n then [mkRM p (match fst so with None => "A CNAME recordset can only contain 1 value" | Some sc => "A CNAME recordset can only contain 1 value " ++ scenario_text sc ++ " at " ++ path_text p end)] else [])) out)
    (fun m => exists so, In so out /\ exists sc l, so = (Some sc, VList l) /\ 1 < List.length l /\ m = mkRM p ("A CNAME recordset can only contain 1 value " ++ scenario_text sc ++ " at " ++ path_text p))).
  { apply says_concat. intros [s o] Hi. destruct (Hreal s o Hi) as [sc [b [r [-> [_ [Hd [-> _]]]]]]]. destruct (Hlist b r Hd) as [l ->]. cbn [snd fst left_over py_len bind].
    destruct (Z.ltb_spec 1 (Z.of_nat (List.length l))) as [Hl|Hl].
    - eapply says_ext; [apply says_one|]. intros m. split; [intros ->; exists sc, l; split; [reflexivity|]; split; [lia | reflexivity]|]. intros [sc' [l' [[= <- <-] [_ ->]]]]. reflexivity.
    - eapply says_ext; [apply says_none|]. intros m. split; [intros []|]. intros [sc' [l' [[= <- <-] [K _]]]]. lia. }
  destruct S as [ms [Ems Hms]]. exists ms. split; [exact Ems|]. split.
  - intros m Hm. apply Hms in Hm as [so [Hi [sc [l [-> [Hl ->]]]]]]. destruct (Hreal _ _ Hi) as [sc' [b [r [[= <-] [Hp [Hd [Er Hx]]]]]]]. destruct (Hlist b r Hd) as [l' ->]. cbn [left_over] in Er. injection Er as <-. exists b, sc, l. auto 8.
  - intros w b l Hdw Hgv Hd Hl. destruct (Hfound w b _ Hdw Hgv Hd) as [sc [Hi Hp]]. exists sc. split; [exact Hp|]. apply Hms. exists (Some sc, VList l). split; [exact Hi|]. exists sc, l. auto.
Qed.
Lemma c77_run ipv6 hash order fuel globals sp k c raw m0 d0 d p ty x s r words :
  let rule := recordset_rule ipv6 hash order fuel globals in
  snd (coll_run sp k c) = Ok raw -> In rule (k_all k) -> enabled (k_set k) rule = true -> c_tmpl c = MDict m0 d0 -> wf (template c) -> wf globals ->
  records_shaped (template c) -> unconditional_names (template c) globals ->
  record_set (template c) d p -> records_of d ty x -> single x (p ++ [PKey "ResourceRecords"])%list (VStr s) r -> record_fault ipv6 r ty s words ->
  exists f, locate_match c "E3020" (mkRM r words) = Ok f /\ In f raw.
Proof.
  intros rule Hrun Hr He Hc Hw Hg Hs Hu Hset Hx Hsg Hf. destruct (c77_records ipv6 order (load hash fuel (template c)) globals (template c) Hw Hg Hs Hu) as [ms [Eo Ho]].
  apply (reported_match_at sp k c raw rule _ ms _ m0 d0 Hrun Hr He eq_refl Hc Eo).
  - intros m Hm. apply Ho in Hm as [d' [p' [ty' [x' [Hset' [Hx' [[s' [r' [w' [Hsg' [_ ->]]]]]|[_ [l [_ [_ ->]]]]]]]]]]]; cbn [rm_path].
    + split; [apply (single_nonempty _ _ _ _ Hsg'); intros K; apply app_eq_nil in K as [_ [=]]|]. exists (VStr s'). apply (single_at _ _ _ _ _ Hsg'). eapply records_at; eassumption.
    + split; [intros K; apply app_eq_nil in K as [_ [=]]|]. exists x'. eapply records_at; eassumption.
  - apply Ho. exists d, p, ty, x. split; [exact Hset|]. split; [exact Hx|]. left. exists s, r, words. auto.
Qed.
