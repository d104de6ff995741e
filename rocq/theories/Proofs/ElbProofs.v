(** C76: the checks of listeners and load balancers. *)
From Coq Require Import List Permutation Lia Ascii.
From Verif.Model Require Import Base Helpers Locate Node Conditions Search Resolve Rules Refs Relationship PropertyRules SubProps Elb.
From Verif.Spec Require Import Paths Branches References Walk Required Values Permissions Truth Resolved Groups SubProps Nested.
From Verif.Proofs Require Import BaseFacts SearchProofs PropertyRuleProofs GroupProofs ValueProofs Says Places MatchRun PermissionProofs ValueRun SubPropsProofs SizeProofs ResolveProofs NestedProofs DeepProofs.
Import Verif.Model.Rules.
Import ListNotations.
Local Open Scope string_scope.

(** * Listeners *)
Lemma small_letter a : (exists n, 97 <= n <= 122 /\ a = ascii_of_nat n /\ upper_char a = ascii_of_nat (n - 32)) \/ ((forall n, 97 <= n <= 122 -> a <> ascii_of_nat n) /\ upper_char a = a).
Proof.
  pose proof (ascii_nat_embedding a) as Ha. unfold upper_char, is_lower, in_range, code.
  destruct (PeanoNat.Nat.leb 97 (nat_of_ascii a) && PeanoNat.Nat.leb (nat_of_ascii a) 122) eqn:E.
  - left. apply andb_true_iff in E as [E1 E2]. apply PeanoNat.Nat.leb_le in E1, E2. exists (nat_of_ascii a). rewrite Ha. auto.
  - right. split; [|reflexivity]. intros n Hn ->. rewrite nat_ascii_embedding in E by lia. apply andb_false_iff in E as [E|E]; apply PeanoNat.Nat.leb_gt in E; lia.
Qed.
Lemma spelled_iff s : forall u, spelled s u <-> upper s = u.
Proof.
  induction s as [|a s IH]; intros u; cbn [upper map_str].
  - split; [intros H; inversion H; reflexivity | intros <-; constructor].
  - fold (upper s). split.
    + intros H. inversion H as [|a' s' u' Ha Hs|n s' u' Hn Hs]; subst; apply IH in Hs; subst u'.
      * destruct (small_letter a) as [[n [Hn [E _]]]|[_ E]]; [now elim (Ha n Hn) | now rewrite E].
      * destruct (small_letter (ascii_of_nat n)) as [[n' [Hn' [E1 E2]]]|[K _]]; [|now elim (K n Hn)]. rewrite E2. f_equal. f_equal. f_equal.
        apply (f_equal nat_of_ascii) in E1. rewrite !nat_ascii_embedding in E1 by lia. lia.
    + intros <-. destruct (small_letter a) as [[n [Hn [-> E2]]]|[Ha E]]; [rewrite E2; constructor; [exact Hn|]; now apply IH | rewrite E; constructor; [exact Ha|]; now apply IH].
Qed.
Definition certified_by (d : list (string * val)) (cert : string) : bool := match assoc cert d with Some x => truthy x | None => false end.
Lemma protocol_says known secure cv v p : says (check_protocol known secure cv v p) (fun m => exists s words, v = VStr s /\ protocol_fault known secure (truthy cv) s words /\ m = mkRM p (words ++ path_text p)).
Proof.
  unfold check_protocol. destruct v as [| | | |s| |]; try (eapply says_ext; [apply says_none|]; intros m; split; [intros [] | intros [s [words [[=] _]]]]).
  destruct (smem (upper s) known) eqn:Ek; cbn [negb].
  - assert (Hin : In (upper s) known) by now apply smem_iff. eapply says_ext; [apply says_if|]. intros m. split.
    + intros [E ->]. apply andb_true_iff in E as [E1 E2]. apply smem_iff in E1. apply negb_true_iff in E2. exists s. eexists. split; [reflexivity|]. split; [eapply pf_bare; eauto; now apply spelled_iff | reflexivity].
    + intros [s' [words [[= <-] [Hf ->]]]]. destruct Hf as [Hu|u Hu1 Hu2 Hsp Hc]; [elim (Hu _ Hin); now apply spelled_iff|]. apply spelled_iff in Hsp. subst u. split; [|reflexivity].
      rewrite Hc. apply smem_iff in Hu2. now rewrite Hu2.
  - assert (Hni : ~ In (upper s) known) by (intros K; apply smem_iff in K; congruence). eapply says_ext; [apply says_one|]. intros m. split.
    + intros ->. exists s. eexists. split; [reflexivity|]. split; [apply pf_unknown; intros u Hu Hs; apply spelled_iff in Hs; now subst u|]. apply f_equal. rewrite (append_assoc "Protocol must be "). apply f_equal. rewrite (append_assoc (String.concat ", " known)). now rewrite (concat_join ", " known).
    + intros [s' [words [[= <-] [Hf ->]]]]. destruct Hf as [Hu|u Hu1 Hu2 Hsp Hc]; [|apply spelled_iff in Hsp; now subst u]. apply f_equal. rewrite (append_assoc "Protocol must be "). apply f_equal. rewrite (append_assoc (String.concat ", " known)). now rewrite (concat_join ", " known).
Qed.
Lemma listener_says known secure cert d p : (forall x q, assoc "Protocol" d = Some x -> ~ alternative x (p ++ [PKey "Protocol"])%list VNull q) ->
  says (check_listener known secure cert p (VDict d)) (fun m => exists x s r words, assoc "Protocol" d = Some x /\ single x (p ++ [PKey "Protocol"])%list (VStr s) r /\
    protocol_fault known secure (certified_by d cert) s words /\ m = mkRM r (words ++ path_text r)).
Proof.
  intros Hn. unfold check_listener. cbn [vget bind].
  eapply says_ext; [apply value_says with (P := fun v r m => exists s words, v = VStr s /\ protocol_fault known secure (certified_by d cert) s words /\ m = mkRM r (words ++ path_text r))|].
  - intros x Hx. split; [intros q; now apply Hn|]. intros w r _ _. replace (certified_by d cert) with (truthy (match assoc cert d with Some x => x | None => VNull end)) by (unfold certified_by; now destruct (assoc cert d)). apply protocol_says.
  - intros m. split.
    + intros [x [w [r [Hx [Hs [_ [s [words [-> [Hf ->]]]]]]]]]]. exists x, s, r, words. auto.
    + intros [x [s [r [words [Hx [Hs [Hf ->]]]]]]]. exists x, (VStr s), r. split; [exact Hx|]. split; [exact Hs|]. split; [intros [fn [a [E _]]]; discriminate E|]. exists s, words. auto.
Qed.
Lemma c76_listeners t : wf t -> listeners_shaped t ->
  exists ms, listeners_match t = Ok ms /\
    forall m, In m ms <-> exists d p known secure cert x s r words, listener t d p known secure cert /\ assoc "Protocol" d = Some x /\ single x (p ++ [PKey "Protocol"])%list (VStr s) r /\
      protocol_fault known secure (match assoc cert d with Some y => truthy y | None => false end) s words /\ m = mkRM r (words ++ path_text r).
Proof.
  intros Hw [Hs1 [Hs2 Hs3]]. unfold listeners_match.
  set (known1 := ["GENEVE"; "HTTP"; "HTTPS"; "TCP"; "TCP_UDP"; "TLS"; "UDP"]). set (secure1 := ["HTTPS"; "TLS"]). set (known2 := ["HTTP"; "HTTPS"; "TCP"; "SSL"]). set (secure2 := ["HTTPS"; "SSL"]).
  set (judged_ := fun known secure cert d p (m : rulematch) => exists x s r words, assoc "Protocol" d = Some x /\ single x (p ++ [PKey "Protocol"])%list (VStr s) r /\
    protocol_fault known secure (certified_by d cert) s words /\ m = mkRM r (words ++ path_text r)).
  assert (H1 : says (do l <- get_resource_properties "AWS::ElasticLoadBalancingV2::Listener" [] t; concat_res (fun pv => check_listener known1 secure1 "Certificates" (fst pv) (snd pv)) l)
    (fun m => exists name attrs d, resource_of t name "AWS::ElasticLoadBalancingV2::Listener" attrs /\ assoc "Properties" attrs = Some (VDict d) /\ judged_ known1 secure1 "Certificates" d [PKey "Resources"; PKey name; PKey "Properties"] m)).
  { assert (Hg : says (get_resource_properties "AWS::ElasticLoadBalancingV2::Listener" [] t) (fun qx => exists name attrs d, resource_of t name "AWS::ElasticLoadBalancingV2::Listener" attrs /\
       assoc "Properties" attrs = Some (VDict d) /\ d <> [] /\ qx = ([PKey "Resources"; PKey name; PKey "Properties"], VDict d))).
    { eapply says_ext; [apply says_concat with (P := fun nr qx => exists attrs d, snd nr = VDict attrs /\ assoc "Properties" attrs = Some (VDict d) /\ d <> [] /\ qx = ([PKey "Resources"; PKey (fst nr); PKey "Properties"], VDict d))|].
      - intros [name x] Hi. cbn [fst snd]. apply in_resources_of in Hi as [rt [attrs [[<-|[]] [-> Hres]]]]; [|exact Hw]. cbn [vget bind]. destruct (Hs1 _ _ Hres) as [E|[d E]]; rewrite E; cbn [bind].
        + eapply says_ext; [apply says_none|]. intros qx. split; [intros []|]. intros [a [d [[= <-] [E' _]]]]. congruence.
        + destruct d as [|kx d]; cbn [truthy].
          * eapply says_ext; [apply says_none|]. intros qx. split; [intros []|]. intros [a [d [[= <-] [E' [K _]]]]]. rewrite E in E'. injection E' as <-. now elim K.
          * cbn [sub_properties]. eapply says_ext; [apply says_one|]. intros qx. split; [intros ->; exists attrs, (kx :: d); split; [reflexivity|]; split; [exact E|]; split; [discriminate | reflexivity]|].
            intros [a [d' [[= <-] [E' [_ ->]]]]]. rewrite E in E'. injection E' as <-. reflexivity.
      - intros qx. split.
        + intros [[name x] [Hi [attrs [d [E K]]]]]. cbn [fst snd] in *. subst x. apply in_resources_of in Hi as [rt [attrs' [[<-|[]] [[= <-] Hres]]]]; [|exact Hw]. exists name, attrs, d. tauto.
        + intros [name [attrs [d [Hres K]]]]. exists (name, VDict attrs). split; [apply in_resources_of; [exact Hw|]; exists "AWS::ElasticLoadBalancingV2::Listener", attrs; split; [now left | auto]|]. exists attrs, d. tauto. }
    destruct Hg as [l [-> Hl]]. cbn [bind]. eapply says_ext; [apply says_concat with (P := fun qx m => exists d, snd qx = VDict d /\ judged_ known1 secure1 "Certificates" d (fst qx) m)|].
    - intros qx Hq. apply Hl in Hq as [name [attrs [d [Hres [Hp [_ ->]]]]]]. cbn [fst snd]. eapply says_ext; [apply listener_says|].
      + intros x q Hx. eapply Hs3; [eapply li_resource; eassumption | exact Hx].
      + intros m. split; [intros K; exists d; split; [reflexivity | exact K] | intros [d' [[= <-] K]]; exact K].
    - intros m. split.
      + intros [qx [Hq [d [Ed K]]]]. apply Hl in Hq as [name [attrs [d' [Hres [Hp [_ ->]]]]]]. cbn [fst snd] in *. injection Ed as <-. exists name, attrs, d'. auto.
      + intros [name [attrs [d [Hres [Hp K]]]]]. exists ([PKey "Resources"; PKey name; PKey "Properties"], VDict d). split; [apply Hl; exists name, attrs, d; split; [exact Hres|]; split; [exact Hp|]; split; [|reflexivity]|exists d; auto].
        intros ->. destruct K as [x [s [r [words [[=] _]]]]]. }
  assert (H2 : says (do l <- get_resource_properties "AWS::ElasticLoadBalancing::LoadBalancer" ["Listeners"] t;
      concat_res (fun pv => match snd pv with VList items => concat_res (fun ix => check_listener known2 secure2 "SSLCertificateId" (fst pv ++ [PIdx (fst ix)])%list (snd ix)) (enum items) | _ => Ok [] end) l)
    (fun m => exists name attrs pd l i d, resource_of t name "AWS::ElasticLoadBalancing::LoadBalancer" attrs /\ assoc "Properties" attrs = Some (VDict pd) /\ assoc "Listeners" pd = Some (VList l) /\ nth_error l i = Some (VDict d) /\
       judged_ known2 secure2 "SSLCertificateId" d [PKey "Resources"; PKey name; PKey "Properties"; PKey "Listeners"; PIdx i] m)).
  { destruct (props_found "AWS::ElasticLoadBalancing::LoadBalancer" "Listeners" t Hw) as [l [-> Hl]].
    { intros name attrs l Hres E. destruct (Hs2 _ _ Hres) as [E'|[d [E' _]]]; congruence. }
    cbn [bind]. eapply says_ext; [apply says_concat with (P := fun qx m => exists items i d, snd qx = VList items /\ nth_error items i = Some (VDict d) /\ judged_ known2 secure2 "SSLCertificateId" d (fst qx ++ [PIdx i])%list m)|].
    - intros [q x] Hq. apply Hl in Hq. cbn [fst snd] in *. destruct x as [| | | | |items|]; try (eapply says_ext; [apply says_none|]; intros m; split; [intros [] | intros [its [i [e [E _]]]]; discriminate E]).
      destruct Hq as [name [attrs [pd [Hres [Hp [Hk ->]]]]]].
      eapply says_ext; [apply says_concat with (P := fun ix m => exists d, snd ix = VDict d /\ judged_ known2 secure2 "SSLCertificateId" d [PKey "Resources"; PKey name; PKey "Properties"; PKey "Listeners"; PIdx (fst ix)] m)|].
      + intros [i y] Hi. apply enum_nth in Hi. cbn [fst snd app]. destruct (Hs2 _ _ Hres) as [E|[pd' [E Ho]]]; [congruence|]. rewrite Hp in E. injection E as <-.
        destruct (Ho _ y Hk (nth_error_In _ _ Hi)) as [d ->]. eapply says_ext; [apply listener_says|].
        * intros x q Hx. eapply Hs3; [eapply li_classic; eassumption | exact Hx].
        * intros m. split; [intros K; exists d; split; [reflexivity | exact K] | intros [d' [[= <-] K]]; exact K].
      + intros m. split.
        * intros [[i y] [Hi [d [Ed K]]]]. apply enum_nth in Hi. cbn [fst snd] in *. subst y. exists items, i, d. auto.
        * intros [its [i [d [[= <-] [Hi K]]]]]. exists (i, VDict d). split; [now apply enum_nth|]. exists d. auto.
    - intros m. split.
      + intros [[q x] [Hq [items [i [d [Ex [Hi K]]]]]]]. cbn [fst snd] in *. subst x. apply Hl in Hq as [name [attrs [pd [Hres [Hp [Hk Eq]]]]]]. cbn [fst snd] in *. subst q. exists name, attrs, pd, items, i, d. auto 8.
      + intros [name [attrs [pd [items [i [d [Hres [Hp [Hk [Hi K]]]]]]]]]]. exists ([PKey "Resources"; PKey name; PKey "Properties"; PKey "Listeners"], VList items). split; [apply Hl; exists name, attrs, pd; auto|]. exists items, i, d. auto. }
  destruct (says_app _ _ _ _ H1 H2) as [ms [E Hms]]. exists ms. split; [exact E|]. intros m. rewrite Hms. split.
  - intros [[name [attrs [d [Hres [Hp [x [s [r [words [Hx [Hsg [Hf ->]]]]]]]]]]]]|[name [attrs [pd [l [i [d [Hres [Hp [Hk [Hi [x [s [r [words [Hx [Hsg [Hf ->]]]]]]]]]]]]]]]]]].
    + do 5 eexists. exists x, s, r, words. split; [eapply li_resource; eassumption|]. auto.
    + do 5 eexists. exists x, s, r, words. split; [eapply li_classic; eassumption|]. auto.
  - intros [d [p [known [secure [cert [x [s [r [words [Hli [Hx [Hsg [Hf ->]]]]]]]]]]]]]. destruct Hli as [name attrs d Hres Hp|name attrs pd l i d Hres Hp Hk Hi].
    + left. exists name, attrs, d. split; [exact Hres|]. split; [exact Hp|]. exists x, s, r, words. auto.
    + right. exists name, attrs, pd, l, i, d. split; [exact Hres|]. split; [exact Hp|]. split; [exact Hk|]. split; [exact Hi|]. exists x, s, r, words. auto.
Qed.
Lemma listener_at t d p known secure cert : wf t -> listener t d p known secure cert -> at_path p t = Some (VDict d).
Proof.
  intros Hw [name attrs d' Hres Hp|name attrs pd l i d' Hres Hp Hk Hi].
  - destruct Hres as [top [rs [-> [Hr [Hi' Ht]]]]]. cbn [at_path]. rewrite Hr. cbn [at_path].
    assert (En : assoc name rs = Some (VDict attrs)). { apply assoc_NoDup; [|exact Hi']. apply wf_dict in Hw as [_ Hw]. apply assoc_In in Hr. apply Hw in Hr. now apply wf_dict in Hr as [Hr _]. }
    rewrite En. cbn [at_path]. now rewrite Hp.
  - change [PKey "Resources"; PKey name; PKey "Properties"; PKey "Listeners"; PIdx i] with ([PKey "Resources"; PKey name; PKey "Properties"; PKey "Listeners"] ++ [PIdx i])%list.
    rewrite at_path_app, (property_place t "AWS::ElasticLoadBalancing::LoadBalancer" "Listeners" (VList l) _ Hw); [cbn [at_path]; now rewrite Hi|]. exists name, attrs, pd. auto.
Qed.

(** * Load balancers *)
Lemma type_cases d : (balancer_type (VDict d) = Ok (Some "application") /\ balancer d "application" /\ ~ balancer d "network") \/
  (balancer_type (VDict d) = Ok (Some "network") /\ balancer d "network" /\ ~ balancer d "application") \/ (balancer_type (VDict d) = Ok None /\ forall ty, ~ balancer d ty).
Proof.
  unfold balancer_type. cbn [vget_def bind]. destruct (assoc "Type" d) as [ty|] eqn:E; cbn [bind].
  - destruct ty as [| | | |s| |]; try (right; right; split; [reflexivity|]; intros ty K; destruct K; congruence).
    destruct (String.eqb_spec s "application") as [->|Hs]; [left | right; left]; (split; [reflexivity|]; split; [solve [apply ba_application; exact E | exact (ba_network d s E Hs)]|]; intros K; inversion K; congruence).
  - left. split; [reflexivity|]. split; [now constructor|]. intros K; inversion K; congruence.
Qed.
Lemma attribute_iff ty k : ty = "application" \/ ty = "network" -> smem k (allowed_attributes ty) = true <-> attribute_of ty k.
Proof.
  intros Hty. rewrite smem_iff. unfold allowed_attributes, attribute_of. rewrite in_app_iff. destruct Hty as [->| ->]; cbn [String.eqb Ascii.eqb Bool.eqb andb]; cbv iota.
  - split; [intros [H|H]; [now left | right; left; auto] | intros [H|[[_ H]|[[=] _]]]; [now left | now right]].
  - split; [intros [H|H]; [now left | right; right; auto] | intros [H|[[[=] _]|[_ H]]]; [now left | now right]].
Qed.
Definition said (sc : option scenario) (p q : path) (words : string) : rulematch := balancer_match words p (p ++ q)%list sc.
Definition set_check (sc : option scenario) (props : val) (p : path) : res (list rulematch) :=
  do g <- check_groups props p sc; do a <- check_subnets props (snd g) sc; do b <- check_attributes props (snd g) sc; Ok (fst g ++ a ++ b)%list.
Lemma few_says key d p sc : says (check_few key (VDict d) p sc) (fun m => exists l, assoc key d = Some (VList l) /\ List.length l < 2 /\
  m = said sc p [PKey key] ("You must specify at least two " ++ key ++ " for load balancers with type ""application""")).
Proof.
  unfold check_few. cbn [vget bind]. destruct (assoc key d) as [x|]; [|eapply says_ext; [apply says_none|]; intros m; split; [intros [] | intros [l [[=] _]]]].
  destruct x as [| | | | |l|]; try (eapply says_ext; [apply says_none|]; intros m; split; [intros [] | intros [l [[=] _]]]).
  eapply says_ext; [apply says_if|]. intros m. cbv beta. rewrite PeanoNat.Nat.ltb_lt. split; [intros [H ->]; exists l; auto | intros [l' [[= <-] [H ->]]]; auto].
Qed.
Definition simple (v : val) : Prop := (exists s, v = VStr s) \/ (exists b, v = VBool b) \/ (exists z, v = VInt z).
Lemma attribute_says d p sc a : says (check_attribute (VDict d) p sc (VDict a)) (fun m => exists k v ty, assoc "Key" a = Some (VStr k) /\ assoc "Value" a = Some v /\ simple v /\ balancer d ty /\ ~ attribute_of ty k /\
  m = balancer_match ("Attribute """ ++ k ++ """ not allowed for load balancers with type """ ++ ty ++ """") p p sc).
Proof.
  unfold check_attribute. cbn [vget bind].
  destruct (assoc "Key" a) as [kv|]; [|eapply says_ext; [apply says_none|]; intros m; split; [intros [] | intros [k [v [ty [[=] _]]]]]].
  destruct kv as [| | | |k| |]; try (eapply says_ext; [apply says_none|]; intros m; split; [intros [] | intros [k' [v [ty [[=] _]]]]]).
  destruct (assoc "Value" a) as [v|]; [|eapply says_ext; [apply says_none|]; intros m; split; [intros [] | intros [k' [v' [ty [_ [[=] _]]]]]]].
  assert (Hb : simple v -> says (do ty <- balancer_type (VDict d); Ok (match ty with Some ty => if smem k (allowed_attributes ty) then [] else [balancer_match ("Attribute """ ++ k ++ """ not allowed for load balancers with type """ ++ ty ++ """") p p sc] | None => [] end))
     (fun m => exists k0 v0 ty, Some (VStr k) = Some (VStr k0) /\ Some v = Some v0 /\ simple v0 /\ balancer d ty /\ ~ attribute_of ty k0 /\ m = balancer_match ("Attribute """ ++ k0 ++ """ not allowed for load balancers with type """ ++ ty ++ """") p p sc)).
  { intros Hv. assert (Hty : forall ty, balancer d ty -> ty = "application" \/ ty = "network") by (intros ty K; destruct K; auto).
    assert (Hgo : forall ty, balancer d ty -> (forall ty', balancer d ty' -> ty' = ty) ->
      says (Ok (if smem k (allowed_attributes ty) then [] else [balancer_match ("Attribute """ ++ k ++ """ not allowed for load balancers with type """ ++ ty ++ """") p p sc]))
     (fun m => exists k0 v0 ty, Some (VStr k) = Some (VStr k0) /\ Some v = Some v0 /\ simple v0 /\ balancer d ty /\ ~ attribute_of ty k0 /\ m = balancer_match ("Attribute """ ++ k0 ++ """ not allowed for load balancers with type """ ++ ty ++ """") p p sc)).
    { intros ty Hb Hu. pose proof (attribute_iff ty k (Hty _ Hb)) as Ha. destruct (smem k (allowed_attributes ty)).
      - eapply says_ext; [apply says_none|]. intros m. split; [intros []|]. intros [k0 [v0 [ty' [[= <-] [_ [_ [Hb' [K _]]]]]]]]. apply Hu in Hb' as ->. apply K. now apply Ha.
      - eapply says_ext; [apply says_one|]. intros m. split; [intros ->; exists k, v, ty; split; [reflexivity|]; split; [reflexivity|]; split; [exact Hv|]; split; [exact Hb|]; split; [intros K; apply Ha in K; discriminate | reflexivity]|].
        intros [k0 [v0 [ty' [[= <-] [_ [_ [Hb' [_ ->]]]]]]]]. apply Hu in Hb' as ->. reflexivity. }
    destruct (type_cases d) as [[E [H1 H2]]|[[E [H1 H2]]|[E H]]]; rewrite E; cbn [bind].
    - apply Hgo; [exact H1|]. intros ty' K. destruct (Hty _ K) as [->| ->]; [reflexivity | contradiction].
    - apply Hgo; [exact H1|]. intros ty' K. destruct (Hty _ K) as [->| ->]; [contradiction | reflexivity].
    - eapply says_ext; [apply says_none|]. intros m. split; [intros []|]. intros [k0 [v0 [ty' [_ [_ [_ [K _]]]]]]]. now elim (H ty'). }
  destruct v as [|b|z|q|s|l|e]; try (apply Hb; unfold simple; eauto);
    (eapply says_ext; [apply says_none|]; intros m; split; [intros [] | intros [k' [v' [ty [_ [[= <-] [K _]]]]]]; destruct K as [[? K]|[[? K]|[? K]]]; discriminate K]).
Qed.
Lemma set_says sc d p : (sc = None \/ exists x s, sc = Some (x :: s)) -> balancer_shaped d ->
  says (set_check sc (VDict d) p) (fun m => exists q words, balancer_fault d q words /\ m = said sc p q words).
Proof.
  intros Hsc Hsh. unfold set_check.
  assert (Hg : exists g, check_groups (VDict d) p sc = Ok g /\ (forall m, In m (fst g) <-> grouped d /\ m = said sc p [PKey "SecurityGroups"] "Security groups are not supported for load balancers with type ""network""") /\
    ((~ grouped d /\ snd g = p) \/ (grouped d /\ snd g = match sc with Some (_ :: _) => p | _ => (p ++ [PKey "SecurityGroups"])%list end))).
  { unfold check_groups, grouped. destruct (type_cases d) as [[E [H1 H2]]|[[E [H1 H2]]|[E H]]]; rewrite E; cbn [bind].
    - exists ([], p). split; [reflexivity|]. cbn [fst snd]. split; [intros m; split; [intros [] | intros [[K _] _]; contradiction]|]. left. split; [intros [K _]; contradiction | reflexivity].
    - cbn [vget bind]. destruct (assoc "SecurityGroups" d) as [x|] eqn:Ex; [destruct (truthy x) eqn:Et|].
      + eexists. split; [reflexivity|]. cbn [fst snd]. split; [|right; split; [split; [exact H1 | eauto] | reflexivity]]. intros m. split; [intros [<-|[]]; split; [split; [exact H1 | eauto] | reflexivity] | intros [_ ->]; now left].
      + eexists. split; [reflexivity|]. cbn [fst snd]. split; [intros m; split; [intros [] | intros [[_ [y [[= <-] Hy]]] _]; congruence]|]. left. split; [intros [_ [y [[= <-] Hy]]]; congruence | reflexivity].
      + eexists. split; [reflexivity|]. cbn [fst snd truthy]. split; [intros m; split; [intros [] | intros [[_ [y [[=] Hy]]] _]]|]. left. split; [intros [_ [y [[=] Hy]]] | reflexivity].
    - exists ([], p). split; [reflexivity|]. cbn [fst snd]. split; [intros m; split; [intros [] | intros [[K _] _]; now apply H in K]|]. left. split; [intros [K _]; now apply H in K | reflexivity]. }
  destruct Hg as [[gm gp] [-> [Hgm Hgp]]]. cbn [bind fst snd] in *.
  assert (Hsub : says (check_subnets (VDict d) gp sc) (fun m => exists key l, balancer d "application" /\ In key ["Subnets"; "SubnetMappings"] /\ assoc key d = Some (VList l) /\ List.length l < 2 /\
     m = said sc p [PKey key] ("You must specify at least two " ++ key ++ " for load balancers with type ""application"""))).
  { unfold check_subnets. destruct (type_cases d) as [[E [H1 H2]]|[[E [H1 H2]]|[E H]]]; rewrite E; cbn [bind].
    - assert (gp = p) as -> by (destruct Hgp as [[_ K]|[[K _] _]]; [exact K | contradiction]).
      eapply says_ext; [apply says_app; apply few_says|]. intros m. split.
      + intros [[l [Hl K]]|[l [Hl K]]]; [exists "Subnets", l | exists "SubnetMappings", l]; cbn [In]; auto 8.
      + intros [key [l [_ [[<-|[<-|[]]] K]]]]; [left | right]; exists l; exact K.
    - eapply says_ext; [apply says_none|]. intros m. split; [intros [] | intros [key [l [K _]]]; contradiction].
    - eapply says_ext; [apply says_none|]. intros m. split; [intros [] | intros [key [l [K _]]]; now elim (H "application")]. }
  assert (Hat : says (check_attributes (VDict d) gp sc) (fun m => exists l a k v ty, assoc "LoadBalancerAttributes" d = Some (VList l) /\ In (VDict a) l /\ assoc "Key" a = Some (VStr k) /\ assoc "Value" a = Some v /\
     simple v /\ balancer d ty /\ ~ attribute_of ty k /\ m = balancer_match ("Attribute """ ++ k ++ """ not allowed for load balancers with type """ ++ ty ++ """") gp gp sc)).
  { unfold check_attributes. cbn [vget bind]. destruct (assoc "LoadBalancerAttributes" d) as [x|] eqn:Ex; [|eapply says_ext; [apply says_none|]; intros m; split; [intros [] | intros [l [a [k [v [ty [[=] _]]]]]]]].
    destruct x as [| | | | |l|]; try (eapply says_ext; [apply says_none|]; intros m; split; [intros [] | intros [l [a [k [v [ty [[=] _]]]]]]]).
    eapply says_ext; [apply says_concat with (P := fun x m => exists a k v ty, x = VDict a /\ assoc "Key" a = Some (VStr k) /\ assoc "Value" a = Some v /\ simple v /\ balancer d ty /\ ~ attribute_of ty k /\
      m = balancer_match ("Attribute """ ++ k ++ """ not allowed for load balancers with type """ ++ ty ++ """") gp gp sc)|].
    - intros x Hx. destruct (Hsh l x Ex Hx) as [a ->]. eapply says_ext; [apply attribute_says|]. intros m. split; [intros [k [v [ty K]]]; exists a, k, v, ty; auto | intros [a' [k [v [ty [[= <-] K]]]]]; exists k, v, ty; exact K].
    - intros m. split.
      + intros [x [Hx [a [k [v [ty [-> K]]]]]]]. exists l, a, k, v, ty. auto.
      + intros [l' [a [k [v [ty [[= <-] [Hi K]]]]]]]. exists (VDict a). split; [exact Hi|]. exists a, k, v, ty. auto. }
  destruct Hsub as [a [-> Ha]]. destruct Hat as [b [-> Hb]]. cbn [bind]. eexists. split; [reflexivity|]. intros m. rewrite !in_app_iff, Hgm, Ha, Hb. split.
  - intros [[H1 ->]|[[key [l [H1 [H2 [H3 [H4 ->]]]]]]|[l [a0 [k [v [ty [H1 [H2 [H3 [H4 [H5 [H6 [H7 ->]]]]]]]]]]]]]].
    + eexists _, _. split; [now apply bf_groups | reflexivity].
    + eexists _, _. split; [eapply bf_few; eassumption | reflexivity].
    + destruct Hgp as [[Hng ->]|[Hg Egp]].
      * eexists [], _. split; [eapply bf_attribute; eassumption|]. unfold said. now rewrite app_nil_r.
      * assert (ty = "network") as ->. { destruct Hg as [Hg _]. destruct (type_cases d) as [[_ [_ K]]|[[_ [_ K]]|[_ K]]]; [contradiction| |now elim (K "network")]. assert (Hty : ty = "application" \/ ty = "network") by (clear -H6; destruct H6; auto). destruct Hty as [->|E]; [contradiction | exact E]. }
        exists [PKey "SecurityGroups"]. eexists. split; [eapply bf_misplaced; eassumption|]. unfold said. destruct Hsc as [->|[x [s ->]]]; rewrite Egp; reflexivity.
  - intros [q [words [Hf ->]]]. destruct Hf as [Hg|key l H1 H2 H3 H4|l a0 k v ty H1 H2 H3 H4 H5 H6 H7 H8|l a0 k v H1 H2 H3 H4 H5 H6 H7].
    + left. auto.
    + right. left. exists key, l. auto.
    + right. right. destruct Hgp as [[_ ->]|[K _]]; [|contradiction]. exists l, a0, k, v, ty. unfold said. rewrite app_nil_r. auto 9.
    + right. right. destruct Hgp as [[K _]|[K Egp]]; [contradiction|]. exists l, a0, k, v, "network". destruct K as [K _]. repeat (split; [assumption|]). unfold said. destruct Hsc as [->|[x [s ->]]]; rewrite Egp; reflexivity.
Qed.
Lemma loop_says sets p (P : option scenario * val -> rulematch -> Prop) : (forall so, In so sets -> exists x s d, so = (Some (x :: s), VDict d)) -> (forall so, In so sets -> says (set_check (fst so) (snd so) p) (P so)) ->
  says (check_balancers sets p) (fun m => exists so, In so sets /\ P so m).
Proof.
  induction sets as [|[sc o] sets IH]; intros Hs Hp.
  - eapply says_ext; [apply says_none|]. intros m. split; [intros [] | intros [so [[] _]]].
  - cbn [check_balancers]. destruct (Hs _ (or_introl eq_refl)) as [x [s [d E]]]. injection E as -> ->.
    destruct (Hp _ (or_introl eq_refl)) as [o [Eo Ho]]. cbn [fst snd] in *. unfold set_check in Eo.
    assert (Hgp : forall g, check_groups (VDict d) p (Some (x :: s)) = Ok g -> snd g = p).
    { intros g. unfold check_groups. destruct (type_cases d) as [[E [H1 H2]]|[[E [H1 H2]]|[E H]]]; rewrite E; cbn [bind vget]; [intros [= <-]; reflexivity| |intros [= <-]; reflexivity].
      destruct (truthy _); intros [= <-]; reflexivity. }
    destruct (check_groups (VDict d) p (Some (x :: s))) as [g|] eqn:Eg; [|discriminate Eo]. cbn [bind] in *. rewrite (Hgp g eq_refl) in *.
    destruct (check_subnets (VDict d) p (Some (x :: s))) as [a|]; [|discriminate Eo]. cbn [bind] in *.
    destruct (check_attributes (VDict d) p (Some (x :: s))) as [b|]; [|discriminate Eo]. cbn [bind] in *. injection Eo as <-.
    destruct IH as [r [-> Hr]]; [intros so Hi; apply Hs; now right | intros so Hi; apply Hp; now right|]. cbn [bind]. eexists. split; [reflexivity|]. intros m.
    specialize (Ho m). rewrite !in_app_iff in Ho. rewrite !in_app_iff, Hr. split.
    + intros [K|[K|[K|[so [Hi K]]]]]; [| | |exists so; split; [now right | exact K]]; (eexists; split; [now left | apply Ho; tauto]).
    + intros [so [[<-|Hi] K]]; [apply Ho in K; tauto | right; right; right; eauto].
Qed.
Lemma deep_object decide d r : ~ In "Fn::If" (keys d) -> VDict d <> no_value -> deep decide (VDict d) r -> exists d', r = Some (VDict d').
Proof.
  intros Hk Hn H. remember (VDict d) as v eqn:E. destruct H as [c t e r|c t e r|c t e l|  | | | | | |d0 d' |l l']; try discriminate E; try (injection E as <-; elim Hk; now left).
  - eauto.
Qed.

Section Balancers.
Variables (template globals : val) (p : path) (d : list (string * val)).
Hypothesis Hw : wf template.
Hypothesis Hg : wf globals.
Hypothesis Hp : at_path p template = Some (VDict d).
Hypothesis Hpl : plain_path p.
Hypothesis Hgp : at_path p globals = None.
Hypothesis Ht : tidy (VDict d).
Hypothesis Hk : ~ In "Fn::If" (keys d).
Hypothesis Hnv : VDict d <> no_value.

Lemma balancer_plain order c : (forall n, ~ rests_on (VDict d) n) -> balancer_shaped d ->
  exists ms, balancer_check order c template globals (VDict d) p = Ok ms /\ forall m, In m ms <-> exists q words, balancer_fault d q words /\ m = mkRM (p ++ q)%list words.
Proof using Hw Hg Hp Hpl Hgp Ht Hk Hnv.
  intros Hno Hs. unfold balancer_check. rewrite (nested_plain template globals p (VDict d) Hw Hg Hp Hpl Hgp Ht eq_refl Hnv order c Hno). cbn [bind].
  destruct (set_says None d p (or_introl eq_refl) Hs) as [o [Eo Ho]]. exists o. split; [|exact Ho]. rewrite <- Eo. unfold set_check. cbn [check_balancers].
  match goal with |- bind ?r _ = bind ?r' _ => change r with r'; destruct r' as [g|]; cbn [bind]; [|reflexivity] end.
  match goal with |- bind ?r _ = bind ?r' _ => change r with r'; destruct r' as [x|]; cbn [bind]; [|reflexivity] end.
  match goal with |- bind ?r _ = bind ?r' _ => change r with r'; destruct r' as [y|]; cbn [bind]; [|reflexivity] end.
  now rewrite app_nil_r.
Qed.
Lemma perm_some names b sc : names <> [] -> Permutation sc (scenario_of names b) -> exists x s, sc = x :: s.
Proof. intros Hne Hpm. destruct sc as [|x s]; [|eauto]. apply Permutation_nil in Hpm. destruct names; [contradiction | discriminate]. Qed.
Lemma balancer_both hash order defs parameters names w0 b0 :
  (forall v, digest (hash v)) -> (forall l, Permutation (order l) l) ->
  section_of "Conditions" template defs -> section_of "Parameters" template parameters ->
  NoDup (keys defs) -> (forall n v, In (n, v) defs -> well_formed defs v) ->
  NoDup (keys parameters) -> (forall n p, In (n, p) parameters -> plain_parameter p) -> told_apart hash parameters ->
  NoDup names -> names <> [] -> (forall n, In n names <-> rests_on (VDict d) n) -> (forall n, In n names -> In n (keys defs)) ->
  (List.length names <= 4 \/ some_related defs names) -> deployment hash parameters w0 -> gives defs w0 names b0 ->
  (forall b d', deep (known names b) (VDict d) (Some (VDict d')) -> balancer_shaped d') ->
  exists limit, forall fuel, limit <= fuel ->
  exists ms, balancer_check order (load hash fuel template) template globals (VDict d) p = Ok ms /\
    (forall m, In m ms -> exists b sc d' q words, Permutation sc (scenario_of names b) /\ deep (known names b) (VDict d) (Some (VDict d')) /\ balancer_fault d' q words /\
      m = mkRM p (words ++ " " ++ scenario_text sc) /\
      ((some_related defs names \/ forall n, In n names -> exists w, deployment hash parameters w /\ gives defs w [n] b) ->
       exists w, deployment hash parameters w /\ gives defs w names b)) /\
    (forall w b d' q words, deployment hash parameters w -> gives defs w names b -> deep (known names b) (VDict d) (Some (VDict d')) -> balancer_fault d' q words ->
      exists sc, Permutation sc (scenario_of names b) /\ In (mkRM p (words ++ " " ++ scenario_text sc)) ms).
Proof using Hw Hg Hp Hpl Hgp Ht Hk Hnv.
  intros Hh Ho Hc Hps Hcn Hcw Hpan Hpp Hta Hnd Hne Hn Hdef Hsz Hw0 Hg0 Hsh.
  destruct (nested_both template globals p (VDict d) Hw Hg Hp Hpl Hgp Ht eq_refl Hnv hash order defs parameters names w0 b0) as [limit Hlim]; auto.
  exists limit. intros fuel Hf. destruct (Hlim fuel Hf) as [out [Eo [Hreal Hfound]]]. unfold balancer_check. rewrite Eo. cbn [bind].
  assert (Hform : forall so, In so out -> exists x s b d', so = (Some (x :: s), VDict d') /\ Permutation (x :: s) (scenario_of names b) /\ deep (known names b) (VDict d) (Some (VDict d')) /\
      ((some_related defs names \/ forall n, In n names -> exists w, deployment hash parameters w /\ gives defs w [n] b) -> exists w, deployment hash parameters w /\ gives defs w names b)).
  { intros [s o] Hi. destruct (Hreal s o Hi) as [sc [b [r [-> [Hpm [Hd [-> Hr]]]]]]]. destruct (perm_some _ _ _ Hne Hpm) as [x [s ->]]. destruct (deep_object _ _ _ Hk Hnv Hd) as [d' ->]. exists x, s, b, d'. auto. }
  destruct (loop_says out p (fun so m => exists d' q words sc, so = (Some sc, VDict d') /\ balancer_fault d' q words /\ m = mkRM p (words ++ " " ++ scenario_text sc))) as [ms [Ems Hms]].
  - intros so Hi. destruct (Hform so Hi) as [x [s [b [d' [-> _]]]]]. eauto.
  - intros so Hi. destruct (Hform so Hi) as [x [s [b [d' [-> [_ [Hd _]]]]]]]. cbn [fst snd]. eapply says_ext; [apply set_says; [right; eauto | exact (Hsh _ _ Hd)]|]. intros m. split.
    + intros [q [words [Hfa ->]]]. exists d', q, words, (x :: s). auto.
    + intros [d'' [q [words [sc [[= <- <-] [Hfa ->]]]]]]. exists q, words. auto.
  - exists ms. split; [exact Ems|]. split.
    + intros m Hm. apply Hms in Hm as [so [Hi [d' [q [words [sc [-> [Hfa ->]]]]]]]]. destruct (Hform _ Hi) as [x [s [b [d'' [E [Hpm [Hd Hr]]]]]]]. injection E as -> ->. exists b, (x :: s), d'', q, words. auto.
    + intros w b d' q words Hdw Hgv Hd Hfa. destruct (Hfound w b _ Hdw Hgv Hd) as [sc [Hi Hpm]]. cbn [left_over] in Hi. exists sc. split; [exact Hpm|]. apply Hms. exists (Some sc, VDict d'). split; [exact Hi|]. exists d', q, words, sc. auto.
Qed.
End Balancers.

(** * In a run *)
Lemma c76_listeners_run hash order fuel globals sp k c raw m0 d0 d p known secure cert x s r words :
  let rule := elb_rule hash order fuel globals in
  snd (coll_run sp k c) = Ok raw -> In rule (k_all k) -> enabled (k_set k) rule = true -> c_tmpl c = MDict m0 d0 -> wf (template c) -> listeners_shaped (template c) ->
  listener (template c) d p known secure cert -> assoc "Protocol" d = Some x -> single x (p ++ [PKey "Protocol"])%list (VStr s) r ->
  protocol_fault known secure (match assoc cert d with Some y => truthy y | None => false end) s words ->
  exists f, locate_match c "E2503" (mkRM r (words ++ path_text r)) = Ok f /\ In f raw.
Proof.
  intros rule Hrun Hr He Hc Hw Hs Hl Hx Hsg Hf. destruct (c76_listeners (template c) Hw Hs) as [ms [Eo Ho]].
  apply (reported_match_at sp k c raw rule _ ms _ m0 d0 Hrun Hr He eq_refl Hc Eo).
  - intros m Hm. apply Ho in Hm as [d' [p' [kn [se [ce [x' [s' [r' [w' [Hl' [Hx' [Hs' [_ ->]]]]]]]]]]]]]. cbn [rm_path]. split; [apply (single_nonempty _ _ _ _ Hs'); intros K; apply app_eq_nil in K as [_ [=]]|].
    exists (VStr s'). apply (single_at _ _ _ _ _ Hs'). rewrite at_path_app, (listener_at _ _ _ _ _ _ Hw Hl'). cbn [at_path]. now rewrite Hx'.
  - apply Ho. exists d, p, known, secure, cert, x, s, r, words. auto.
Qed.
Lemma fault_place d q words : balancer_fault d q words -> exists y, at_path q (VDict d) = Some y.
Proof.
  intros [[_ [x [H _]]]|key l _ _ H _|l a k v ty _ _ _ _ _ _ _ _|l a k v _ _ _ _ _ _ [_ [x [H _]]]]; cbn [at_path]; try rewrite H; eauto.
Qed.
Lemma c76_balancers_run hash order fuel globals sp k c raw m0 d0 name attrs d q words :
  let rule := elb_rule hash order fuel globals in
  snd (coll_run sp k c) = Ok raw -> In rule (k_all k) -> enabled (k_set k) rule = true -> c_tmpl c = MDict m0 d0 -> wf (template c) -> wf globals ->
  resource_of (template c) name "AWS::ElasticLoadBalancingV2::LoadBalancer" attrs -> assoc "Properties" attrs = Some (VDict d) -> ~ In name FUNCTIONS -> at_path (props_path name) globals = None ->
  tidy (VDict d) -> ~ In "Fn::If" (keys d) -> VDict d <> no_value -> (forall n, ~ rests_on (VDict d) n) -> balancer_shaped d -> balancer_fault d q words ->
  exists f, locate_match c "E2503" (mkRM (props_path name ++ q)%list words) = Ok f /\ In f raw.
Proof.
  intros rule Hrun Hr He Hc Hw Hg Hres Hp Hnf Hgp Ht Hk Hnv Hno Hs Hf. pose proof (resource_at c name _ attrs d Hw Hres Hp) as Hat.
  destruct (balancer_plain (template c) globals (props_path name) d Hw Hg Hat) with (order := order) (c := load hash fuel (template c)) as [ms [Ems Hms]]; auto.
  { intros k0 [E|[E|[E|[]]]]; injection E as <-; [intros K; cbn in K; intuition discriminate | exact Hnf | intros K; cbn in K; intuition discriminate]. }
  apply (reported_props sp k c raw rule _ name "AWS::ElasticLoadBalancingV2::LoadBalancer" attrs d ms _ m0 d0 Hrun Hr He eq_refl); auto.
  - now left.
  - intros m Hm. apply Hms in Hm as [q' [w' [Hf' ->]]]. cbn [rm_path]. split; [intros K; apply app_eq_nil in K as [[=] _]|]. rewrite at_path_app, Hat. now apply fault_place in Hf'.
  - apply Hms. exists q, words. auto.
Qed.
