(** Proofs for C40. *)
From Verif.Model Require Import Base Rules Parameters Serverless.
From Verif.Spec Require Import Paths Faults Protect Codelocal.
From Verif.Proofs Require Import BaseFacts HistoryProofs ShapeProofs WfDecide.
Local Open Scope string_scope.

Lemma set_assoc_same {A} k (v : A) d : assoc k d = Some v -> set_assoc k v d = d.
Proof.
  induction d as [|[k' v'] d IH]; cbn; [discriminate|]. destruct (String.eqb k k'); [intros [= ->]; reflexivity | intros H; now rewrite IH].
Qed.
Lemma assoc_keys {A} k (v : A) d : assoc k d = Some v -> In k (keys d).
Proof. intros H. apply assoc_In in H. unfold keys. apply in_map_iff. exists (k, v). auto. Qed.
Lemma s3_spec v : is_s3_uri v = true <-> exists rest, v = VStr ("s3://" ++ rest).
Proof.
  destruct v as [|b|z|q|s|l|d]; cbn [is_s3_uri]; try (split; [discriminate | intros [r H]; discriminate]).
  rewrite starts_rest. split; intros [r H]; exists r; congruence.
Qed.
Lemma update_spec key d : exists d', update_to_s3_uri key (VDict d) = Ok (VDict d') /\
  (forall k, k <> key -> assoc k d' = assoc k d) /\
  ((exists v, assoc key d = Some v /\ remote v /\ assoc key d' = Some v) \/ (forall v, assoc key d = Some v -> ~ remote v) /\ assoc key d' = Some (VStr "s3://bucket/value")) /\
  update_to_s3_uri key (VDict d') = Ok (VDict d').
Proof.
  unfold update_to_s3_uri. cbn [vget_def bind dict_of].
  assert (Hset : (forall v, assoc key d = Some v -> ~ remote v) ->
    (forall k, k <> key -> assoc k (set_assoc key (VStr fake_uri) d) = assoc k d) /\
    ((exists v, assoc key d = Some v /\ remote v /\ assoc key (set_assoc key (VStr fake_uri) d) = Some v) \/ (forall v, assoc key d = Some v -> ~ remote v) /\ assoc key (set_assoc key (VStr fake_uri) d) = Some (VStr "s3://bucket/value")) /\
    Ok match match assoc key (set_assoc key (VStr fake_uri) d) with Some x => x | None => VStr "." end with
       | VDict [(k, _)] => if String.eqb k "Ref" then VDict (set_assoc key (VStr fake_uri) (set_assoc key (VStr fake_uri) d)) else VDict (set_assoc key (VStr fake_uri) d)
       | VDict _ => VDict (set_assoc key (VStr fake_uri) d)
       | _ => if is_s3_uri match assoc key (set_assoc key (VStr fake_uri) d) with Some x => x | None => VStr "." end
              then VDict (set_assoc key (VStr fake_uri) d) else VDict (set_assoc key (VStr fake_uri) (set_assoc key (VStr fake_uri) d))
       end = Ok (VDict (set_assoc key (VStr fake_uri) d))).
  { intros H. split; [intros k Hk; now apply assoc_set_other|]. rewrite assoc_set_same. split; [right; auto|]. reflexivity. }
  destruct (assoc key d) as [v|] eqn:E.
  2: { exists (set_assoc key (VStr fake_uri) d). split; [reflexivity|]. apply Hset. discriminate. }
  assert (Hkeep : remote v -> (forall k, k <> key -> assoc k d = assoc k d) /\ ((exists w, Some v = Some w /\ remote w /\ assoc key d = Some w) \/ (forall w, Some v = Some w -> ~ remote w) /\ assoc key d = Some (VStr "s3://bucket/value"))).
  { intros H. split; [reflexivity|]. left. exists v. auto. }
  assert (Hn : ~ remote v -> forall w, Some v = Some w -> ~ remote w) by (intros H w [= <-]; exact H).
  destruct v as [|b|z|q|s|l|e].
  1-4,6: exists (set_assoc key (VStr fake_uri) d); split; [reflexivity|]; apply Hset, Hn; intros [[r H]|[r [H _]]]; discriminate.
  - destruct (is_s3_uri (VStr s)) eqn:Es.
    + exists d. split; [reflexivity|]. destruct (Hkeep (or_introl (proj1 (s3_spec _) Es))) as [K1 K2]. split; [exact K1|]. split; [exact K2|]. rewrite E, Es. reflexivity.
    + exists (set_assoc key (VStr fake_uri) d). split; [reflexivity|]. apply Hset, Hn. intros [[r H]|[r [H _]]]; [|discriminate].
      assert (is_s3_uri (VStr s) = true) by (apply s3_spec; eauto). congruence.
  - assert (Hobj : (forall r, e <> [("Ref", r)]) -> match e with [(k, _)] => if String.eqb k "Ref" then VDict (set_assoc key (VStr fake_uri) d) else VDict d | _ => VDict d end = VDict d).
    { intros H. destruct e as [|[k r] [|y e]]; try reflexivity. destruct (String.eqb_spec k "Ref") as [->|]; [exfalso; now apply (H r) | reflexivity]. }
    assert (Hdec : (exists r, e = [("Ref", r)]) \/ forall r, e <> [("Ref", r)]).
    { destruct e as [|[k r] [|y e]]; try (right; intros r0 Hx; discriminate Hx). destruct (String.eqb_spec k "Ref") as [->|Hk]; [left; eauto | right; intros r0 Hx; congruence]. }
    destruct Hdec as [[r ->]|Hr].
    + exists (set_assoc key (VStr fake_uri) d). split; [reflexivity|]. apply Hset, Hn. intros [[x H]|[x [[= <-] H]]]; [discriminate | now apply (H r)].
    + exists d. rewrite E. cbn [bind]. rewrite (Hobj Hr). split; [reflexivity|]. destruct (Hkeep (or_intror (ex_intro _ e (conj eq_refl Hr)))) as [K1 K2]. rewrite E in K2. auto.
Qed.
Lemma given_truthy k d : truthy (match assoc k d with Some x => x | None => VNull end) = true <-> given d k.
Proof.
  unfold given. destruct (assoc k d) as [v|]; [rewrite truthy_not; split; [eauto | intros [w [[= <-] H]]; exact H]|]. split; [discriminate | intros [w [H _]]; discriminate].
Qed.
Lemma given_truthy_not k d : truthy (match assoc k d with Some x => x | None => VNull end) = false <-> ~ given d k.
Proof. rewrite <- given_truthy. destruct (truthy _); split; congruence. Qed.
Lemma alias_same template template' a : vget "Parameters" template' = vget "Parameters" template -> alias_names template' a = alias_names template a.
Proof. intros H. unfold alias_names. now rewrite H. Qed.
Ltac not_location := let H := fresh in intros H; inversion H; subst; try contradiction; try congruence; try discriminate.
Lemma properties_spec template template' t ps r : vget "Parameters" template' = vget "Parameters" template ->
  replace_properties template (VStr t) ps = Ok r ->
  (~ In t serverless_types /\ r = (ps, []) \/
   In t serverless_types /\ exists d d', ps = VDict d /\ fst r = VDict d' /\ forall k, property_after d t k (assoc k d')) /\
  replace_properties template' (VStr t) (fst r) = Ok r.
Proof.
  intros Hp. unfold replace_properties. cbn [eq_str].
  destruct (String.eqb_spec "AWS::Serverless::Function" t) as [<-|N1].
  { destruct ps as [|b|z|q|s|l|d]; try discriminate. destruct (update_spec "CodeUri" d) as [d' [E1 [K1 [K2 E2]]]]. rewrite E1. cbn [bind vget]. intros H.
    destruct (alias_names template _) as [names|] eqn:Ea; [|discriminate]. cbn [bind] in H. injection H as <-. cbn [fst]. rewrite E2. cbn [bind vget]. rewrite (alias_same _ _ _ Hp), Ea. cbn [bind]. split; [|reflexivity].
    right. split; [now left|]. exists d, d'. split; [reflexivity|]. split; [reflexivity|]. intros k. destruct (String.eqb_spec k "CodeUri") as [->|Hk].
    - destruct K2 as [[v [H1 [H2 ->]]]|[H1 ->]]; [apply pa_remote | apply pa_local]; auto; constructor.
    - rewrite (K1 k Hk). apply pa_same; [not_location | discriminate | discriminate]. }
  destruct (String.eqb_spec "AWS::Serverless::LayerVersion" t) as [<-|N2].
  { destruct ps as [|b|z|q|s|l|d]; try discriminate. cbn [vget bind]. destruct (truthy _) eqn:Et.
    - destruct (update_spec "ContentUri" d) as [d' [E1 [K1 [K2 E2]]]]. rewrite E1. cbn [bind]. intros [= <-]. cbn [fst bind]. apply given_truthy in Et. split.
      + right. split; [right; now left|]. exists d, d'. split; [reflexivity|]. split; [reflexivity|]. intros k. destruct (String.eqb_spec k "ContentUri") as [->|Hk].
        * destruct K2 as [[v [H1 [H2 ->]]]|[H1 ->]]; [apply pa_remote | apply pa_local]; auto; now constructor.
        * rewrite (K1 k Hk). apply pa_same; [not_location | discriminate | discriminate].
      + assert (Et' : truthy (match assoc "ContentUri" d' with Some x => x | None => VNull end) = true).
        { destruct K2 as [[v [H1 [H2 ->]]]|[_ ->]]; [|reflexivity]. apply truthy_not. destruct Et as [w [H3 H4]]. rewrite H1 in H3. now injection H3 as ->. }
        cbn [vget bind]. rewrite Et'. cbn [bind]. rewrite E2. reflexivity.
    - intros [= <-]. cbn [fst vget bind]. rewrite Et. split; [|reflexivity]. apply given_truthy_not in Et. right. split; [right; now left|]. exists d, d. split; [reflexivity|]. split; [reflexivity|].
      intros k. apply pa_same; [not_location | discriminate | discriminate]. }
  destruct (String.eqb_spec "AWS::Serverless::Application" t) as [<-|N3].
  { destruct ps as [|b|z|q|s|l|d]; try discriminate. cbn [vget bind set_item]. destruct (truthy _) eqn:Et.
    - destruct (update_spec "Location" (set_assoc "Location" (VStr "") d)) as [d' [E1 [K1 [K2 E2]]]]. rewrite E1. cbn [bind]. intros [= <-]. cbn [fst bind]. apply given_truthy in Et.
      assert (El : assoc "Location" d' = Some (VStr "s3://bucket/value")).
      { destruct K2 as [[v [H1 [H2 _]]]|[_ ->]]; [|reflexivity]. rewrite assoc_set_same in H1. injection H1 as <-. destruct H2 as [[x H2]|[x [H2 _]]]; discriminate. }
      assert (Ed : update_to_s3_uri "Location" (VDict (set_assoc "Location" (VStr "") d)) = Ok (VDict (set_assoc "Location" (VStr fake_uri) (set_assoc "Location" (VStr "") d)))).
      { unfold update_to_s3_uri. cbn [vget_def bind dict_of]. rewrite assoc_set_same. reflexivity. }
      rewrite Ed in E1. injection E1 as Ed'.
      assert (Htwice : forall a b c (d : list (string * val)), set_assoc a b (set_assoc a c d) = set_assoc a b d).
      { intros a b c d0. induction d0 as [|[k v] d0 IH]; cbn; [now rewrite String.eqb_refl|]. destruct (String.eqb a k) eqn:Ek; cbn; rewrite Ek; [reflexivity | now rewrite IH]. }
      split.
      + right. split; [do 4 right; now left|]. exists d, d'. split; [reflexivity|]. split; [reflexivity|]. intros k. destruct (String.eqb_spec k "Location") as [->|Hk].
        * rewrite El. apply pa_application; auto.
        * rewrite (K1 k Hk), assoc_set_other by exact Hk. apply pa_same; [not_location | congruence | discriminate].
      + cbn [vget bind]. rewrite El. cbn [truthy bind String.eqb]. cbn [bind]. change (match "s3://bucket/value" with "" => false | _ => true end) with true. cbn [bind].
        assert (E : update_to_s3_uri "Location" (VDict (set_assoc "Location" (VStr "") d')) = Ok (VDict d')).
        { unfold update_to_s3_uri. cbn [vget_def bind dict_of]. rewrite assoc_set_same. cbn. rewrite Htwice. f_equal. f_equal. now apply set_assoc_same. }
        cbn [set_item bind]. rewrite E. reflexivity.
    - intros [= <-]. cbn [fst vget bind]. rewrite Et. split; [|reflexivity]. apply given_truthy_not in Et. right. split; [do 4 right; now left|]. exists d, d. split; [reflexivity|]. split; [reflexivity|].
      intros k. apply pa_same; [not_location | intros _ -> ; exact Et | discriminate]. }
  destruct (String.eqb_spec "AWS::Serverless::Api" t) as [<-|N4].
  { destruct ps as [|b|z|q|s|l|d]; try discriminate.
    - cbn [py_member bind]. destruct (_ || _ || _); [discriminate|]. discriminate.
    - cbn [py_member bind]. destruct (_ || _ || _); [discriminate|]. discriminate.
    - cbn [py_member bind]. destruct (mem_assoc "DefinitionBody" d || mem_assoc "Auth" d || mem_assoc "Cors" d) eqn:Em.
      + cbn [set_item bind]. intros [= <-]. cbn [fst bind py_member]. assert (Hm : mem_assoc "DefinitionBody" (set_assoc "DefinitionBody" (VStr "") d) = true) by (unfold mem_assoc; now rewrite assoc_set_same).
        rewrite Hm. cbn [orb bind set_item]. rewrite (set_assoc_same "DefinitionBody" (VStr "") (set_assoc "DefinitionBody" (VStr "") d)) by apply assoc_set_same. split; [|reflexivity].
        right. split; [do 3 right; now left|]. do 2 eexists. split; [reflexivity|]. split; [reflexivity|].
        assert (Hor : assoc "DefinitionBody" d <> None \/ assoc "Auth" d <> None \/ assoc "Cors" d <> None).
        { unfold mem_assoc in Em. destruct (assoc "DefinitionBody" d); [left; discriminate|]. destruct (assoc "Auth" d); [right; left; discriminate|]. destruct (assoc "Cors" d); [right; right; discriminate | discriminate]. }
        intros k. destruct (String.eqb_spec k "DefinitionBody") as [->|Hk].
        * rewrite assoc_set_same. apply pa_body; auto.
        * rewrite assoc_set_other by exact Hk. apply pa_same; [not_location; tauto | discriminate | congruence].
      + destruct (update_spec "DefinitionUri" d) as [d' [E1 [K1 [K2 E2]]]]. rewrite E1. cbn [bind]. intros [= <-]. cbn [fst bind py_member].
        assert (Hno : assoc "DefinitionBody" d = None /\ assoc "Auth" d = None /\ assoc "Cors" d = None).
        { unfold mem_assoc in Em. destruct (assoc "DefinitionBody" d); [discriminate|]. destruct (assoc "Auth" d); [discriminate|]. destruct (assoc "Cors" d); [discriminate | auto]. }
        destruct Hno as [G1 [G2 G3]]. split.
        * right. split; [do 3 right; now left|]. exists d, d'. split; [reflexivity|]. split; [reflexivity|]. intros k. destruct (String.eqb_spec k "DefinitionUri") as [->|Hk].
          -- destruct K2 as [[v [H1 [H2 ->]]]|[H1 ->]]; [apply pa_remote | apply pa_local]; auto; now constructor.
          -- rewrite (K1 k Hk). apply pa_same; [not_location | discriminate | auto].
        * unfold mem_assoc. rewrite !K1 by discriminate. rewrite G1, G2, G3. cbn [orb bind]. rewrite E2. reflexivity. }
  destruct (String.eqb_spec "AWS::Serverless::StateMachine" t) as [<-|N5].
  { destruct ps as [|b|z|q|s|l|d]; try discriminate. cbn [vget bind]. destruct (truthy _) eqn:Et.
    - destruct (update_spec "DefinitionUri" d) as [d' [E1 [K1 [K2 E2]]]]. rewrite E1. cbn [bind]. intros [= <-]. cbn [fst bind]. apply given_truthy in Et. split.
      + right. split; [right; right; now left|]. exists d, d'. split; [reflexivity|]. split; [reflexivity|]. intros k. destruct (String.eqb_spec k "DefinitionUri") as [->|Hk].
        * destruct K2 as [[v [H1 [H2 ->]]]|[H1 ->]]; [apply pa_remote | apply pa_local]; auto; now constructor.
        * rewrite (K1 k Hk). apply pa_same; [not_location | discriminate | discriminate].
      + assert (Et' : truthy (match assoc "DefinitionUri" d' with Some x => x | None => VNull end) = true).
        { destruct K2 as [[v [H1 [H2 ->]]]|[_ ->]]; [|reflexivity]. apply truthy_not. destruct Et as [w [H3 H4]]. rewrite H1 in H3. now injection H3 as ->. }
        cbn [vget bind]. rewrite Et'. cbn [bind]. rewrite E2. reflexivity.
    - intros [= <-]. cbn [fst vget bind]. rewrite Et. split; [|reflexivity]. apply given_truthy_not in Et. right. split; [right; right; now left|]. exists d, d. split; [reflexivity|]. split; [reflexivity|].
      intros k. apply pa_same; [not_location | discriminate | discriminate]. }
  intros [= <-]. cbn [fst]. split; [|reflexivity]. left. split; [|reflexivity]. intros [H|[H|[H|[H|[H|[]]]]]]; congruence.
Qed.
Lemma properties_other template v ps : (forall t, v <> VStr t) -> replace_properties template v ps = Ok (ps, []).
Proof. intros H. destruct v as [|b|z|q|s|l|d]; try reflexivity. exfalso. now apply (H s). Qed.
Lemma resource_spec template template' x r : vget "Parameters" template' = vget "Parameters" template -> replace_resource template x = Ok r ->
  (exists o o', x = VDict o /\ fst r = VDict o' /\ resource_after o o') /\ replace_resource template' (fst r) = Ok r.
Proof.
  intros Hp. unfold replace_resource. destruct x as [|b|z|q|s|l|o]; try discriminate. cbn [vget bind dict_of].
  remember (match assoc "Type" o with Some x => x | None => VNull end) as t eqn:Et. remember (match assoc "Properties" o with Some x => x | None => VNull end) as ps eqn:Eps.
  destruct (replace_properties template t ps) as [[ps' names]|] eqn:Er; [|discriminate]. cbn [bind fst snd]. intros [= <-]. cbn [fst].
  assert (Hidem : replace_properties template' t ps' = Ok (ps', names)).
  { destruct t as [|b|z|q|s|l|d]; try (rewrite properties_other in Er |- * by discriminate; injection Er as <- <-; reflexivity). exact (proj2 (properties_spec _ _ _ _ _ Hp Er)). }
  destruct (mem_assoc "Properties" o) eqn:Em.
  - unfold mem_assoc in Em. destruct (assoc "Properties" o) as [v|] eqn:Ev; [|discriminate]. subst ps. split.
    + exists o, (set_assoc "Properties" ps' o). split; [reflexivity|]. split; [reflexivity|]. split; [apply keys_set_existing; eapply assoc_keys; eauto|]. split; [intros k Hk; now apply assoc_set_other|].
      intros w Hw. assert (w = v) by congruence. subst w. clear Hw. exists ps'. split; [apply assoc_set_same|]. destruct (assoc "Type" o) as [tv|] eqn:Etv.
      2: { subst t. left. split; [discriminate|]. rewrite properties_other in Er by discriminate. now injection Er as <- _. }
      subst tv. destruct t as [|b|z|q|s|l|d]; try (rewrite properties_other in Er by discriminate; injection Er as <- <-; left; split; [intros t _; discriminate | reflexivity]).
      destruct (properties_spec _ _ _ _ _ Hp Er) as [[[Hn [= -> ->]]|[Hn [d [d' [-> [Ed Hk]]]]]] _].
      * left. split; [intros t Ht [= ->]; contradiction | reflexivity].
      * right. exists s, d, d'. cbn [fst] in Ed. repeat split; auto.
    + assert (Et' : match assoc "Type" (set_assoc "Properties" ps' o) with Some x => x | None => VNull end = t) by (rewrite assoc_set_other by discriminate; auto).
      cbn [vget bind dict_of]. rewrite Et', assoc_set_same, Hidem. cbn [bind fst snd]. unfold mem_assoc. rewrite assoc_set_same. rewrite (set_assoc_same "Properties" ps' (set_assoc "Properties" ps' o)) by apply assoc_set_same. reflexivity.
  - unfold mem_assoc in Em. destruct (assoc "Properties" o) as [v|] eqn:Ev; [discriminate|]. subst ps. split.
    + exists o, o. split; [reflexivity|]. split; [reflexivity|]. split; [reflexivity|]. split; [reflexivity|]. intros v Hv. congruence.
    + cbn [vget bind dict_of]. rewrite <- Et, Ev. assert (Er' : replace_properties template' t VNull = Ok (ps', names)).
      { destruct t as [|b|z|q|s|l|d]; try (rewrite properties_other in Er |- * by discriminate; exact Er).
        destruct (properties_spec _ _ _ _ _ Hp Er) as [[[Hn [= -> ->]]|[Hn [d [d' [E _]]]]] _]; [exact Hidem | discriminate]. }
      rewrite Er'. cbn [bind fst snd]. unfold mem_assoc. rewrite Ev. reflexivity.
Qed.
Lemma resources_spec template template' rs : forall q, vget "Parameters" template' = vget "Parameters" template -> replace_resources template rs = Ok q ->
  map fst (fst q) = map fst rs /\ (forall n x, assoc n rs = Some x -> exists o o', x = VDict o /\ assoc n (fst q) = Some (VDict o') /\ resource_after o o') /\
  replace_resources template' (fst q) = Ok q.
Proof.
  induction rs as [|[n x] rs IH]; intros q Hp; cbn [replace_resources]; [intros [= <-]; repeat split; discriminate|].
  destruct (replace_resource template x) as [[x' l]|] eqn:Ex; [|discriminate]. cbn [bind].
  destruct (replace_resources template rs) as [[rs' l']|] eqn:Er; [|discriminate]. cbn [bind fst snd]. intros [= <-]. cbn [fst map].
  destruct (IH _ Hp eq_refl) as [H1 [H2 H3]]. cbn [fst] in *. destruct (resource_spec _ _ _ _ Hp Ex) as [[o [o' [-> [Eo Ho]]]] Hx]. cbn [fst] in *. subst x'. split; [now rewrite H1|]. split.
  - intros m y. cbn [assoc]. destruct (String.eqb m n); [intros [= <-]; eauto | apply H2].
  - cbn [replace_resources]. rewrite Hx. cbn [bind]. rewrite H3. reflexivity.
Qed.
Lemma c40_all d t' names : replace_local_codeuri (VDict d) = Ok (t', names) ->
  (exists d', t' = VDict d' /\ template_after d d') /\ replace_local_codeuri t' = Ok (t', names).
Proof.
  unfold replace_local_codeuri. cbn [vget_def bind dict_of].
  remember (match assoc "Globals" d with Some x => x | None => VDict [] end) as g eqn:Eg.
  destruct (vget_def "Function" (VDict []) g) as [f|] eqn:Ef; [|discriminate]. cbn [bind].
  destruct (vget "AutoPublishAlias" f) as [a|] eqn:Ea; [|discriminate]. cbn [bind].
  destruct (alias_names (VDict d) a) as [ns|] eqn:En; [|discriminate]. cbn [bind].
  destruct (assoc "Resources" d) as [v|] eqn:Er.
  - destruct v as [|b|z|q|s|l|rs]; try discriminate. destruct (replace_resources (VDict d) rs) as [[rs' l]|] eqn:Ers; [|discriminate]. cbn [bind fst snd]. unfold mem_assoc at 1. rewrite Er. intros [= <- <-].
    set (d' := set_assoc "Resources" (VDict rs') d).
    assert (Hp : vget "Parameters" (VDict d') = vget "Parameters" (VDict d)) by (cbn [vget]; unfold d'; rewrite assoc_set_other by discriminate; reflexivity).
    destruct (resources_spec _ _ _ _ Hp Ers) as [H1 [H2 H3]]. cbn [fst] in *. split.
    + exists d'. split; [reflexivity|]. split; [apply keys_set_existing; eapply assoc_keys; eauto|]. split; [intros s Hs; now apply assoc_set_other|].
      intros v Hv. assert (v = VDict rs) by congruence. subst v. exists rs, rs'. split; [reflexivity|]. split; [apply assoc_set_same|]. auto.
    + assert (Eg' : match assoc "Globals" d' with Some x => x | None => VDict [] end = g) by (unfold d'; rewrite assoc_set_other by discriminate; auto).
      cbn [vget_def bind dict_of]. rewrite Eg', Ef. cbn [bind]. rewrite Ea. cbn [bind]. rewrite (alias_same _ _ _ Hp), En. cbn [bind]. unfold d' at 1. rewrite assoc_set_same. rewrite H3. cbn [bind fst snd]. unfold mem_assoc.
      unfold d' at 1. rewrite assoc_set_same. unfold d' at 1. rewrite (set_assoc_same "Resources" (VDict rs') (set_assoc "Resources" (VDict rs') d)) by apply assoc_set_same. reflexivity.
  - cbn [replace_resources bind fst snd]. unfold mem_assoc at 1. rewrite Er. intros [= <- <-]. split.
    + exists d. split; [reflexivity|]. split; [reflexivity|]. split; [reflexivity|]. intros v Hv. congruence.
    + cbn [vget_def bind dict_of]. rewrite <- Eg, Ef. cbn [bind]. rewrite Ea. cbn [bind]. rewrite En. cbn [bind]. rewrite Er. cbn [replace_resources bind fst snd]. unfold mem_assoc. rewrite Er. reflexivity.
Qed.

(** * Totality *)
Lemma alias_total d ps : alias_fine d ps -> exists ns, alias_names (VDict d) (match assoc "AutoPublishAlias" ps with Some x => x | None => VNull end) = Ok ns.
Proof.
  intros H. destruct (assoc "AutoPublishAlias" ps) as [[|b|z|q|s|l|e]|] eqn:E; try (eexists; reflexivity).
  destruct e as [|[k v] [|y e]]; try (eexists; reflexivity). cbn [alias_names]. destruct (String.eqb_spec k "Ref") as [->|]; [|eexists; reflexivity].
  destruct (H v E) as [s [pd [-> Ep]]]. cbn [vget bind]. rewrite Ep. cbn [py_member bind]. destruct (mem_assoc s pd); eexists; reflexivity.
Qed.
Lemma properties_total d t ps : alias_fine d ps -> exists r, replace_properties (VDict d) (VStr t) (VDict ps) = Ok r.
Proof.
  intros Ha. unfold replace_properties. cbn [eq_str].
  destruct (String.eqb "AWS::Serverless::Function" t).
  { destruct (update_spec "CodeUri" ps) as [d' [E1 [K1 _]]]. rewrite E1. cbn [bind vget]. rewrite K1 by discriminate. destruct (alias_total d ps Ha) as [ns ->]. eexists. reflexivity. }
  destruct (String.eqb "AWS::Serverless::LayerVersion" t).
  { cbn [vget bind]. destruct (truthy _); [|eexists; reflexivity]. destruct (update_spec "ContentUri" ps) as [d' [-> _]]. eexists. reflexivity. }
  destruct (String.eqb "AWS::Serverless::Application" t).
  { cbn [vget bind set_item]. destruct (truthy _); [|eexists; reflexivity]. destruct (update_spec "Location" (set_assoc "Location" (VStr "") ps)) as [d' [-> _]]. eexists. reflexivity. }
  destruct (String.eqb "AWS::Serverless::Api" t).
  { cbn [py_member bind set_item]. destruct (_ || _ || _); [eexists; reflexivity|]. destruct (update_spec "DefinitionUri" ps) as [d' [-> _]]. eexists. reflexivity. }
  destruct (String.eqb "AWS::Serverless::StateMachine" t); [|eexists; reflexivity].
  cbn [vget bind]. destruct (truthy _); [|eexists; reflexivity]. destruct (update_spec "DefinitionUri" ps) as [d' [-> _]]. eexists. reflexivity.
Qed.
Lemma not_serverless template t ps : ~ In t serverless_types -> replace_properties template (VStr t) ps = Ok (ps, []).
Proof.
  intros H. unfold replace_properties. cbn [eq_str].
  repeat match goal with |- context [String.eqb ?a t] => destruct (String.eqb_spec a t) as [<-|]; [exfalso; apply H; cbn; tauto|] end. reflexivity.
Qed.
Lemma c40_total d : documented d -> exists t' names, replace_local_codeuri (VDict d) = Ok (t', names).
Proof.
  intros [Hr Hg]. unfold replace_local_codeuri. cbn [vget_def bind dict_of].
  assert (Ha : exists f a, vget_def "Function" (VDict []) (match assoc "Globals" d with Some x => x | None => VDict [] end) = Ok f /\ vget "AutoPublishAlias" f = Ok a /\ exists ns, alias_names (VDict d) a = Ok ns).
  { destruct (assoc "Globals" d) as [g|]; [|do 2 eexists; split; [reflexivity | split; [reflexivity | eexists; reflexivity]]].
    destruct (Hg g eq_refl) as [gd [-> Hf]]. cbn [vget_def]. destruct (assoc "Function" gd) as [f|]; [|do 2 eexists; split; [reflexivity | split; [reflexivity | eexists; reflexivity]]].
    destruct (Hf f eq_refl) as [fd [-> Hfd]]. do 2 eexists. split; [reflexivity|]. split; [reflexivity|]. now apply alias_total. }
  destruct Ha as [f [a [-> [Ea [ns En]]]]]. cbn [bind]. rewrite Ea. cbn [bind]. rewrite En. cbn [bind].
  assert (Hrs : forall rs, (forall n x, In (n, x) rs -> exists o, x = VDict o /\
     forall t, In t serverless_types -> assoc "Type" o = Some (VStr t) -> exists ps, assoc "Properties" o = Some (VDict ps) /\ alias_fine d ps) -> exists q, replace_resources (VDict d) rs = Ok q).
  { clear. induction rs as [|[n x] rs IH]; intros H; cbn [replace_resources]; [eexists; reflexivity|]. destruct (H n x (or_introl eq_refl)) as [o [-> Ho]].
    assert (Hx : exists r, replace_resource (VDict d) (VDict o) = Ok r).
    { unfold replace_resource. cbn [vget bind]. destruct (assoc "Type" o) as [t|]; [|rewrite properties_other by discriminate; eexists; reflexivity].
      destruct t as [|b|z|q|s|l|e]; try (rewrite properties_other by discriminate; eexists; reflexivity).
      destruct (in_dec string_dec s serverless_types) as [Hi|Hi].
      - destruct (Ho s Hi eq_refl) as [ps [-> Hal]]. destruct (properties_total d s ps Hal) as [r ->]. eexists. reflexivity.
      - rewrite not_serverless by exact Hi. eexists. reflexivity. }
    destruct Hx as [r ->]. cbn [bind]. destruct IH as [q ->]; [intros m y Hi; apply (H m y); now right|]. eexists. reflexivity. }
  destruct (assoc "Resources" d) as [v|].
  - destruct (Hr v eq_refl) as [rs [-> Hx]]. destruct (Hrs rs Hx) as [q ->]. cbn [bind]. do 2 eexists. reflexivity.
  - cbn [replace_resources bind]. do 2 eexists. reflexivity.
Qed.

(** * Errors *)
Lemma c40_errors translate text filename template : forall fs t, transform_template translate text filename template = (fs, t) ->
  (t = None <-> ~ exists t1 names t2, replace_local_codeuri template = Ok (t1, names) /\ translate t1 names = Translated t2) /\
  (fs <> [] -> t = None) /\
  forall f, In f fs -> f_rule f = "E0001" /\ f_file f = filename /\ f_line f = 1%Z.
Proof.
  intros fs t. unfold transform_template.
  assert (H1 : forall s f, In f [transform_finding filename s] -> f_rule f = "E0001" /\ f_file f = filename /\ f_line f = 1%Z) by (intros s f [<-|[]]; auto).
  destruct (replace_local_codeuri template) as [[t1 names]|e] eqn:E.
  - destruct (translate t1 names) as [t2|ms|s] eqn:Et; intros [= <- <-].
    + split; [|split; [congruence | intros f []]]. split; [discriminate|]. intros H. exfalso. apply H. eauto.
    + split; [split; [intros _ [a [b [c [[= <- <-] Hc]]]]; congruence | reflexivity]|]. split; [reflexivity|]. intros f Hf. apply in_map_iff in Hf as [s [<- _]]. auto.
    + split; [split; [intros _ [a [b [c [[= <- <-] Hc]]]]; congruence | reflexivity]|]. split; [reflexivity | apply H1].
  - intros [= <- <-]. split; [split; [intros _ [a [b [c [[=] _]]]] | reflexivity]|]. split; [reflexivity | apply H1].
Qed.

(** * Witnesses *)
Definition sam_sections : list (string * val) :=
  [("Parameters", VDict [("Stage", VDict [("Type", VStr "String")])]);
   ("Globals", VDict [("Function", VDict [("AutoPublishAlias", VDict [("Ref", VStr "Stage")])])]);
   ("Resources", VDict
     [("A", VDict [("Type", VStr "AWS::Serverless::Function"); ("Properties", VDict [("CodeUri", VStr "./src"); ("Handler", VStr "h")])]);
      ("B", VDict [("Type", VStr "AWS::Serverless::Function"); ("Properties", VDict [("CodeUri", VStr "s3://code/b")])]);
      ("C", VDict [("Type", VStr "AWS::Serverless::Api"); ("Properties", VDict [("Auth", VDict []); ("DefinitionUri", VStr "./api")])]);
      ("D", VDict [("Type", VStr "AWS::S3::Bucket")])])].
Lemma sam_documented : documented sam_sections.
Proof.
  split.
  - intros v [= <-]. eexists. split; [reflexivity|]. intros n x Hi. destruct Hi as [[= <- <-]|[[= <- <-]|[[= <- <-]|[[= <- <-]|[]]]]]; eexists; (split; [reflexivity|]); intros t Ht E; try (eexists; split; [reflexivity | intros w Hw; discriminate]).
    injection E as <-. cbn in Ht. intuition discriminate.
  - intros g [= <-]. eexists. split; [reflexivity|]. intros f [= <-]. eexists. split; [reflexivity|]. intros v [= <-]. do 2 eexists. split; reflexivity.
Qed.
Lemma sam_result : exists d', replace_local_codeuri (VDict sam_sections) = Ok (VDict d', [VStr "Stage"]) /\ d' <> sam_sections.
Proof. eexists. split; [reflexivity|]. discriminate. Qed.
Lemma c40_application : exists o ps t' d' rs' o' ps', replace_local_codeuri (VDict [("Resources", VDict [("A", VDict o)])]) = Ok (t', []) /\
  assoc "Type" o = Some (VStr "AWS::Serverless::Application") /\ assoc "Properties" o = Some (VDict ps) /\ assoc "Location" ps = Some (VStr "s3://code/app") /\
  t' = VDict d' /\ assoc "Resources" d' = Some (VDict rs') /\ assoc "A" rs' = Some (VDict o') /\ assoc "Properties" o' = Some (VDict ps') /\
  assoc "Location" ps' = Some (VStr "s3://bucket/value").
Proof.
  exists [("Type", VStr "AWS::Serverless::Application"); ("Properties", VDict [("Location", VStr "s3://code/app")])]. do 6 eexists. repeat split; reflexivity.
Qed.
Lemma c40_api : exists o ps t' d' rs' o' ps', replace_local_codeuri (VDict [("Resources", VDict [("A", VDict o)])]) = Ok (t', []) /\
  assoc "Type" o = Some (VStr "AWS::Serverless::Api") /\ assoc "Properties" o = Some (VDict ps) /\ assoc "DefinitionUri" ps = Some (VStr "./api") /\ assoc "DefinitionBody" ps = None /\
  t' = VDict d' /\ assoc "Resources" d' = Some (VDict rs') /\ assoc "A" rs' = Some (VDict o') /\ assoc "Properties" o' = Some (VDict ps') /\
  assoc "DefinitionUri" ps' = Some (VStr "./api") /\ assoc "DefinitionBody" ps' = Some (VStr "").
Proof.
  exists [("Type", VStr "AWS::Serverless::Api"); ("Properties", VDict [("Auth", VDict []); ("DefinitionUri", VStr "./api")])]. do 6 eexists. repeat split; reflexivity.
Qed.
Lemma c40_no_parameters : exists d, replace_local_codeuri (VDict d) = Err ETypeErr.
Proof.
  exists [("Globals", VDict [("Function", VDict [("AutoPublishAlias", VDict [("Ref", VStr "AWS::StackName")])])])]. reflexivity.
Qed.
Lemma c40_after d t' names : replace_local_codeuri (VDict d) = Ok (t', names) -> exists d', t' = VDict d' /\ template_after d d'.
Proof. intros H. exact (proj1 (c40_all _ _ _ H)). Qed.
Lemma c40_twice d t' names : replace_local_codeuri (VDict d) = Ok (t', names) -> replace_local_codeuri t' = Ok (t', names).
Proof. intros H. exact (proj2 (c40_all _ _ _ H)). Qed.
Lemma c40_no_properties : replace_local_codeuri (VDict [("Resources", VDict [("A", VDict [("Type", VStr "AWS::Serverless::Function")])])]) = Err EAttribute.
Proof. reflexivity. Qed.
