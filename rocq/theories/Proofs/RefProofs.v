(** Proofs for C21: the names a Ref may use. *)
From Coq Require Import Lia.
From Verif.Model Require Import Base Helpers Search Refs.
From Verif.Spec Require Import Paths References.
From Verif.Proofs Require Import BaseFacts SearchProofs RelationRule.

Lemma ends_with_iff suf s : ends_with suf s = true <-> exists p, s = (p ++ suf)%string.
Proof.
  unfold ends_with. induction s as [|a s IH]; cbn [ends_with_aux].
  - destruct (String.eqb_spec suf "") as [->|Hn].
    + split; [exists ""; reflexivity | reflexivity].
    + split; [discriminate|]. intros [[|] H]; [cbn in H; congruence | discriminate].
  - destruct (String.eqb_spec suf (String a s)) as [->|Hn].
    + split; [exists ""; reflexivity | reflexivity].
    + rewrite IH. split.
      * intros [p ->]. now exists (String a p).
      * intros [[|b p] H]; [cbn in H; congruence|]. injection H as _ ->. now exists p.
Qed.
Lemma length_append a b : String.length (a ++ b) = String.length a + String.length b.
Proof. induction a as [|c a IH]; cbn; [reflexivity | now rewrite IH]. Qed.
Lemma substring_prefix a b : String.substring 0 (String.length a) (a ++ b) = a.
Proof. induction a as [|c a IH]; cbn; [destruct b; reflexivity | now rewrite IH]. Qed.
Lemma key_name_plain n : ends_with ".*" n = false -> regex_key_name n = n.
Proof. intros H. unfold regex_key_name. now rewrite H. Qed.
Lemma key_name_module n : regex_key_name (n ++ ".*") = n.
Proof.
  unfold regex_key_name. assert (H : ends_with ".*" (n ++ ".*") = true) by (apply ends_with_iff; now exists n). rewrite H, length_append. cbn [String.length].
  replace (String.length n + 2 - 2) with (String.length n) by lia. apply substring_prefix.
Qed.
Lemma regex_contains_iff {A} (d : list (string * A)) s : regex_contains d s = true <->
  exists k rest, In k (keys d) /\ s = (regex_key_name k ++ rest)%string.
Proof.
  unfold regex_contains, regex_matches, starts_with. rewrite existsb_exists. split.
  - intros [[k v] [H1 H2]]. apply prefix_iff in H2 as [rest ->]. exists k, rest. split; [|reflexivity]. unfold keys. apply in_map_iff. now exists (k, v).
  - intros [k [rest [H1 ->]]]. unfold keys in H1. apply in_map_iff in H1 as [[k' v] [<- H1]]. exists (k', v). split; [exact H1|]. apply prefix_iff. now exists rest.
Qed.

Lemma parameter_refs_keys ps : (forall n x, In (n, x) ps -> exists o, x = VDict o) -> forall r,
  exists out, parameter_refs ps r = Ok out /\
    forall k, In k (keys out) <-> In k (keys r) \/ exists o t, In (k, VDict o) ps /\ assoc "Type" o = Some t.
Proof.
  induction ps as [|[n x] ps IH]; intros Ho r; cbn [parameter_refs].
  - exists r. split; [reflexivity|]. intros k. split; [now left | intros [H|[o [t [[] _]]]]; exact H].
  - destruct (Ho n x (or_introl eq_refl)) as [o ->]. cbn [member_type bind].
    destruct (IH (fun n' x' H => Ho n' x' (or_intror H)) (match assoc "Type" o with Some t => set_assoc n (mkRef t "Parameters") r | None => r end)) as [out [E Hk]].
    exists out. split; [exact E|]. intros k. rewrite Hk. destruct (assoc "Type" o) as [t|] eqn:Et.
    + rewrite keys_set_in. split.
      * intros [[->|H]|[o' [t' [H1 H2]]]]; [right; exists o, t; split; [now left|exact Et] | auto | right; exists o', t'; split; [now right|exact H2]].
      * intros [H|[o' [t' [[[= -> ->]|H1] H2]]]]; [auto | left; now left | right; eauto].
    + split.
      * intros [H|[o' [t' [H1 H2]]]]; [auto | right; exists o', t'; split; [now right|exact H2]].
      * intros [H|[o' [t' [[[= -> ->]|H1] H2]]]]; [auto | congruence | right; eauto].
Qed.
Lemma resource_refs_keys rs : (forall n x, In (n, x) rs -> exists o, x = VDict o /\ forall t, assoc "Type" o = Some t -> exists u, t = VStr u) -> forall r,
  exists out, resource_refs rs r = Ok out /\
    forall k, In k (keys out) <-> In k (keys r) \/ exists n o t, In (n, VDict o) rs /\ assoc "Type" o = Some (VStr t) /\
      (ends_with "::MODULE" t = true /\ k = (n ++ ".*")%string \/ ends_with "::MODULE" t = false /\ t <> "" /\ k = n).
Proof.
  induction rs as [|[n x] rs IH]; intros Ho r; cbn [resource_refs].
  - exists r. split; [reflexivity|]. intros k. split; [now left | intros [H|[n [o [t [[] _]]]]]; exact H].
  - destruct (Ho n x (or_introl eq_refl)) as [o [-> Ht]]. cbn [vget_def bind].
    assert (Hcase : (exists t, assoc "Type" o = Some (VStr t)) \/ assoc "Type" o = None).
    { destruct (assoc "Type" o) as [t|]; [|auto]. destruct (Ht t eq_refl) as [u ->]. eauto. }
    assert (IH' := fun r => IH (fun n' x' H => Ho n' x' (or_intror H)) r). clear IH.
    destruct Hcase as [[t Et]|Et]; rewrite Et.
    + match goal with |- context [resource_refs rs ?r'] => destruct (IH' r') as [out [E Hk]] end. exists out. split; [exact E|].
      intros k. rewrite Hk. clear Hk E IH'.
      assert (Hnew : In k (keys (if ends_with "::MODULE" t then set_assoc (n ++ ".*") (mkRef (VStr "MODULE") "Resources") r
             else if (t =? "")%string then r else set_assoc n (mkRef (VStr t) "Resources") r)) <->
             In k (keys r) \/ (ends_with "::MODULE" t = true /\ k = (n ++ ".*")%string \/ ends_with "::MODULE" t = false /\ t <> "" /\ k = n)).
      { destruct (ends_with "::MODULE" t); [rewrite keys_set_in; intuition congruence|]. destruct (String.eqb_spec t "") as [->|Hne]; [intuition congruence|].
        rewrite keys_set_in. intuition congruence. }
      rewrite Hnew. clear Hnew. split.
      * intros [[H|H]|[n' [o' [t' [H1 H2]]]]]; [auto | right; exists n, o, t; split; [now left|]; auto | right; exists n', o', t'; split; [now right|exact H2]].
      * intros [H|[n' [o' [t' [[[= -> ->]|H1] [H2 H3]]]]]]; [auto | left; right; rewrite Et in H2; injection H2 as ->; exact H3 | right; exists n', o', t'; auto].
    + match goal with |- context [resource_refs rs ?r'] => destruct (IH' r') as [out [E Hk]] end. exists out. split; [exact E|].
      intros k. rewrite Hk. cbn. split.
      * intros [H|[n' [o' [t' [H1 H2]]]]]; [auto | right; exists n', o', t'; split; [now right|exact H2]].
      * intros [H|[n' [o' [t' [[[= -> ->]|H1] [H2 H3]]]]]]; [auto | congruence | right; exists n', o', t'; auto].
Qed.
Lemma pseudo_refs_keys r k : In k (keys (pseudo_refs r)) <-> In k (keys r) \/ In k PSEUDOPARAMS.
Proof.
  unfold pseudo_refs. revert r. induction PSEUDOPARAMS as [|p l IH]; intros r; cbn [fold_left In]; [tauto|].
  rewrite IH, keys_set_in. intuition congruence.
Qed.

Section Refs.
Variable template globals : val.
Hypothesis Hwf : wf template.
Hypothesis Hgw : wf globals.
Hypothesis Hpl : plain_sections template.

Lemma section_items section : In section ["Parameters"; "Resources"] ->
  exists x m, vget_def section (VDict []) template = Ok x /\ items_if x = Ok m /\
    (forall n y, In (n, y) m -> exists o, y = VDict o /\
      (section = "Resources" -> forall t, assoc "Type" o = Some t -> exists u, t = VStr u) /\ ends_with ".*" n = false) /\
    forall n o, In (n, VDict o) m <-> defined_in section template n o.
Proof using Hwf Hpl.
  intros Hs. destruct Hpl as [d [-> H]]. cbn [vget_def]. destruct (assoc section d) as [s|] eqn:E.
  - destruct (H section s Hs E) as [m [-> Hm]]. exists (VDict m), m. split; [reflexivity|]. split.
    + unfold items_if. cbn [truthy]. destruct m; reflexivity.
    + split; [exact Hm|]. intros n o. apply wf_dict in Hwf as [_ Hw]. apply assoc_In in E as Ei. apply Hw in Ei. apply wf_dict in Ei as [Hnd _]. split.
      * intros Hi. exists d, m. split; [reflexivity|]. split; [exact E|]. now apply In_assoc.
      * intros [d' [m' [[= <-] [E' Ha]]]]. rewrite E in E'. injection E' as <-. now apply assoc_In.
  - exists (VDict []), []. split; [reflexivity|]. split; [reflexivity|]. split; [intros n y []|].
    intros n o. split; [intros [] | intros [d' [m' [[= <-] [E' _]]]]; congruence].
Qed.

Lemma valid_refs_spec : exists valid, get_valid_refs template = Ok valid /\ valid <> [] /\
  forall s, regex_contains valid s = true <-> exists n rest, (names template n \/ module template n) /\ s = (n ++ rest)%string.
Proof using Hwf Hpl.
  unfold get_valid_refs. destruct (section_items "Parameters") as [x [ps [Ex [Ep [Hp Hpd]]]]]; [now left|].
  destruct (section_items "Resources") as [y [rs [Ey [Er [Hr Hrd]]]]]; [now right; left|].
  rewrite Ex. cbn [bind]. rewrite Ep. cbn [bind].
  destruct (parameter_refs_keys ps) with (r := @nil (string * ref_info)) as [a [Ea Ha]].
  { intros n v H. destruct (Hp n v H) as [o [-> _]]. eauto. }
  rewrite Ea. cbn [bind]. rewrite Ey. cbn [bind]. rewrite Er. cbn [bind].
  destruct (resource_refs_keys rs) with (r := a) as [b [Eb Hb]].
  { intros n v H. destruct (Hr n v H) as [o [-> [H1 _]]]. exists o. split; [reflexivity|]. now apply H1. }
  rewrite Eb. cbn [bind]. eexists. split; [reflexivity|]. split.
  { intros E. assert (Hi : In "AWS::Region" (keys (pseudo_refs b))) by (apply pseudo_refs_keys; right; cbn; tauto). rewrite E in Hi. destruct Hi. }
  intros s. rewrite regex_contains_iff. split.
  - intros [k [rest [Hk ->]]]. apply pseudo_refs_keys in Hk as [Hk|Hk].
    + apply Hb in Hk as [Hk|[n [o [t [Hn [Ht Hc]]]]]].
      * apply Ha in Hk as [[]|[o [t [Hn Ht]]]]. destruct (Hp _ _ Hn) as [_ [_ [_ Hd]]]. rewrite key_name_plain by exact Hd.
        exists k, rest. split; [|reflexivity]. left. apply Hpd in Hn. eapply nm_parameter; eauto.
      * destruct (Hr _ _ Hn) as [_ [_ [_ Hd]]]. apply Hrd in Hn. destruct Hc as [[Hm ->]|[Hm [Hne ->]]].
        -- rewrite key_name_module. exists n, rest. split; [|reflexivity]. right. exists o, t. auto.
        -- rewrite key_name_plain by exact Hd. exists n, rest. split; [|reflexivity]. left. eapply nm_resource; eauto.
    + exists k, rest. split; [left; now apply nm_pseudo|]. rewrite key_name_plain; [reflexivity|].
      cbn in Hk. repeat (destruct Hk as [<-|Hk]; [reflexivity|]). destruct Hk.
  - intros [n [rest [Hn ->]]]. destruct Hn as [Hn|[o [t [Hd [Ht Hm]]]]].
    + exists n, rest. destruct Hn as [n o t Hd Ht|n o t Hd Ht Hne Hm|n Hi].
      * apply Hpd in Hd. destruct (Hp _ _ Hd) as [_ [_ [_ He]]]. rewrite key_name_plain by exact He. split; [|reflexivity].
        apply pseudo_refs_keys. left. apply Hb. left. apply Ha. right. eauto.
      * apply Hrd in Hd. destruct (Hr _ _ Hd) as [_ [_ [_ He]]]. rewrite key_name_plain by exact He. split; [|reflexivity].
        apply pseudo_refs_keys. left. apply Hb. right. exists n, o, t. auto 6.
      * split; [apply pseudo_refs_keys; now right|]. rewrite key_name_plain; [reflexivity|].
        cbn in Hi. repeat (destruct Hi as [<-|Hi]; [reflexivity|]). destruct Hi.
    + apply Hrd in Hd. exists (n ++ ".*")%string, rest. rewrite key_name_module. split; [|reflexivity].
      apply pseudo_refs_keys. left. apply Hb. right. exists n, o, t. auto.
Qed.

Definition ref_text (s : string) : string := ("Ref " ++ s ++ " not found as a resource or parameter")%string.
Lemma removelast_snoc {A} (p : list A) x : removelast (p ++ [x]) = p.
Proof. clear. rewrite removelast_app by discriminate. cbn. apply app_nil_r. Qed.

Lemma c21_exact ms m : ref_exist_match template globals = Ok ms ->
  In m ms <-> exists p s, (at_path (p ++ [PKey "Ref"]) template = Some (VStr s) \/ at_path (p ++ [PKey "Ref"]) globals = Some (VStr s)) /\
    m = mkRM p (ref_text s) /\ forall n rest, names template n \/ module template n -> s <> (n ++ rest)%string.
Proof using Hwf Hgw Hpl.
  intros H. unfold ref_exist_match in H. destruct valid_refs_spec as [valid [Ev [_ Hv]]]. rewrite Ev in H. cbn [bind] in H.
  rewrite (concat_res_in _ _ _ m H). split.
  - intros [[p v] [ys [Hi [Hy Hm]]]]. unfold ref_check in Hy. cbn [snd fst] in Hy. destruct v as [|b|z|f|s|l|d]; try (injection Hy as <-; destruct Hm); try (destruct valid; [injection Hy as <-; destruct Hm | discriminate Hy]).
    destruct (regex_contains valid s) eqn:Ec; injection Hy as <-; [destruct Hm|]. destruct Hm as [<-|[]].
    assert (Hp : exists r, p = r ++ [PKey "Ref"] /\ (at_path (r ++ [PKey "Ref"]) template = Some (VStr s) \/ at_path (r ++ [PKey "Ref"]) globals = Some (VStr s))).
    { unfold search_deep_keys in Hi. apply in_app_iff in Hi as [Hi|Hi]; apply search_spec in Hi; try assumption; destruct Hi as [r [-> Hr]]; exists r; auto. }
    destruct Hp as [r [-> Hr]]. exists r, s. split; [exact Hr|]. rewrite removelast_snoc. split; [reflexivity|].
    intros n rest Hn E. assert (Hc : regex_contains valid s = true) by (apply Hv; eauto). congruence.
  - intros [p [s [Hp [-> Hn]]]]. exists (p ++ [PKey "Ref"], VStr s). unfold ref_check. cbn [fst snd].
    destruct (regex_contains valid s) eqn:Ec.
    + apply Hv in Ec as [n [rest [Hn' E]]]. exfalso. exact (Hn n rest Hn' E).
    + eexists. split; [|split; [reflexivity|]].
      * unfold search_deep_keys. apply in_app_iff. destruct Hp as [Hp|Hp]; [left|right]; apply search_spec; try assumption; exists p; auto.
      * left. rewrite removelast_snoc. reflexivity.
Qed.
Lemma c21_defined ms m : ref_exist_match template globals = Ok ms -> In m ms ->
  exists p s, m = mkRM p (ref_text s) /\ ~ names template s /\ ~ module_output template s.
Proof using Hwf Hgw Hpl.
  intros H Hi. apply (c21_exact ms m H) in Hi as [p [s [_ [-> Hn]]]]. exists p, s. split; [reflexivity|]. split.
  - intros Hd. apply (Hn s ""); [now left | now rewrite append_nil_r].
  - intros [n [rest [Hm ->]]]. exact (Hn n rest (or_intror Hm) eq_refl).
Qed.
Lemma c21_runs : (forall p v, at_path (p ++ [PKey "Ref"]) template = Some v \/ at_path (p ++ [PKey "Ref"]) globals = Some v ->
    (forall z, v <> VInt z) /\ (forall b, v <> VBool b)) ->
  exists ms, ref_exist_match template globals = Ok ms.
Proof using Hwf Hgw Hpl.
  intros Hr. unfold ref_exist_match. destruct valid_refs_spec as [valid [Ev _]]. rewrite Ev. cbn [bind]. apply concat_res_total.
  intros [p v] Hi. assert (Hp : exists r, at_path (r ++ [PKey "Ref"]) template = Some v \/ at_path (r ++ [PKey "Ref"]) globals = Some v).
  { unfold search_deep_keys in Hi. apply in_app_iff in Hi as [Hi|Hi]; apply search_spec in Hi; try assumption; destruct Hi as [r [_ H]]; exists r; auto. }
  destruct Hp as [r Hp]. apply Hr in Hp as [H1 H2]. unfold ref_check. cbn [snd]. destruct v; eauto; [now destruct (H2 b) | now destruct (H1 z) | destruct (regex_contains valid s); eauto].
Qed.
End Refs.

(** * Witnesses *)
Definition buckets : val :=
  VDict [("Parameters", VDict [("Env", VDict [("Type", VStr "String")])]);
         ("Resources", VDict
           [("Bucket", VDict [("Type", VStr "AWS::S3::Bucket")]);
            ("Site", VDict [("Type", VStr "My::Site::Web::MODULE")]);
            ("Queue", VDict [("Type", VStr "AWS::SQS::Queue");
                             ("Properties", VDict [("A", VDict [("Ref", VStr "Bucket")]); ("B", VDict [("Ref", VStr "Bucket2")]);
                                                   ("C", VDict [("Ref", VStr "SiteBucket")]); ("D", VDict [("Ref", VStr "Topic")])])])])].
Lemma buckets_wf : wf buckets.
Proof. cbn; intuition (repeat constructor; cbn; intuition discriminate). Qed.
Lemma buckets_plain : plain_sections buckets.
Proof.
  eexists. split; [reflexivity|]. intros section s [<-|[<-|[]]] H; vm_compute in H; injection H as <-; eexists; (split; [reflexivity|]).
  - intros n x [[= <- <-]|[]]. eexists. split; [reflexivity|]. split; [discriminate | reflexivity].
  - intros n x [[= <- <-]|[[= <- <-]|[[= <- <-]|[]]]]; eexists; (split; [reflexivity|]); (split; [|reflexivity]); intros _ t H; vm_compute in H; injection H as <-; eauto.
Qed.
Lemma buckets_matches : ref_exist_match buckets (VDict []) =
  Ok [mkRM [PKey "Resources"; PKey "Queue"; PKey "Properties"; PKey "D"] (ref_text "Topic")].
Proof. vm_compute. reflexivity. Qed.

(** A Ref to an undefined name that begins with a defined one is not reported. *)
Lemma c21_refuted : exists template p s, wf template /\ plain_sections template /\
  at_path (p ++ [PKey "Ref"]) template = Some (VStr s) /\ ~ names template s /\ ~ module_output template s /\
  exists ms, ref_exist_match template (VDict []) = Ok ms /\ forall m, In m ms -> rm_path m <> p.
Proof.
  exists buckets, [PKey "Resources"; PKey "Queue"; PKey "Properties"; PKey "B"], "Bucket2".
  split; [exact buckets_wf|]. split; [exact buckets_plain|]. split; [reflexivity|]. split; [|split].
  - intros H. inversion H as [n o t [d [s [E1 [E2 E3]]]] Ht|n o t [d [s [E1 [E2 E3]]]] Ht Hne Hm|n Hi]; subst.
    + injection E1 as <-. vm_compute in E2. injection E2 as <-. discriminate.
    + injection E1 as <-. vm_compute in E2. injection E2 as <-. discriminate.
    + cbn in Hi. intuition discriminate.
  - intros [n [rest [[o [t [[d [s [E1 [E2 E3]]]] [Ht Hm]]]] E]]]. injection E1 as <-. vm_compute in E2. injection E2 as <-.
    cbn [assoc] in E3. destruct (String.eqb_spec n "Bucket") as [->|]; [injection E3 as <-; vm_compute in Ht; injection Ht as <-; discriminate|].
    destruct (String.eqb_spec n "Site") as [->|]; [discriminate|]. destruct (String.eqb_spec n "Queue") as [->|]; discriminate.
  - eexists. split; [exact buckets_matches|]. intros m [<-|[]] E. discriminate.
Qed.
