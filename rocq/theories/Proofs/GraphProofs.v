(** Proofs for C20: the dependency graph and its cycles. *)
From Coq Require Import Lia Relations.
From Verif.Model Require Import Base Helpers Search Graph.
From Verif.Spec Require Import Paths Dependencies.
From Verif.Proofs Require Import BaseFacts SearchProofs RelationRule.

(** * Placeholders *)
Lemma name_char_spec a : name_char a = (is_alnum a || Ascii.eqb a ".").
Proof. reflexivity. Qed.
Lemma placeholder_spec s : forall acc n, placeholder s acc = Some n <->
  exists m rest, n = (acc ++ m)%string /\ s = (m ++ String "}" rest)%string /\ str_forall name_char m = true.
Proof.
  induction s as [|a s IH]; intros acc n; cbn [placeholder].
  - split; [discriminate | intros [m [rest [_ [H _]]]]; destruct m; discriminate].
  - destruct (char_eqb a "}") eqn:Ea.
    + apply char_eqb_eq in Ea; subst a. split.
      * intros [= <-]. exists "", s. now rewrite append_nil_r.
      * intros [[|b m] [rest [-> [H H2]]]]; [now rewrite append_nil_r|]. injection H as <- _. discriminate H2.
    + destruct (name_char a) eqn:En.
      * rewrite IH. split.
        -- intros [m [rest [-> [-> H]]]]. exists (String a m), rest. rewrite append_assoc. cbn. now rewrite En, H.
        -- intros [[|b m] [rest [-> [H H2]]]]; [injection H as -> _; discriminate Ea|]. injection H as <- ->.
           exists m, rest. rewrite append_assoc. cbn in H2. apply andb_true_iff in H2 as [_ H2]. auto.
      * split; [discriminate|]. intros [[|b m] [rest [_ [H H2]]]]; [injection H as -> _; discriminate Ea|].
        injection H as <- ->. cbn in H2. now rewrite En in H2.
Qed.
Lemma find_parameter_spec s n : In n (find_parameter s) <-> has_placeholder s n.
Proof.
  unfold has_placeholder. change (fun a => (is_alnum a || Ascii.eqb a ".")%bool) with name_char.
  induction s as [|a s IH]; cbn [find_parameter].
  - split; [intros [] | intros [[[|] [x H]] _]; discriminate H].
  - assert (Hcons : forall b s'', s = String b s'' -> (exists before after, String a s = (before ++ "${" ++ n ++ "}" ++ after)%string) <->
        (a = "$"%char /\ b = "{"%char /\ exists after, s'' = (n ++ "}" ++ after)%string) \/ (exists before after, s = (before ++ "${" ++ n ++ "}" ++ after)%string)).
    { intros b s'' ->. split.
      - intros [[|c before] [after H]].
        + cbn in H. injection H as -> -> H. left. repeat split. exists after. exact H.
        + cbn in H. injection H as -> H. right. exists before, after. exact H.
      - intros [[-> [-> [after ->]]]|[before [after H]]]; [exists "", after; reflexivity|].
        exists (String a before), after. cbn. now rewrite H. }
    destruct s as [|b s''].
    + split; [intros []|]. intros [[[|c [|? ?]] [x H]] _]; discriminate H.
    + rewrite (Hcons b s'' eq_refl). destruct (char_eqb a "$" && char_eqb b "{")%bool eqn:E.
      * apply andb_true_iff in E as [E1 E2]. apply char_eqb_eq in E1, E2. subst a b.
        destruct (placeholder s'' "") as [x|] eqn:Ep.
        -- cbn [In]. rewrite IH. apply placeholder_spec in Ep as [m [rest [-> [-> Hm]]]]. cbn [append].
           split.
           ++ intros [->|[H1 H2]]; [|tauto]. split; [|exact Hm]. left. repeat split. exists rest. reflexivity.
           ++ intros [[[_ [_ [after H]]]|H] Hn]; [|tauto]. left.
              assert (P1 : placeholder (m ++ String "}" rest) "" = Some m) by (apply placeholder_spec; exists m, rest; auto).
              rewrite H in P1. assert (P2 : placeholder (n ++ String "}" after) "" = Some n) by (apply placeholder_spec; exists n, after; auto).
              congruence.
        -- rewrite IH. split; [tauto|]. intros [[[_ [_ [after H]]]|H] Hn]; [|tauto]. exfalso.
           assert (P2 : placeholder (n ++ "}" ++ after) "" = Some n) by (apply placeholder_spec; exists n, after; auto). congruence.
      * rewrite IH. split; [tauto|]. intros [[[-> [-> _]]|H] Hn]; [discriminate E | tauto].
Qed.

(** * First parts *)
Lemma split_first s : exists n rest, split_on "." s = n :: rest /\ first_part s n.
Proof.
  enough (H : forall acc, has_char "." acc = false -> exists n rest, split_aux "." s acc = n :: rest /\ first_part (acc ++ s) n).
  { exact (H "" eq_refl). }
  induction s as [|a s IH]; intros acc Ha; cbn [split_aux].
  - exists acc, []. split; [reflexivity|]. split; [exact Ha | left; apply append_nil_r].
  - destruct (char_eqb a ".") eqn:E.
    + apply char_eqb_eq in E; subst a. exists acc, (split_aux "." s ""). split; [reflexivity|]. split; [exact Ha|]. right. now exists s.
    + destruct (IH (acc ++ String a "")%string) as [n [rest [H1 H2]]].
      * rewrite has_char_app, Ha. cbn. now rewrite E.
      * exists n, rest. split; [exact H1|]. rewrite append_assoc in H2. exact H2.
Qed.
Lemma first_part_split s n : first_part s n -> exists rest, split_on "." s = n :: rest.
Proof.
  intros [Hn [->|[rest ->]]]; [exists []; now apply split_on_nochar|].
  exists (split_on "." rest). now apply split_on_app.
Qed.
Lemma first_part_det s n m : first_part s n -> first_part s m -> n = m.
Proof. intros H1 H2. apply first_part_split in H1 as [a H1], H2 as [b H2]. congruence. Qed.
Lemma sub_target_first s : first_part s (sub_target s).
Proof.
  unfold sub_target. destruct (has_char "." s) eqn:E.
  - destruct (split_first s) as [n [rest [-> H]]]. exact H.
  - split; [exact E | now left].
Qed.

(** * Edges *)
Section Edges.
Variable template globals : val.
Hypothesis Hwf : wf template.
Hypothesis Hgw : wf globals.
Hypothesis Hgl : at_path [PKey "Resources"] globals = None.
Hypothesis Hpl : plain_functions template.

Lemma targets_iff rs v s : In s (targets rs v) <-> v = VStr s /\ exists x, assoc s rs = Some x /\ truthy x = true.
Proof.
  clear. destruct v; cbn [targets]; try (split; [intros [] | intros [H _]; discriminate H]).
  destruct (assoc s0 rs) as [x|] eqn:E.
  - destruct (truthy x) eqn:Et.
    + split; [intros [<-|[]]; split; eauto | intros [[= ->] _]; now left].
    + split; [intros [] | intros [[= ->] [y [H1 H2]]]; congruence].
  - split; [intros [] | intros [[= ->] [y [H1 H2]]]; congruence].
Qed.

Variable rs : list (string * val).
Hypothesis Hrs : resources_of template = Ok rs.

Lemma rs_shape : exists d, template = VDict d /\ (assoc "Resources" d = Some (VDict rs) \/ assoc "Resources" d = None /\ rs = []) /\
  (forall n x, In (n, x) rs -> exists o, x = VDict o) /\ NoDup (map fst rs).
Proof using Hwf Hpl Hrs.
  destruct Hpl as [[d [rs' [E [Hr Ho]]]] _]. unfold resources_of in Hrs. subst template. exists d. split; [reflexivity|].
  cbn [vget_def bind] in Hrs. destruct Hr as [Hr|[Hr ->]]; rewrite Hr in Hrs; injection Hrs as <-.
  - split; [now left|]. split; [exact Ho|]. apply wf_dict in Hwf as [_ Hd]. apply assoc_In in Hr. apply Hd in Hr. now apply wf_dict in Hr as [Hr _].
  - split; [now right|]. split; [intros n x []|constructor].
Qed.

Lemma resource_iff b : resource template b <-> exists x, assoc b rs = Some x /\ truthy x = true.
Proof using Hwf Hpl Hrs.
  destruct rs_shape as [d [E [Hr [Ho _]]]]. split.
  - intros [d' [rs' [o [E' [Hr' [Hb Hne]]]]]]. rewrite E in E'. injection E' as <-. destruct Hr as [Hr|[Hr _]]; [|congruence].
    rewrite Hr in Hr'. injection Hr' as <-. exists (VDict o). split; [exact Hb|]. cbn. now destruct o.
  - intros [x [Hx Ht]]. destruct Hr as [Hr|[Hr ->]]; [|discriminate]. destruct (Ho b x) as [o ->]; [now apply assoc_In|].
    exists d, rs, o. repeat (split; [assumption|]). destruct o; [discriminate|congruence].
Qed.
Lemma targets_spec v s : In s (targets rs v) <-> v = VStr s /\ resource template s.
Proof using Hwf Hpl Hrs. rewrite targets_iff, resource_iff. reflexivity. Qed.

Lemma path_resources a r v : at_path (PKey "Resources" :: PKey a :: r) template = Some v <->
  exists x, assoc a rs = Some x /\ at_path r x = Some v.
Proof using Hwf Hpl Hrs.
  destruct rs_shape as [d [E [Hr _]]]. rewrite E. cbn [at_path]. destruct Hr as [Hr|[Hr ->]]; rewrite Hr.
  - cbn [at_path]. destruct (assoc a rs) as [x|].
    + split; [intros H; eauto | intros [y [[= <-] H]]; exact H].
    + split; [discriminate | intros [y [H _]]; discriminate].
  - split; [discriminate | intros [y [H _]]; discriminate].
Qed.

Lemma in_pairs (a b u : string) (l : list string) : In (a, b) (map (fun t => (u, t)) l) <-> a = u /\ In b l.
Proof.
  clear. rewrite in_map_iff. split; [intros [t [[= <- <-] H]]; auto | intros [-> H]; exists b; auto].
Qed.

Lemma depends_edges_ok nr : In nr rs -> exists o, snd nr = VDict o /\
  depends_edges rs nr = Ok (match assoc "DependsOn" o with
                            | Some (VList l) => map (fun t => (fst nr, t)) (flat_map (targets rs) l)
                            | Some (VStr s) => map (fun t => (fst nr, t)) (targets rs (VStr s))
                            | _ => [] end).
Proof using Hwf Hpl Hrs.
  intros H. destruct rs_shape as [d [E [_ [Ho _]]]]. destruct nr as [n x]. destruct (Ho n x H) as [o ->]. exists o. split; [reflexivity|].
  unfold depends_edges. cbn [snd fst vget vget_def bind]. destruct (assoc "DependsOn" o) as [[]|]; reflexivity.
Qed.
Lemma in_depends_edges a b : (exists nr es, In nr rs /\ depends_edges rs nr = Ok es /\ In (a, b) es) <->
  resource template b /\ exists v, at_path [PKey "Resources"; PKey a; PKey "DependsOn"] template = Some v /\
    (v = VStr b \/ exists l, v = VList l /\ In (VStr b) l).
Proof using Hwf Hpl Hrs.
  destruct rs_shape as [d [E [_ [Ho Hnd]]]]. split.
  - intros [[n x] [es [Hi [He Hin]]]]. destruct (depends_edges_ok _ Hi) as [o [Ex Eo]]. cbn in Ex. subst x. cbn [fst] in Eo. rewrite Eo in He.
    injection He as <-. assert (Ha : assoc n rs = Some (VDict o)) by now apply In_assoc.
    destruct (assoc "DependsOn" o) as [v|] eqn:Ed; [|destruct Hin]. 
    assert (Hp : at_path [PKey "Resources"; PKey n; PKey "DependsOn"] template = Some v).
    { apply path_resources. exists (VDict o). split; [exact Ha|]. cbn. now rewrite Ed. }
    destruct v; try (exfalso; exact Hin); apply in_pairs in Hin as [-> Hin].
    + change (In b (targets rs (VStr s))) in Hin. apply targets_spec in Hin as [[= ->] Hr]. split; [exact Hr|]. exists (VStr b). auto.
    + apply in_flat_map in Hin as [y [Hy Hin]]. apply targets_spec in Hin as [-> Hr]. split; [exact Hr|]. exists (VList l). eauto.
  - intros [Hr [v [Hp Hv]]]. apply path_resources in Hp as [x [Ha Hp]]. destruct (Ho a x) as [o ->]; [now apply assoc_In|].
    cbn in Hp. destruct (assoc "DependsOn" o) as [w|] eqn:Ed; [injection Hp as ->|discriminate].
    assert (Hi : In (a, VDict o) rs) by now apply assoc_In. destruct (depends_edges_ok _ Hi) as [o' [Ex Eo]]. cbn in Ex. injection Ex as <-.
    exists (a, VDict o). eexists. split; [exact Hi|]. split; [exact Eo|]. rewrite Ed. destruct Hv as [->|[l [-> Hl]]]; apply in_pairs; (split; [reflexivity|]).
    + now apply targets_spec.
    + apply in_flat_map. exists (VStr b). split; [exact Hl|]. now apply targets_spec.
Qed.

(** The keys found by the search, as places. *)
Lemma source_of_spec p a : source_of p = Some a <-> exists r, p = PKey "Resources" :: PKey a :: r.
Proof.
  clear. destruct p as [|[r|] [|[s|] q]]; cbn; try (split; [discriminate | intros [r' H]; discriminate]).
  destruct (String.eqb_spec r "Resources") as [->|Hn].
  - split; [intros [= ->]; eauto | intros [r' [= -> _]]; reflexivity].
  - split; [discriminate | intros [r' [= -> _]]; congruence].
Qed.
Lemma key_not_source f : f <> "Resources" -> forall r, PKey "Resources" :: r = [PKey f] -> False.
Proof. clear. intros H r [= E _]. congruence. Qed.
Lemma in_search f a p v : f <> "Resources" -> source_of p = Some a ->
  In (p, v) (search_deep_keys f template globals) <-> at_path p template = Some v /\ exists r, p = r ++ [PKey f].
Proof using Hwf Hgw Hgl.
  intros Hf Hs. unfold search_deep_keys. rewrite in_app_iff, !search_spec by assumption.
  apply source_of_spec in Hs as [q Ep].
  assert (Hg : ~ exists r, p = [] ++ r ++ [PKey f] /\ at_path (r ++ [PKey f]) globals = Some v).
  { intros [r [E H]]. cbn in E. rewrite <- E in H. rewrite Ep in H. cbn in H, Hgl.
    destruct globals; try discriminate. destruct (assoc "Resources" d); discriminate. }
  split.
  - intros [H|H]; [|contradiction]. destruct H as [r [E H]]. cbn in E. rewrite <- E in H. split; [exact H|]. now exists r.
  - intros [H [r E]]. left. exists r. split; [exact E|]. now rewrite <- E.
Qed.
Lemma refers_not_object o f b : ~ refers_to (VDict o) f b.
Proof. clear. inversion 1. Qed.

Lemma in_function_edges f a b (E : path * val -> res (list (string * string))) : f <> "Resources" ->
  (forall p v es, at_path p template = Some v -> (exists r, p = r ++ [PKey f]) -> E (p, v) = Ok es ->
     In (a, b) es <-> source_of p = Some a /\ refers_to v f b /\ resource template b) ->
  (forall p v es, source_of p <> Some a -> E (p, v) = Ok es -> ~ In (a, b) es) ->
  (forall p v, at_path p template = Some v -> (exists r, p = r ++ [PKey f]) -> exists es, E (p, v) = Ok es) ->
  (exists pv es, In pv (search_deep_keys f template globals) /\ E pv = Ok es /\ In (a, b) es) <->
  resource template b /\ exists r v, at_path (PKey "Resources" :: PKey a :: r ++ [PKey f]) template = Some v /\ refers_to v f b.
Proof using Hwf Hgw Hgl Hpl Hrs.
  intros Hf HE HN HT. split.
  - intros [[p v] [es [Hi [He Hab]]]]. assert (Hs : source_of p = Some a).
    { destruct (source_of p) as [a'|] eqn:Es.
      - destruct (string_dec a a') as [->|Hne]; [reflexivity|]. exfalso. apply (HN p v es); [congruence|exact He|exact Hab].
      - exfalso. apply (HN p v es); [congruence|exact He|exact Hab]. }
    apply (in_search f a) in Hi as [Hp [r Er]]; [|exact Hf|exact Hs].
    apply (HE p v es Hp (ex_intro _ r Er) He) in Hab as [_ [Hr Hres]]. split; [exact Hres|].
    apply source_of_spec in Hs as [q Eq]. destruct r as [|x [|y r]].
    + rewrite Eq in Er. discriminate Er || (injection Er as E1 E2; congruence).
    + cbn in Er. rewrite Eq in Er. injection Er as <- -> ->. rewrite Eq in Hp. apply path_resources in Hp as [z [Hz Hp]].
      cbn in Hp. injection Hp as ->. destruct rs_shape as [d [_ [_ [Ho _]]]]. apply assoc_In in Hz. destruct (Ho _ _ Hz) as [o ->].
      exfalso. exact (refers_not_object o _ b Hr).
    + rewrite Eq in Er. cbn in Er. injection Er as <- <- ->. exists r, v. rewrite Eq in Hp. auto.
  - intros [Hres [r [v [Hp Hr]]]]. set (p := PKey "Resources" :: PKey a :: r ++ [PKey f]) in *.
    assert (Er : exists r', p = r' ++ [PKey f]) by (exists (PKey "Resources" :: PKey a :: r); reflexivity).
    assert (Hs : source_of p = Some a) by (apply source_of_spec; now exists (r ++ [PKey f])).
    destruct (HT p v Hp Er) as [es He]. exists (p, v), es. split; [now apply (in_search f a)|]. split; [exact He|].
    apply (HE p v es Hp Er He). auto.
Qed.

Lemma in_ref_edges a b :
  In (a, b) (flat_map (ref_edges rs) (search_deep_keys "Ref" template globals)) <->
  resource template b /\ exists r v, at_path (PKey "Resources" :: PKey a :: r ++ [PKey "Ref"]) template = Some v /\ refers_to v "Ref" b.
Proof using Hwf Hgw Hgl Hpl Hrs.
  rewrite <- (in_function_edges "Ref" a b (fun pv => Ok (ref_edges rs pv))).
  - rewrite in_flat_map. split; [intros [x [H1 H2]]; eauto | intros [x [es [H1 [[= <-] H2]]]]; eauto].
  - discriminate.
  - intros p v es _ _ [= <-]. unfold ref_edges. cbn [fst snd]. destruct (source_of p) as [a'|]; [|split; [intros [] | intros [H _]; discriminate]].
    rewrite in_pairs, targets_spec. split.
    + intros [-> [-> H]]. split; [reflexivity|]. split; [constructor | exact H].
    + intros [[= ->] [Hr H]]. inversion Hr; subst. auto.
  - intros p v es Hs [= <-]. unfold ref_edges. cbn [fst snd]. destruct (source_of p) as [a'|]; [|intros []].
    rewrite in_pairs. intros [-> _]. congruence.
  - intros p v _ _. eauto.
Qed.

Lemma getatt_edges_spec p v es : at_path p template = Some v -> (exists r, p = r ++ [PKey "Fn::GetAtt"]) -> getatt_edges rs (p, v) = Ok es ->
  forall a b, In (a, b) es <-> source_of p = Some a /\ refers_to v "Fn::GetAtt" b /\ resource template b.
Proof using Hwf Hpl Hrs.
  intros Hp [r ->] He a b. destruct Hpl as [_ [Hg _]]. apply Hg in Hp. unfold getatt_edges in He. cbn [fst snd] in He.
  destruct (source_of (r ++ _)) as [a'|]; [|injection He as <-; split; [intros [] | intros [H _]; discriminate]].
  destruct Hp as [[s ->]|[n [x ->]]].
  - destruct (has_char "." s) eqn:Ed; injection He as <-.
    + destruct (split_first s) as [n [rest [E Hf]]]. rewrite E, in_pairs, targets_spec. split.
      * intros [-> [[= ->] Hr]]. split; [reflexivity|]. split; [now constructor | exact Hr].
      * intros [[= ->] [Hr H]]. inversion Hr; subst. split; [reflexivity|]. split; [f_equal; eapply first_part_det; eauto | exact H].
    + split; [intros []|]. intros [_ [Hr _]]. inversion Hr; subst. congruence.
  - destruct (is_resource rs (VStr n)) as [bo|] eqn:Eb; [|discriminate]. cbn [bind] in He. injection He as <-.
    cbn [is_resource] in Eb. injection Eb as Eb.
    assert (Hb : In b (if bo then targets rs (VStr n) else []) <-> VStr n = VStr b /\ resource template b).
    { rewrite <- targets_spec. destruct bo; [reflexivity|]. cbn [targets]. rewrite Eb. reflexivity. }
    transitivity (a = a' /\ In b (if bo then targets rs (VStr n) else [])).
    { destruct bo; [apply in_pairs|]. cbn. tauto. }
    rewrite Hb. split.
    + intros [-> [[= ->] H]]. split; [reflexivity|]. split; [constructor | exact H].
    + intros [[= ->] [Hr H]]. inversion Hr; subst. auto.
Qed.
Lemma getatt_edges_ok p v : at_path p template = Some v -> (exists r, p = r ++ [PKey "Fn::GetAtt"]) -> exists es, getatt_edges rs (p, v) = Ok es.
Proof using Hpl.
  intros Hp [r ->]. destruct Hpl as [_ [Hg _]]. apply Hg in Hp. unfold getatt_edges. cbn [fst snd].
  destruct (source_of _); [|eauto]. destruct Hp as [[s0 ->]|[n [x ->]]]; [destruct (has_char _ _); eauto|]. cbn [is_resource bind]. eauto.
Qed.

Lemma in_values_object n m : in_values n (VDict m) = Ok (mem_assoc n m).
Proof. reflexivity. Qed.
Lemma sub_names (a' a b t : string) (m : list (string * val)) es :
  concat_res (fun n => do x <- in_values n (VDict m); Ok (if x then [] else map (fun u => (a', u)) (targets rs (VStr (sub_target n))))) (find_parameter t) = Ok es ->
  In (a, b) es <-> a = a' /\ resource template b /\ exists x, has_placeholder t x /\ assoc x m = None /\ first_part x b.
Proof using Hwf Hpl Hrs.
  intros H. rewrite (concat_res_in _ _ _ (a, b) H). split.
  - intros [x [ys [Hx [Hy Hi]]]]. cbn [in_values bind] in Hy. injection Hy as <-. apply find_parameter_spec in Hx.
    unfold mem_assoc in Hi. destruct (assoc x m) as [z|] eqn:Ea; [destruct Hi|]. apply in_pairs in Hi as [-> Hi].
    change (In b (targets rs (VStr (sub_target x)))) in Hi. apply targets_spec in Hi as [[= <-] Hr]. split; [reflexivity|]. split; [exact Hr|]. exists x. split; [exact Hx|]. split; [exact Ea | apply sub_target_first].
  - intros [-> [Hr [x [Hx [Ha Hf]]]]]. exists x. cbn [in_values bind]. unfold mem_assoc. rewrite Ha. eexists. split; [now apply find_parameter_spec|].
    split; [reflexivity|]. apply in_pairs. split; [reflexivity|]. apply targets_spec. split; [|exact Hr]. f_equal.
    exact (first_part_det _ _ _ (sub_target_first x) Hf).
Qed.
Lemma sub_edges_spec p v es : at_path p template = Some v -> (exists r, p = r ++ [PKey "Fn::Sub"]) -> sub_edges rs (p, v) = Ok es ->
  forall a b, In (a, b) es <-> source_of p = Some a /\ refers_to v "Fn::Sub" b /\ resource template b.
Proof using Hwf Hpl Hrs.
  intros Hp [r ->] He a b. destruct Hpl as [_ [_ Hg]]. apply Hg in Hp. unfold sub_edges in He. cbn [fst snd] in He.
  destruct (source_of (r ++ _)) as [a'|]; [|injection He as <-; split; [intros [] | intros [H _]; discriminate]].
  destruct Hp as [[s ->]|[[s ->]|[s [m ->]]]]; rewrite (sub_names _ a b _ _ _ He); (split; [intros [-> [Hr [x [Hx [Ha Hf]]]]] | intros [[= ->] [Hr H]]; inversion Hr; subst]);
    try (split; [reflexivity|]; split; [econstructor; eassumption | exact Hr]); split; auto; split; auto; eauto 6.
Qed.
Lemma sub_edges_ok p v : at_path p template = Some v -> (exists r, p = r ++ [PKey "Fn::Sub"]) -> exists es, sub_edges rs (p, v) = Ok es.
Proof using Hpl.
  intros Hp [r ->]. destruct Hpl as [_ [_ Hg]]. apply Hg in Hp. unfold sub_edges. cbn [fst snd].
  destruct (source_of _); [|eauto].
  destruct Hp as [[s0 ->]|[[s0 ->]|[s0 [m ->]]]]; apply concat_res_total; intros x _; cbn [in_values bind]; eauto.
Qed.
Lemma other_source p v a b es : source_of p <> Some a ->
  (getatt_edges rs (p, v) = Ok es \/ sub_edges rs (p, v) = Ok es) -> ~ In (a, b) es.
Proof.
  clear. intros Hs H Hi. unfold getatt_edges, sub_edges in H. cbn [fst snd] in H. destruct (source_of p) as [a'|]; [|destruct H as [[= <-]|[= <-]]; destruct Hi].
  assert (Hn : a <> a') by congruence.
  assert (Hc : forall t values, concat_res (fun n => do x <- in_values n values; Ok (if x then [] else map (fun u => (a', u)) (targets rs (VStr (sub_target n))))) (find_parameter t) = Ok es -> False).
  { intros t values E. apply (concat_res_in _ _ _ (a, b) E) in Hi as [x [ys [_ [Hy Hi]]]]. destruct (in_values x values) as [[]|]; cbn [bind] in Hy; try discriminate;
      injection Hy as <-; [destruct Hi|]. apply in_pairs in Hi as [-> _]. congruence. }
  destruct H as [H|H].
  - destruct v as [| | | |s|[|x [|y [|? ?]]]|]; try (injection H as <-; destruct Hi).
    + destruct (has_char "." s); injection H as <-; [|destruct Hi]. apply in_pairs in Hi as [-> _]. congruence.
    + destruct (is_resource rs x) as [[]|]; cbn [bind] in H; try discriminate; injection H as <-; [|destruct Hi]. apply in_pairs in Hi as [-> _]. congruence.
  - destruct v as [| | | |s|[|x rest]|]; try (injection H as <-; destruct Hi); [exact (Hc _ _ H)|]. destruct x; try discriminate. exact (Hc _ _ H).
Qed.

(** The edges are the dependencies. *)
Lemma fold_edges l : forall es a b, (exists k, In (a, b, k) (fold_left add_edge l es)) <-> (exists k, In (a, b, k) es) \/ In (a, b) l.
Proof.
  clear. induction l as [|[u v] l IH]; intros es a b; cbn [fold_left].
  - split; [now left | intros [H|[]]; exact H].
  - rewrite IH. unfold add_edge at 1. cbn [fst snd In]. split.
    + intros [[k H]|H]; [|auto]. apply in_app_iff in H as [H|[[= <- <- _]|[]]]; eauto.
    + intros [[k H]|[[= <- <-]|H]]; [left; exists k; apply in_app_iff; auto | left; eexists; apply in_app_iff; right; now left | auto].
Qed.
Lemma graph_total : exists es, build_graph template globals = Ok es.
Proof using Hwf Hgw Hgl Hpl Hrs.
  unfold build_graph. rewrite Hrs. cbn [bind].
  destruct (concat_res_total (depends_edges rs) rs) as [x Hx].
  { intros nr H. destruct (depends_edges_ok nr H) as [o [_ E]]. eauto. }
  rewrite Hx. cbn [bind]. assert (Hsub : forall f, f <> "Resources" -> forall (E : path * val -> res (list (string * string))),
    (forall p v, source_of p = None -> exists es, E (p, v) = Ok es) ->
    (forall p v, at_path p template = Some v -> (exists r, p = r ++ [PKey f]) -> exists es, E (p, v) = Ok es) ->
    exists es, concat_res E (search_deep_keys f template globals) = Ok es).
  { intros f Hf E HN HT. apply concat_res_total. intros [p v] Hi. destruct (source_of p) as [a|] eqn:Es; [|now apply HN].
    apply (in_search f a) in Hi as [H1 H2]; [|exact Hf|exact Es]. now apply HT. }
  destruct (Hsub "Fn::GetAtt") with (E := getatt_edges rs) as [y Hy]; [discriminate| |exact getatt_edges_ok|].
  { intros p v Hs. unfold getatt_edges. cbn [fst]. rewrite Hs. eauto. }
  destruct (Hsub "Fn::Sub") with (E := sub_edges rs) as [z Hz]; [discriminate| |exact sub_edges_ok|].
  { intros p v Hs. unfold sub_edges. cbn [fst]. rewrite Hs. eauto. }
  rewrite Hy. cbn [bind]. rewrite Hz. cbn [bind]. eauto.
Qed.
Lemma graph_edges es a b : build_graph template globals = Ok es -> (exists k, In (a, b, k) es) <-> depends template a b.
Proof using Hwf Hgw Hgl Hpl Hrs.
  unfold build_graph. rewrite Hrs. cbn [bind]. intros H.
  destruct (concat_res (depends_edges rs) rs) as [x|] eqn:Ex; cbn [bind] in H; [|discriminate].
  destruct (concat_res (getatt_edges rs) _) as [y|] eqn:Ey; cbn [bind] in H; [|discriminate].
  destruct (concat_res (sub_edges rs) _) as [z|] eqn:Ez; cbn [bind] in H; [|discriminate]. injection H as <-.
  rewrite fold_edges, !in_app_iff. rewrite (concat_res_in _ _ _ (a, b) Ex), (concat_res_in _ _ _ (a, b) Ey), (concat_res_in _ _ _ (a, b) Ez).
  rewrite in_depends_edges, in_ref_edges.
  rewrite (in_function_edges "Fn::GetAtt" a b (getatt_edges rs));
    [|discriminate|intros; now apply getatt_edges_spec|intros p v es Hs He; apply (other_source p v); auto|exact getatt_edges_ok].
  rewrite (in_function_edges "Fn::Sub" a b (sub_edges rs));
    [|discriminate|intros; now apply sub_edges_spec|intros p v es Hs He; apply (other_source p v); auto|exact sub_edges_ok].
  split.
  - intros [[k []]|[[Hr [v [Hp [->|[l [-> Hl]]]]]]|[[Hr [r [v [Hp Hv]]]]|[[Hr [r [v [Hp Hv]]]]|[Hr [r [v [Hp Hv]]]]]]]].
    + now apply dp_text.
    + now apply (dp_list _ _ _ l).
    + now apply (dp_function _ _ _ r "Ref" v).
    + now apply (dp_function _ _ _ r "Fn::GetAtt" v).
    + now apply (dp_function _ _ _ r "Fn::Sub" v).
  - intros [Hr Hp|l Hr Hp Hl|r f v Hr Hp Hv]; right.
    + left. split; [exact Hr|]. exists (VStr b). auto.
    + left. split; [exact Hr|]. exists (VList l). eauto.
    + assert (Hf : f = "Ref" \/ f = "Fn::GetAtt" \/ f = "Fn::Sub") by (inversion Hv; auto).
      destruct Hf as [->|[->| ->]]; [right; left | right; right; left | right; right; right]; (split; [exact Hr|]); eauto.
Qed.
Lemma depends_source a b : depends template a b -> In a (keys rs).
Proof using Hwf Hpl Hrs.
  intros H. assert (E : exists v r, at_path (PKey "Resources" :: PKey a :: r) template = Some v) by (destruct H; eauto).
  destruct E as [v [r E]]. apply path_resources in E as [x [E _]]. apply assoc_Some_key. eauto.
Qed.
End Edges.

(** * Cycles *)
Section Cycles.
Variable find_cycle : list edge -> string -> option (list edge).
Hypothesis Hfc : finds_cycles find_cycle.

Lemma edge_eqb_eq a b : edge_eqb a b = true <-> a = b.
Proof.
  clear. destruct a as [[u v] k], b as [[u' v'] k']. unfold edge_eqb. cbn [fst snd]. rewrite !andb_true_iff, !String.eqb_eq, Nat.eqb_eq.
  split; [intros [[-> ->] ->]; reflexivity | intros [= -> -> ->]; auto].
Qed.
Lemma add_new_in result e x : In x (add_new result e) <-> In x result \/ x = e.
Proof.
  clear. unfold add_new. destruct (existsb (edge_eqb e) result) eqn:E.
  - apply existsb_exists in E as [y [Hy He]]. apply edge_eqb_eq in He. subst y. split; [now left | intros [H| ->]; assumption].
  - rewrite in_app_iff. cbn. intuition congruence.
Qed.
Lemma add_all_in c : forall result x, In x (fold_left add_new c result) <-> In x result \/ In x c.
Proof.
  clear. induction c as [|e c IH]; intros result x; cbn [fold_left In]; [tauto|]. rewrite IH, add_new_in. intuition congruence.
Qed.
Lemma get_cycles_in es names x : In x (get_cycles find_cycle es names) <->
  exists s c, In s names /\ find_cycle es s = Some c /\ In x c.
Proof.
  clear. unfold get_cycles.
  enough (H : forall result, In x (fold_left (fun result s => match find_cycle es s with Some cyc => fold_left add_new cyc result | None => result end) names result) <->
     In x result \/ exists s c, In s names /\ find_cycle es s = Some c /\ In x c).
  { rewrite H. split; [intros [[]|H']; exact H' | auto]. }
  induction names as [|s names IH]; intros result; cbn [fold_left].
  - split; [auto | intros [H|[s [c [[] _]]]]; exact H].
  - rewrite IH. destruct (find_cycle es s) as [c|] eqn:E.
    + rewrite add_all_in. split.
      * intros [[H|H]|[s' [c' [H1 H2]]]]; [auto | right; exists s, c; cbn; auto | right; exists s', c'; cbn; tauto].
      * intros [H|[s' [c' [[<-|H1] [H2 H3]]]]]; [auto | left; right; congruence | right; eauto].
    + split.
      * intros [H|[s' [c' [H1 H2]]]]; [auto | right; exists s', c'; cbn; tauto].
      * intros [H|[s' [c' [[<-|H1] [H2 H3]]]]]; [auto | congruence | right; eauto].
Qed.

Lemma walk_app es u l v m w : walk es u l v -> walk es v m w -> walk es u (l ++ m) w.
Proof. clear. induction 1; [auto|]. intros H'. cbn. constructor; auto. Qed.
Lemma walk_in es u l v : walk es u l v -> forall x y k, In (x, y, k) l ->
  exists l1 l2, l = l1 ++ (x, y, k) :: l2 /\ In (x, y, k) es /\ walk es u l1 x /\ walk es y l2 v.
Proof.
  clear. induction 1 as [u|u v' k' l w He Hw IH]; intros x y k Hi; [destruct Hi|].
  destruct Hi as [[= <- <- <-]|Hi].
  - exists [], l. repeat split; auto. constructor.
  - destruct (IH x y k Hi) as [l1 [l2 [-> [H1 [H2 H3]]]]]. exists ((u, v', k') :: l1), l2. repeat split; auto. now constructor.
Qed.
End Cycles.

(** * The theorems *)
Lemma depends_walk template es : (forall a b, (exists k, In (a, b, k) es) <-> depends template a b) ->
  forall a b, clos_refl_trans _ (depends template) a b <-> exists l, walk es a l b.
Proof.
  intros He a b. split.
  - intros H. apply clos_rt_rt1n in H. induction H as [x|x y z H1 H2 [l IH]]; [exists []; constructor|].
    apply He in H1 as [k H1]. exists ((x, y, k) :: l). now constructor.
  - intros [l H]. induction H as [u|u v k l w H1 H2 IH]; [apply rt_refl|]. eapply rt_trans; [|exact IH].
    apply rt_step. apply He. eauto.
Qed.
Lemma clos_t_first {A} (R : A -> A -> Prop) a b : clos_trans _ R a b -> exists c, R a c /\ clos_refl_trans _ R c b.
Proof.
  intros H. apply clos_trans_t1n in H. inversion H as [y H1|y z H1 H2]; subst; [exists b; split; [exact H1 | apply rt_refl]|].
  exists y. split; [exact H1|]. apply clos_t1n_trans in H2. clear - H2. induction H2 as [x z H|x y z H1 IH1 H2 IH2]; [now apply rt_step|]. eapply rt_trans; eassumption.
Qed.

Section Main.
Variable find_cycle : list edge -> string -> option (list edge).
Variable template globals : val.
Hypothesis Hfc : finds_cycles find_cycle.
Hypothesis Hwf : wf template.
Hypothesis Hgw : wf globals.
Hypothesis Hgl : at_path [PKey "Resources"] globals = None.
Hypothesis Hpl : plain_functions template.

Definition circular_text (a b : string) : string :=
  ("Circular Dependencies for resource " ++ a ++ ". Circular dependency with [" ++ b ++ "]")%string.

Lemma c20_total : exists ms, circular_match template globals find_cycle = Ok ms.
Proof using Hwf Hgw Hgl Hpl.
  assert (Hr : exists rs, resources_of template = Ok rs).
  { destruct Hpl as [[d [rs [-> [[H|[H _]] _]]]] _]; unfold resources_of; cbn [vget_def bind]; rewrite H; eauto. }
  destruct Hr as [rs Hr]. destruct (graph_total template globals Hwf Hgw Hgl Hpl rs Hr) as [es He].
  unfold circular_match. rewrite He, Hr. cbn [bind]. eauto.
Qed.

Lemma c20_sound ms m : circular_match template globals find_cycle = Ok ms -> In m ms ->
  exists a b, m = mkRM [PKey "Resources"; PKey a] (circular_text a b) /\ depends template a b /\
    clos_refl_trans _ (depends template) b a.
Proof using All.
  intros H Hi. unfold circular_match in H. destruct (build_graph template globals) as [es|] eqn:He; [|discriminate]. cbn [bind] in H.
  destruct (resources_of template) as [rs|] eqn:Hr; [|discriminate]. cbn [bind] in H. injection H as <-.
  apply in_map_iff in Hi as [[[a b] k] [<- Hi]]. exists a, b. split; [reflexivity|].
  apply get_cycles_in in Hi as [s [c [Hs [Hc Hi]]]]. destruct Hfc as [Hf _]. apply Hf in Hc as [_ [u [l [_ Hw]]]].
  destruct (walk_in _ _ _ _ Hw _ _ _ Hi) as [l1 [l2 [-> [H1 [H2 H3]]]]].
  assert (Hd := graph_edges template globals Hwf Hgw Hgl Hpl rs Hr es).
  split; [apply Hd; eauto|]. apply (depends_walk template es); [intros; now apply Hd|]. exists (l2 ++ l1). eapply walk_app; eauto.
Qed.

Lemma c20_complete ms r a : circular_match template globals find_cycle = Ok ms ->
  clos_refl_trans _ (depends template) r a -> clos_trans _ (depends template) a a ->
  exists x y, In (mkRM [PKey "Resources"; PKey x] (circular_text x y)) ms /\
    clos_refl_trans _ (depends template) r x /\ depends template x y /\ clos_refl_trans _ (depends template) y x.
Proof using All.
  intros H Hra Ha. unfold circular_match in H. destruct (build_graph template globals) as [es|] eqn:He; [|discriminate]. cbn [bind] in H.
  destruct (resources_of template) as [rs|] eqn:Hr; [|discriminate]. cbn [bind] in H. injection H as <-.
  assert (Hd := fun a b => graph_edges template globals Hwf Hgw Hgl Hpl rs Hr es a b He).
  destruct (clos_t_first _ _ _ Ha) as [c [Hac Hca]]. destruct (proj2 (Hd _ _) Hac) as [k Hk].
  destruct (proj1 (depends_walk template es Hd _ _) Hca) as [l Hl]. destruct (proj1 (depends_walk template es Hd _ _) Hra) as [l0 Hl0].
  assert (Hin : In r (keys rs)).
  { apply clos_rt_rt1n in Hra. inversion Hra as [|y z H1 H2]; subst; eapply (depends_source template Hwf Hpl rs Hr); eauto. }
  destruct (find_cycle es r) as [cyc|] eqn:Ef.
  - destruct Hfc as [Hf _]. destruct (Hf _ _ _ Ef) as [Hne [u [l1 [Hl1 Hw]]]]. destruct cyc as [|[[x y] k'] cyc]; [exfalso; now apply Hne|].
    inversion Hw as [|? ? ? ? ? H1 H2]; subst. exists x, y. split.
    + apply in_map_iff. exists (x, y, k'). split; [reflexivity|]. apply get_cycles_in. exists r, ((x, y, k') :: cyc). cbn. auto.
    + split; [apply (depends_walk template es Hd); eauto|]. split; [apply Hd; eauto|]. apply (depends_walk template es Hd). eauto.
  - exfalso. destruct Hfc as [_ Hn]. assert (E := Hn es r l0 a ((a, c, k) :: l) Ef Hl0). discriminate E. now constructor.
Qed.

Lemma c20_acyclic ms : circular_match template globals find_cycle = Ok ms ->
  (forall a, ~ clos_trans _ (depends template) a a) -> ms = [].
Proof using All.
  intros H Hn. destruct ms as [|m ms]; [reflexivity|]. exfalso. destruct (c20_sound _ m H (or_introl eq_refl)) as [a [b [_ [H1 H2]]]].
  apply (Hn a). enough (Hg : forall z, clos_refl_trans _ (depends template) b z -> clos_trans _ (depends template) a z) by now apply Hg.
  clear - H1. intros z H2. apply clos_rt_rtn1 in H2.
  induction H2 as [|y z H3 H4 IH]; [now apply t_step|]. eapply t_trans; [exact IH | now apply t_step].
Qed.
End Main.

(** * The contract of find_cycle can be met *)
Lemma dfs_eq f es path u : dfs (S f) es path u =
  (fix go (out : list edge) : option (list edge) :=
     match out with
     | [] => None
     | e :: rest =>
         if String.eqb (fst (fst e)) u then
           if existsb (fun x => String.eqb (fst (fst x)) (snd (fst e))) (e :: path) then Some (cut (snd (fst e)) (e :: path) [])
           else match dfs f es (e :: path) (snd (fst e)) with Some c => Some c | None => go rest end
         else go rest
     end) es.
Proof. reflexivity. Qed.
(** [rev path] is a walk from the start to [u]. *)
Lemma cut_walk es path : forall w s u acc, walk es s (rev path) w -> walk es w acc u ->
  existsb (fun x => String.eqb (fst (fst x)) u) path = true ->
  cut u path acc <> [] /\ (exists l, walk es s l u) /\ walk es u (cut u path acc) u.
Proof.
  induction path as [|[[x y] k] path IH]; intros w s u acc Hw Ha He; [discriminate|]. cbn [cut fst snd]. cbn [existsb fst snd] in He.
  cbn [rev] in Hw. assert (Hs : exists v, walk es s (rev path) v /\ v = x /\ walk es x [(x, y, k)] w).
  { clear - Hw. revert Hw. generalize (rev path). intros l. revert s. induction l as [|e l IHl]; intros s H; cbn in H.
    - inversion H as [|? ? ? ? ? H1 H2]; subst. eexists. split; [constructor|]. inversion H2; subst. auto.
    - inversion H as [|? ? ? ? ? H1 H2]; subst. destruct (IHl _ H2) as [z [H3 [-> H4]]]. exists x. split; [now constructor | auto]. }
  destruct Hs as [v [Hs1 [-> Hs2]]]. destruct (String.eqb_spec x u) as [->|Hn].
  - split; [discriminate|]. split; [eauto|]. change (walk es u ([(u, y, k)] ++ acc) u). eapply walk_app; eauto.
  - cbn [orb] in He. apply (IH x s u ((x, y, k) :: acc)); [exact Hs1| |exact He].
    change (walk es x ([(x, y, k)] ++ acc) u). eapply walk_app; eauto.
Qed.
Lemma walk_snoc es s l u v k : walk es s l u -> In (u, v, k) es -> walk es s (l ++ [(u, v, k)]) v.
Proof. intros H1 H2. eapply walk_app; [exact H1|]. constructor; [exact H2 | constructor]. Qed.
Lemma dfs_sound es : forall f path u s c, walk es s (rev path) u -> dfs f es path u = Some c ->
  c <> [] /\ exists w l, walk es s l w /\ walk es w c w.
Proof.
  induction f as [|f IH]; intros path u s c Hw H; [discriminate|]. rewrite dfs_eq in H.
  assert (Hin : incl es es) by apply incl_refl. revert H Hin. generalize es at 2 3. intros out.
  induction out as [|[[x y] k] out IHo]; [discriminate|]. intros H Hin. cbn [fst snd] in H.
  assert (Hin' : incl out es) by (intros e He; apply Hin; now right).
  destruct (String.eqb_spec x u) as [->|Hn]; [|now apply IHo].
  assert (He : In (u, y, k) es) by (apply Hin; now left).
  destruct (existsb (fun x : edge => String.eqb (fst (fst x)) y) ((u, y, k) :: path)) eqn:Ee.
  - injection H as <-. assert (Hw' : walk es s (rev ((u, y, k) :: path)) y) by (cbn; now apply walk_snoc).
    destruct (cut_walk es _ y s y [] Hw' (wk_nil _ _) Ee) as [H1 [[l H2] H3]]. split; [exact H1|]. eauto.
  - destruct (dfs f es ((u, y, k) :: path) y) as [c'|] eqn:Ed; [|now apply IHo]. injection H as <-.
    apply (IH ((u, y, k) :: path) y s c'); [|exact Ed]. cbn. now apply walk_snoc.
Qed.
(** No answer: no edge leads back to the path, and the search went on from the end of each edge. *)
Lemma dfs_none f es path u : dfs (S f) es path u = None -> forall v k, In (u, v, k) es ->
  existsb (fun x => String.eqb (fst (fst x)) v) ((u, v, k) :: path) = false /\ dfs f es ((u, v, k) :: path) v = None.
Proof.
  rewrite dfs_eq. intros H v k. revert H. generalize es at 2 3. intros out.
  induction out as [|[[x y] k'] out IHo]; [intros _ []|]. cbn [fst snd]. intros H Hi.
  destruct (String.eqb_spec x u) as [->|Hn].
  - destruct (existsb (fun x : edge => String.eqb (fst (fst x)) y) ((u, y, k') :: path)) eqn:Ee; [discriminate|]. destruct (dfs f es ((u, y, k') :: path) y) eqn:Ed; [discriminate|].
    destruct Hi as [[= <- <-]|Hi]; [split; [exact Ee | exact Ed] | now apply IHo].
  - destruct Hi as [[= -> _ _]|Hi]; [congruence | now apply IHo].
Qed.
(** Following a walk, the search runs out of fuel only after as many steps as it had. *)
Lemma dfs_follow es : forall l f path u w, List.length l <= f -> NoDup (map (fun x : edge => fst (fst x)) path) ->
  ~ In u (map (fun x : edge => fst (fst x)) path) -> dfs f es path u = None -> incl path es -> walk es u l w ->
  exists path', List.length path' = List.length path + List.length l /\ NoDup (map (fun x : edge => fst (fst x)) path') /\ incl path' es.
Proof.
  induction l as [|[[x y] k] l IH]; intros f path u w Hl Hnd Hu Hd Hin Hw.
  - exists path. rewrite Nat.add_0_r. auto.
  - assert (Hx : In (u, y, k) es /\ walk es y l w /\ x = u) by (inversion Hw; subst; auto). destruct Hx as [H1 [H2 ->]].
    destruct f as [|f]; [cbn in Hl; lia|].
    destruct (dfs_none f es path u Hd y k H1) as [He Hd'].
    destruct (IH f ((u, y, k) :: path) y w) as [p' [E [Hp Hi]]].
    + cbn in Hl. lia.
    + cbn. constructor; assumption.
    + intros Hy. assert (existsb (fun x => String.eqb (fst (fst x)) y) ((u, y, k) :: path) = true); [|congruence].
      apply existsb_exists. apply in_map_iff in Hy as [e [Ee Hy]]. exists e. split; [exact Hy|]. now apply String.eqb_eq.
    + exact Hd'.
    + intros e [<-|H]; auto.
    + exact H2.
    + exists p'. split; [|auto]. rewrite E. cbn. lia.
Qed.
Lemma walk_repeat es u c n : walk es u c u -> walk es u (List.concat (repeat c n)) u.
Proof. intros H. induction n as [|n IH]; cbn; [constructor|]. eapply walk_app; eauto. Qed.
Lemma walk_firstn es u l w n : walk es u l w -> exists v, walk es u (firstn n l) v.
Proof.
  intros H. revert n. induction H as [u|u v k l w He Hw IH]; intros n; [rewrite firstn_nil; eexists; constructor|].
  destruct n as [|n]; [eexists; constructor|]. destruct (IH n) as [x Hx]. exists x. now constructor.
Qed.
Lemma length_repeat {A} (c : list A) n : c <> [] -> n <= List.length (List.concat (repeat c n)).
Proof.
  intros Hc. induction n as [|n IH]; cbn; [lia|]. rewrite app_length. destruct c; [congruence|]. cbn. lia.
Qed.
Theorem find_cycle_dfs_contract : finds_cycles find_cycle_dfs.
Proof.
  split.
  - intros es s c H. apply (dfs_sound es _ [] s s c (wk_nil _ _) H).
  - intros es s l u c Hd Hw Hc. destruct (list_eq_dec (fun a b : edge => ltac:(repeat decide equality)) c []) as [E|Hne]; [exact E|]. exfalso.
    pose (n := S (List.length es)). assert (Hlong := walk_app _ _ _ _ _ _ Hw (walk_repeat es u c n Hc)).
    destruct (walk_firstn _ _ _ _ n Hlong) as [v Hv].
    assert (Hlen : List.length (firstn n (l ++ List.concat (repeat c n))) = n).
    { apply firstn_length_le. rewrite app_length. assert (H := length_repeat c n Hne). lia. }
    unfold find_cycle_dfs in Hd. destruct (dfs_follow es (firstn n (l ++ List.concat (repeat c n))) (S (2 * List.length es)) [] s v) as [p' [E [Hnd Hi]]].
    + rewrite Hlen. unfold n. lia.
    + constructor.
    + intros [].
    + exact Hd.
    + intros x [].
    + exact Hv.
    + rewrite Hlen in E. cbn in E. assert (Hn : List.length p' <= List.length es).
      { apply NoDup_incl_length; [|exact Hi]. now apply NoDup_map_inv in Hnd. }
      unfold n in E. lia.
Qed.

(** * Witness *)
Definition ring : val :=
  VDict [("Resources", VDict
    [("A", VDict [("Type", VStr "T"); ("DependsOn", VStr "B")]);
     ("B", VDict [("Type", VStr "T"); ("Properties", VDict [("P", VDict [("Fn::Sub", VStr "x-${C.Arn}-${AWS::Region}")])])]);
     ("C", VDict [("Type", VStr "T"); ("Properties", VDict [("Q", VDict [("Fn::GetAtt", VList [VStr "B"; VStr "Arn"])])])]);
     ("D", VDict [("Type", VStr "T"); ("Properties", VDict [("R", VDict [("Ref", VStr "A")])])])])].
Lemma ring_plain : plain_functions ring.
Proof.
  assert (Hfind : forall f p v, at_path (p ++ [PKey f]) ring = Some v -> In (p ++ [PKey f], v) (search f ring [])).
  { intros f p v H. apply search_spec; [cbn; intuition (repeat constructor; cbn; intuition discriminate)|]. exists p. auto. }
  split; [|split].
  - do 2 eexists. split; [reflexivity|]. split; [left; reflexivity|]. intros n x. cbn. intros [[= <- <-]|[[= <- <-]|[[= <- <-]|[[= <- <-]|[]]]]]; eauto.
  - intros p v H. apply Hfind in H. cbn in H. destruct H as [[= _ <-]|[]]. right. eauto.
  - intros p v H. apply Hfind in H. cbn in H. destruct H as [[= _ <-]|[]]. left. eauto.
Qed.
Lemma ring_wf : wf ring.
Proof. cbn; intuition (repeat constructor; cbn; intuition discriminate). Qed.
Lemma ring_matches : circular_match ring (VDict []) find_cycle_dfs =
  Ok [mkRM [PKey "Resources"; PKey "B"] (circular_text "B" "C"); mkRM [PKey "Resources"; PKey "C"] (circular_text "C" "B")].
Proof. vm_compute. reflexivity. Qed.
