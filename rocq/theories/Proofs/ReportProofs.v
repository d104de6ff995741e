(** C06 and C41 for whole runs, with their counterexamples. *)
From Coq Require Import Lia Permutation.
From Verif.Model Require Import Base Node Locate Helpers Rules Runner Config Core.
From Verif.Spec Require Import Pipeline Branches Walk Metadata.
From Verif.Proofs Require Import BaseFacts PipelineProofs RunProofs BranchProofs WalkProofs Samples.

Lemma e0002_iff s : e0002_on s <-> e0002_selected s.
Proof. apply is_enabled_spec. Qed.

Lemma c06_others sp k c bad :
  spec_ok sp -> e0002_selected (k_set k) ->
  exists raw raw', snd (coll_run sp k c) = Ok raw /\ snd (coll_run sp (other_rules bad k) c) = Ok raw' /\ subseq raw' raw.
Proof. intros H He. apply others_reported; [exact H | now apply e0002_iff]. Qed.

Lemma c06_match sp k c raw r :
  snd (coll_run sp k c) = Ok raw -> In r (rules (fst (coll_run sp k c))) ->
  (forall fs, matchall r c = Ok fs -> incl fs raw) /\
  (forall e, matchall r c = Err e -> e <> ETemplateAttribute -> In (crash_finding (c_file c) (r_id r) e) raw).
Proof. rewrite coll_run_body. cbn [fst snd]. apply match_reported. Qed.

Lemma c06_props sp k c raw r name rt attrs pd :
  snd (coll_run sp k c) = Ok raw -> In r (rules (fst (coll_run sp k c))) ->
  resource_of (template c) name rt attrs -> assoc "Properties" attrs = Some (VDict pd) ->
  (forall fs, matchall_props r c (VDict pd) rt [PKey "Resources"; PKey name; PKey "Properties"] = Ok fs -> incl fs raw) /\
  (forall e, matchall_props r c (VDict pd) rt [PKey "Resources"; PKey name; PKey "Properties"] = Err e ->
     e <> ETemplateAttribute -> In (crash_finding (c_file c) (r_id r) e) raw).
Proof.
  rewrite coll_run_body. cbn [fst snd]. intros H Hr Hres Hp.
  assert (Hty : assoc "Type" attrs = Some (VStr rt)) by now destruct Hres as [? [? [_ [_ [_ ?]]]]].
  apply resource_of_listed in Hres.
  exact (props_reported sp _ c raw r name (VDict attrs) rt pd H Hr Hres Hty Hp).
Qed.

Lemma c06_subs sp k c raw r name rt attrs pd n w q :
  snd (coll_run sp k c) = Ok raw -> In r (rules (fst (coll_run sp k c))) ->
  resource_of (template c) name rt attrs -> assoc "Properties" attrs = Some (VDict pd) ->
  resource_nested sp rt (VDict pd) [PKey "Resources"; PKey name; PKey "Properties"] n w q -> ~ is_if w ->
  (forall fs, matchall_subs r c w n q = Ok fs -> incl fs raw) /\
  (forall e, matchall_subs r c w n q = Err e -> e <> ETemplateAttribute -> In (crash_finding (c_file c) (r_id r) e) raw).
Proof. rewrite coll_run_body. cbn [fst snd]. apply subs_reported. Qed.

(** Switching E0002 off loses the findings of every rule. *)
Lemma c06_refuted :
  exists k c bad l,
    snd (run_checks no_spec no_translator (other_rules bad k) ["us-east-1"] [] c) = Findings l /\ l <> [] /\
    snd (run_checks no_spec no_translator k ["us-east-1"] [] c) = Findings [].
Proof.
  exists (mkColl [rule_of "E9001" [mkRM [PKey "Resources"] "bad"]; crash_rule "E9003"] (mkSettings false ["E0002"] ["W"; "E"] [] [])),
    (mkCfn "t.yaml" "us-east-1" multi_line), "E9003".
  eexists. split; [vm_compute; reflexivity|]. split; [discriminate | vm_compute; reflexivity].
Qed.

Lemma c06_silent : exists r c, matchall r c = Err ETemplateAttribute /\ e0002_selected default_settings /\
  snd (coll_run no_spec (mkColl [r] default_settings) c) = Ok [].
Proof.
  exists (mkRule "E9003" false [] [] [] [] (fun _ => ([], [])) (Some (fun _ _ => Err ETemplateAttribute)) None None),
    (mkCfn "t.yaml" "us-east-1" multi_line).
  split; [vm_compute; reflexivity|]. split; [apply e0002_iff; reflexivity | vm_compute; reflexivity].
Qed.

(** * C41 *)
Lemma vget_def_object n v : is_object v -> forall def, exists w, vget_def n def v = Ok w.
Proof. intros [d ->] def. cbn. eauto. Qed.
Lemma ignore_ids_strings l : ignore_ids (map VStr l) = Ok l.
Proof. induction l as [|s l IH]; cbn; [reflexivity | now rewrite IH]. Qed.
Lemma vget_object n v w : is_object v -> (forall x, member n v x -> is_object x) ->
  vget_def n (VDict []) v = Ok w -> is_object w /\ (member n v w \/ w = VDict []).
Proof.
  intros Hv Hx H. apply vget_member in H as [H|[-> _]]; [split; auto | split; [now exists [] | now right]].
Qed.
Lemma resource_directives_total nm r :
  metadata_ok (erase r) -> nm <> None -> (is_object (erase r) -> loc_of r <> None) -> exists ds, resource_directives nm r = Ok ds.
Proof.
  intros Hm Hnm Hl0. unfold resource_directives.
  destruct (erase r) as [| | | | | |d] eqn:Er; eauto.
  assert (Hty : exists x, (match assoc "Type" d with None | Some VNull => true | _ => false end) = x) by eauto.
  destruct (assoc "Type" d) as [ty|]; eauto.
  assert (Hrest : exists ds,
    (do m <- vget_def "Metadata" (VDict []) (VDict d); do l <- vget_def "cfn-lint" (VDict []) m;
     do cf <- vget_def "config" (VDict []) l; do ic <- vget_def "ignore_checks" (VList []) cf;
     do ids <- iter_ignore ic;
     match ids with
     | [] => Ok []
     | _ => match loc_of r, nm with
            | Some v, Some n => Ok (map (fun id => mkDir id (sl n + 1) (sc n + 1) (el v + 1) (ec v + 1)) ids)
            | _, _ => Err EAttribute
            end
     end) = Ok ds).
  { assert (Hloc : exists v, loc_of r = Some v).
    { destruct (loc_of r) as [v|]; [now exists v|]. exfalso. apply Hl0; [now exists d | reflexivity]. }
    destruct Hloc as [v Hv]. rewrite Hv. destruct nm as [n|]; [|congruence].
    destruct (vget_def_object "Metadata" (VDict d) (ex_intro _ d eq_refl) (VDict [])) as [m Hgm].
    rewrite Hgm. cbn [bind]. apply vget_member in Hgm.
    assert (Hmo : is_object m) by (destruct Hgm as [Hgm|[-> _]]; [now apply Hm | now exists []]).
    destruct (vget_def_object "cfn-lint" m Hmo (VDict [])) as [l Hgl]. rewrite Hgl. cbn [bind]. apply vget_member in Hgl.
    assert (Hlo : is_object l /\ (member "cfn-lint" m l \/ l = VDict [])).
    { destruct Hgl as [Hgl|[-> _]]; [|split; [now exists [] | now right]].
      destruct Hgm as [Hgm|[-> _]]; [|now apply not_member_empty in Hgl].
      split; [now apply (Hm m Hgm) | now left]. }
    destruct Hlo as [Hlo Hlm].
    destruct (vget_def_object "config" l Hlo (VDict [])) as [cf Hgc]. rewrite Hgc. cbn [bind]. apply vget_member in Hgc.
    assert (Hco : is_object cf /\ (member "config" l cf \/ cf = VDict [])).
    { destruct Hgc as [Hgc|[-> _]]; [|split; [now exists [] | now right]].
      destruct Hlm as [Hlm| ->]; [|now apply not_member_empty in Hgc].
      destruct Hgm as [Hgm|[-> _]]; [|now apply not_member_empty in Hlm].
      split; [now apply (Hm m Hgm) with (l := l) | now left]. }
    destruct Hco as [Hco Hcm].
    destruct (vget_def_object "ignore_checks" cf Hco (VList [])) as [ic Hgi]. rewrite Hgi. cbn [bind]. apply vget_member in Hgi.
    assert (Hic : string_list_value ic).
    { destruct Hgi as [Hgi|[-> _]]; [|now exists []].
      destruct Hcm as [Hcm| ->]; [|now apply not_member_empty in Hgi].
      destruct Hlm as [Hlm| ->]; [|now apply not_member_empty in Hcm].
      destruct Hgm as [Hgm|[-> _]]; [|now apply not_member_empty in Hlm].
      destruct (Hm m Hgm) as [_ H1]. destruct (H1 l Hlm) as [_ H2]. destruct (H2 cf Hcm) as [_ H3]. now apply H3. }
    destruct Hic as [ids ->]. cbn [iter_ignore]. rewrite ignore_ids_strings. cbn [bind].
    destruct ids; eauto. }
  destruct ty; eauto.
Qed.
Lemma get_directives_total t : resources_ok t -> exists ds, get_directives t = Ok ds.
Proof.
  intros [m0 [d [-> H]]]. cbn [get_directives].
  destruct (massoc "Resources" d) as [[| | |m1 rs]|]; eauto.
  apply concat_res_total. intros [[name nm] r] Hin. cbn [fst snd].
  destruct (H m1 rs name nm r eq_refl Hin) as [H1 [H2 H3]]. now apply resource_directives_total.
Qed.

(** The metadata of a run with well-formed resources: it ends with a report holding every unsuppressed finding. *)
Lemma c41_partial sp tr k regions man c :
  spec_ok sp -> e0002_selected (k_set k) -> resources_ok (c_tmpl c) -> wants_transform (template c) = false ->
  (forall r, In r regions -> In r REGIONS) ->
  exists raw ds k' l,
    snd (coll_run sp k c) = Ok raw /\ get_directives (c_tmpl c) = Ok ds /\
    run_checks sp tr k regions man c = (k', Findings l) /\
    (forall m, In m raw -> ~ suppressed man ds m -> exists u, In u l /\ same_finding m u).
Proof.
  intros Hsp He Hres Ht Hreg.
  destruct (get_directives_total _ Hres) as [ds Hds].
  destruct (run_body_total sp (initialize_all k c) c Hsp) as [raw Hraw]; [now apply e0002_iff|].
  exists raw, ds, (initialize_all k c), (sort_findings (filter_matches man ds raw [])).
  split; [exact Hraw|]. split; [exact Hds|]. split.
  - unfold run_checks. replace (forallb (fun r => smem r REGIONS) regions) with true.
    + cbn [negb]. rewrite Ht. unfold runner_run. rewrite coll_run_body, Hraw, Hds. reflexivity.
    + symmetry. apply forallb_forall. intros r Hr. apply smem_iff. now apply Hreg.
  - intros m Hm Hs. destruct (report_complete man ds raw m Hm Hs) as [u [Hu Hsu]]. exists u. split; [|exact Hsu].
    apply (Permutation_in _ (Permutation_sym (sort_perm _)) Hu).
Qed.

(** A resource whose Metadata is a string: nothing is reported for the whole template. *)
Definition string_metadata : mval :=
  MDict (ml 0 0 5 0)
    [(("Resources", Some (ml 0 0 0 9)),
      MDict (ml 1 2 5 0)
        [(("A", Some (ml 1 2 1 3)),
          MDict (ml 2 4 5 0)
            [(("Type", Some (ml 2 4 2 8)), MStr (ml 2 10 2 11) "T");
             (("Metadata", Some (ml 3 4 3 12)), MStr (ml 3 14 3 20) "notes")])])].
(** Metadata of the template itself that is a string: the linter stops with an exception. *)
Definition string_template_metadata : mval :=
  MDict (ml 0 0 5 0)
    [(("Metadata", Some (ml 0 0 0 8)), MStr (ml 0 10 0 16) "notes");
     (("Resources", Some (ml 1 0 1 9)), MDict (ml 2 2 5 0) [])].

Lemma c41_refuted_report :
  exists c raw, let k := mkColl [bad_b] default_settings in
    snd (coll_run no_spec k c) = Ok raw /\ raw <> [] /\
    snd (run_checks no_spec no_translator k ["us-east-1"] [] c) = Findings [].
Proof.
  exists (mkCfn "t.yaml" "us-east-1" string_metadata). eexists. split; [vm_compute; reflexivity|].
  split; [discriminate | vm_compute; reflexivity].
Qed.
Lemma c41_refuted_crash :
  exists t e, forall str sp tr all, snd (lint_one str sp tr all [] [] initial_state "t.yaml" (DecOk t)) = Err e.
Proof.
  exists string_template_metadata, ETemplateAttribute. intros str sp tr all. vm_compute. reflexivity.
Qed.

Lemma multi_line_ok : resources_ok multi_line.
Proof.
  eexists _, _. split; [reflexivity|]. intros m1 rs name nm r H Hin. cbn in H. inversion H; subst; clear H.
  assert (Hd : forall n d x, member n (VDict d) x <-> assoc n d = Some x).
  { intros n d x. rewrite member_assoc. split; [intros [d' [E Hx]]; inversion E; now subst | intros Hx; now exists d]. }
  destruct Hin as [H|[H|[]]]; inversion H; subst; clear H; (split; [|split; [discriminate | intros _; discriminate]]); cbn.
  - intros m Hm. apply Hd in Hm. cbn in Hm. inversion Hm; subst. split; [eexists; reflexivity|].
    intros l Hl. apply Hd in Hl. cbn in Hl. inversion Hl; subst. split; [eexists; reflexivity|].
    intros c Hc. apply Hd in Hc. cbn in Hc. inversion Hc; subst. split; [eexists; reflexivity|].
    intros i Hi. apply Hd in Hi. cbn in Hi. inversion Hi; subst. now exists ["E9001"].
  - intros m Hm. apply Hd in Hm. discriminate.
Qed.

(** A resource with nested objects behind conditions. *)
Definition walk_spec : spec :=
  mkSpec [("T.Box", mkTS (Some [("in", mkPD (Some "In") None)]) None None); ("T.In", mkTS (Some [("x", mkPD None None)]) None None)]
         [("T", mkTS (Some [("Boxes", mkPD (Some "List") (Some "Box")); ("One", mkPD (Some "In") None)]) None None)].
Definition walk_coll : collection :=
  mkColl [mkRule "E9009" false [] [] [] ["T.In"] (fun _ => ([], [])) None None
            (Some (fun _ _ _ _ p => Ok [mkRM p ("at depth " ++ str_of_Z (Z.of_nat (List.length p)))%string]))] default_settings.
Definition un (v : val) : mval := MScalar v.
Definition m_dict (d : list (string * mval)) : mval := MDict (ml 0 0 0 0) (map (fun kv => ((fst kv, Some (ml 0 0 0 0)), snd kv)) d).
Definition m_list (l : list mval) : mval := MList (ml 0 0 0 0) l.
Definition m_str (s : string) : mval := MStr (ml 0 0 0 0) s.
Definition walk_mprops : mval :=
  m_dict [("Fn::If", m_list [m_str "C";
     m_dict [("Boxes", m_list [m_dict [("Fn::If", m_list [m_str "D"; m_dict [("Ref", m_str "AWS::NoValue")];
                                                          m_dict [("in", m_dict [("x", m_str "1")])]])]])];
     m_dict [("One", m_dict [("x", m_str "2")])]])].
Definition walk_template : mval :=
  m_dict [("Resources", m_dict [("A", m_dict [("Type", m_str "T"); ("Properties", walk_mprops)])])].
Definition walk_props : list (string * val) := dict_of (erase walk_mprops).

Lemma walk_example :
  exists raw, snd (coll_run walk_spec walk_coll (mkCfn "t" "us-east-1" walk_template)) = Ok raw /\
    map f_msg raw = ["at depth 10"; "at depth 6"] /\
    resource_nested walk_spec "T" (VDict walk_props) [PKey "Resources"; PKey "A"; PKey "Properties"] "T.In"
      (VDict [("x", VStr "1")])
      [PKey "Resources"; PKey "A"; PKey "Properties"; PKey "Fn::If"; PIdx 1; PKey "Boxes"; PIdx 0; PKey "Fn::If"; PIdx 2;
       PKey "in"].
Proof.
  eexists. split; [vm_compute; reflexivity|]. split; [reflexivity|].
  assert (Htn : forall t, t <> "Tag" -> type_name "T" (Some t) ("T." ++ t)) by (intros t Ht; now apply tn_other).
  eapply rn_list with (key := "Boxes") (i := 0).
  - apply br_then. apply br_leaf.
    + intros [x Hx]. discriminate.
    + discriminate.
    + apply st_dict. apply pr_keep; [discriminate | constructor].
  - eexists [], _. split; [reflexivity | intros []].
  - reflexivity.
  - left; reflexivity.
  - eexists [], _. split; [reflexivity | intros []].
  - split; [reflexivity|]. cbn. intros [H|[H|[]]]; discriminate.
  - reflexivity.
  - eapply n_if with (i := 2).
    + apply (Htn "Box"); discriminate.
    + eexists [], _. split; [reflexivity | intros []].
    + reflexivity.
    + discriminate.
    + left; reflexivity.
    + cbn. intros [H|[]]; discriminate.
    + right. split; reflexivity.
    + reflexivity.
    + eapply n_prop_obj with (key := "in").
      * apply (Htn "Box"); discriminate.
      * eexists [], _. split; [reflexivity | intros []].
      * reflexivity.
      * left; reflexivity.
      * eexists [], _. split; [reflexivity | intros []].
      * intros [H _]. discriminate.
      * reflexivity.
      * discriminate.
      * cbn. eapply n_here; [apply (Htn "In"); discriminate|].
        eexists [_], _. split; [reflexivity|]. cbn. intros [H|[]]; discriminate.
Qed.
