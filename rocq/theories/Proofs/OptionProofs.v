(** C08, C09, C10. *)
From Coq Require Import Lia.
From Verif.Model Require Import Base Node Helpers Config.
From Verif.Spec Require Import Options.
From Verif.Proofs Require Import BaseFacts.

(** * C08 *)
Lemma truthy_iff v : truthy v = true <-> nonempty v.
Proof.
  unfold nonempty, empty_value. split.
  - intros H G. destruct G as [->|[->|[->|[[q [-> Hq]]|[->|[->| ->]]]]]]; try discriminate.
    cbn in H. apply negb_true_iff in H. apply Qeq_bool_iff in Hq. congruence.
  - intros H. destruct v as [|b|z|q|s|l|d]; cbn.
    + exfalso; apply H; auto.
    + destruct b; [reflexivity|]. exfalso; apply H; auto.
    + apply negb_true_iff, Z.eqb_neq. intros ->. apply H; auto.
    + apply negb_true_iff. destruct (Qeq_bool q 0) eqn:E; [|reflexivity]. exfalso. apply H.
      right; right; right; left. exists q. split; [reflexivity|]. now apply Qeq_bool_iff.
    + apply negb_true_iff, String.eqb_neq. intros ->. apply H; auto 6.
    + destruct l; [|reflexivity]. exfalso; apply H; auto 7.
    + destruct d; [|reflexivity]. exfalso; apply H; auto 8.
Qed.
Lemma truthy_iff' v : truthy v = false <-> ~ nonempty v.
Proof. rewrite <- truthy_iff. destruct (truthy v); intuition congruence. Qed.

Lemma smem_In x l : smem x l = true <-> In x l.
Proof.
  unfold smem. rewrite existsb_exists. split.
  - intros [y [H1 H2]]. apply String.eqb_eq in H2. now subst.
  - intros H. exists x. split; [exact H | apply String.eqb_refl].
Qed.
Lemma smem_app x a b : smem x (a ++ b) = smem x a || smem x b.
Proof. unfold smem. apply existsb_app. Qed.
Lemma option_sources_tables name : option_sources name = (smem name in_template, smem name in_file).
Proof.
  unfold option_sources, in_file. rewrite smem_app. change (smem name ["ignore_checks"; "include_checks"; "include_experimental";
    "regions"; "ignore_bad_template"; "configure_rules"]) with (smem name in_template).
  destruct (smem name in_template) eqn:E; [reflexivity|]. cbn [orb].
  match goal with |- context[if ?b then _ else _] => destruct b; reflexivity end.
Qed.

Lemma c08_first s name v : option_value s name = v <-> first_of nonempty s name v.
Proof.
  unfold option_value. rewrite option_sources_tables. unfold get_argument_value. cbv zeta.
  change (lookup (cli s) name) with (value_in (cli s) name).
  change (lookup (tmpl s) name) with (value_in (tmpl s) name).
  change (lookup (file s) name) with (value_in (file s) name).
  assert (Ht := smem_In name in_template). assert (Hf := smem_In name in_file).
  destruct (truthy (value_in (cli s) name)) eqn:E1.
  - apply truthy_iff in E1. split; [intros <-; now apply from_cli | intros []; congruence || contradiction].
  - apply truthy_iff' in E1.
    destruct (truthy (value_in (tmpl s) name) && smem name in_template) eqn:E2.
    + apply andb_true_iff in E2. destruct E2 as [E2 E2']. apply truthy_iff in E2. apply Ht in E2'.
      split; [intros <-; now apply from_template |]. intros []; subst; try contradiction; try reflexivity; exfalso; tauto.
    + assert (N2 : ~ (In name in_template /\ nonempty (value_in (tmpl s) name))).
      { intros [Ha Hb]. apply Ht in Ha. apply truthy_iff in Hb. rewrite Ha, Hb in E2. discriminate. }
      destruct (truthy (value_in (file s) name) && smem name in_file) eqn:E3.
      * apply andb_true_iff in E3. destruct E3 as [E3 E3']. apply truthy_iff in E3. apply Hf in E3'.
        split; [intros <-; now apply from_file |]. intros []; subst; try contradiction; try reflexivity; exfalso; tauto.
      * assert (N3 : ~ (In name in_file /\ nonempty (value_in (file s) name))).
        { intros [Ha Hb]. apply Hf in Ha. apply truthy_iff in Hb. rewrite Ha, Hb in E3. discriminate. }
        split; [intros <-; now apply from_default |]. intros []; subst; try contradiction; try reflexivity; exfalso; tauto.
Qed.

Lemma c08_refuted : exists s name v, first_of present s name v /\ option_value s name <> v.
Proof.
  exists (mkSources [] [("ignore_bad_template", VBool false)] [("ignore_bad_template", VBool true)]),
         "ignore_bad_template", (VBool false).
  split; [|discriminate]. apply from_template.
  - intros H. apply H. reflexivity.
  - cbn. tauto.
  - reflexivity.
  - discriminate.
Qed.

(** The Metadata of a template. *)
Lemma c08_experimental : exists t a,
  at_keys (metadata_path "include_experimental") t = Some (VBool true) /\ In "include_experimental"%string in_template /\
  set_template_args t = Ok a /\
  include_experimental (mkSources [] a []) = false.
Proof.
  exists (VDict [("Metadata", VDict [("cfn-lint", VDict [("config", VDict [("include_experimental", VBool true)])])])]), [].
  split; [reflexivity|]. split; [cbn; tauto|]. split; reflexivity.
Qed.


(** * C09 *)
Lemma merge_assoc u p k :
  exists m, merge_config (VDict u) (VDict p) = VDict m /\
  assoc k m = match assoc k u, assoc k p with
              | Some (VDict a), Some (VDict b) => Some (merge_config (VDict a) (VDict b))
              | Some _, Some pv => Some pv
              | Some uv, None => Some uv
              | None, o => o
              end.
Proof.
  set (go := fix go (u : list (string * val)) : list (string * val) :=
           match u with
           | [] => []
           | (k, uv) :: rest =>
               let uv' := match assoc k p with
                          | None => uv
                          | Some pv => match uv, pv with
                                       | VDict _, VDict _ => merge_config uv pv
                                       | _, _ => pv
                                       end
                          end in
               (k, uv') :: go rest
           end).
  exists (go u ++ filter (fun kv => negb (mem_assoc (fst kv) u)) p). split; [reflexivity|].
  assert (Hgo : forall u, assoc k (go u) =
            match assoc k u with
            | None => None
            | Some uv => Some (match assoc k p with
                          | None => uv
                          | Some pv => match uv, pv with
                                       | VDict _, VDict _ => merge_config uv pv
                                       | _, _ => pv
                                       end
                          end)
            end).
  { intros u'. induction u' as [|[k' uv] u' IH]; [reflexivity|]. cbn [go assoc].
    destruct (String.eqb_spec k k') as [->|Hn]; [reflexivity | exact IH]. }
  assert (Happ : forall a b : list (string * val), assoc k (a ++ b) = match assoc k a with Some x => Some x | None => assoc k b end).
  { intros a b. induction a as [|[k' x] a IH]; [reflexivity|]. cbn. destruct (String.eqb k k'); auto. }
  rewrite Happ, Hgo. destruct (assoc k u) as [uv|] eqn:Eu.
  - destruct (assoc k p) as [pv|]; [|destruct uv; reflexivity]. destruct uv; try reflexivity. destruct pv; reflexivity.
  - assert (Hmem : mem_assoc k u = false) by (unfold mem_assoc; now rewrite Eu).
    clear -Hmem. induction p as [|[k' x] p IH]; [reflexivity|]. cbn [filter fst assoc].
    destruct (String.eqb_spec k k') as [->|Hn].
    + rewrite Hmem. cbn [negb]. cbn [assoc]. now rewrite String.eqb_refl.
    + destruct (negb (mem_assoc k' u)); [|exact IH]. cbn [assoc]. apply String.eqb_neq in Hn. now rewrite Hn.
Qed.

Lemma merge_step u p k : exists m, merge_config (VDict u) (VDict p) = VDict m /\
  forall rest, at_keys (k :: rest) (VDict m) =
     match assoc k u, assoc k p with
              | Some (VDict a), Some (VDict b) => at_keys rest (merge_config (VDict a) (VDict b))
              | Some _, Some pv => at_keys rest pv
              | Some uv, None => at_keys rest uv
              | None, Some pv => at_keys rest pv
              | None, None => None
              end.
Proof.
  destruct (merge_assoc u p k) as [m [H1 H2]]. exists m. split; [exact H1|]. intros rest. cbn [at_keys]. rewrite H2.
  destruct (assoc k u) as [uv|], (assoc k p) as [pv|]; try reflexivity; destruct uv; try reflexivity; destruct pv; reflexivity.
Qed.

Lemma c09_project ks : forall u p v,
  at_keys ks (VDict p) = Some v ->
  exists w, at_keys ks (merge_config (VDict u) (VDict p)) = Some w /\ (is_leaf v -> w = v).
Proof.
  induction ks as [|k ks IH]; intros u p v H.
  - cbn [at_keys] in H. injection H as <-. exists (merge_config (VDict u) (VDict p)). split; [reflexivity|].
    intros Hl. exfalso. now apply (Hl p).
  - destruct (merge_step u p k) as [m [H1 H2]]. rewrite H1, H2. cbn [at_keys] in H.
    destruct (assoc k p) as [pv|]; [|discriminate].
    destruct (assoc k u) as [uv|]; [|now exists v].
    destruct uv as [| | | | | |a]; try (now exists v).
    destruct pv as [| | | | | |b]; try (now exists v).
    now apply IH.
Qed.

Lemma c09_user ks : forall u p v,
  at_keys ks (VDict u) = Some v -> ~ cut_off ks (VDict p) ->
  exists w, at_keys ks (merge_config (VDict u) (VDict p)) = Some w /\
    (at_keys ks (VDict p) = None -> w = v).
Proof.
  induction ks as [|k ks IH]; intros u p v H Hc.
  - cbn [at_keys] in H. injection H as <-. eexists. split; [reflexivity|]. discriminate.
  - destruct (merge_step u p k) as [m [H1 H2]]. rewrite H1, H2. cbn [at_keys] in *.
    destruct (assoc k u) as [uv|] eqn:Eu; [|discriminate].
    destruct (assoc k p) as [pv|] eqn:Ep.
    + assert (Hpd : exists b, pv = VDict b).
      { destruct pv as [| | | | | |b]; try (exfalso; apply Hc; exists [k], ks; eexists; split; [reflexivity|];
          split; [cbn [at_keys]; rewrite Ep; reflexivity | intros d; discriminate]). now exists b. }
      destruct Hpd as [b ->].
      destruct ks as [|k2 ks].
      * (* a value at the key itself *)
        destruct uv as [| | | | | |a]; cbn [at_keys]; eexists; (split; [reflexivity | discriminate]).
      * destruct uv as [| | | | | |a]; try discriminate.
        apply IH; [exact H|]. intros [bf [af [w [E1 [E2 E3]]]]]. apply Hc.
        exists (k :: bf), af, w. split; [cbn; now rewrite E1|]. split; [|exact E3]. cbn [at_keys]. now rewrite Ep.
    + destruct uv as [| | | | | |a]; exists v; split; auto.
Qed.

Lemma c09_nothing_new ks : forall u p w,
  at_keys ks (merge_config (VDict u) (VDict p)) = Some w ->
  (exists v, at_keys ks (VDict u) = Some v /\ (is_leaf w -> v = w)) \/
  (exists v, at_keys ks (VDict p) = Some v /\ (is_leaf w -> v = w)).
Proof.
  induction ks as [|k ks IH]; intros u p w H.
  - cbn [at_keys] in H. injection H as <-. left. exists (VDict u). split; [reflexivity|].
    intros Hl. exfalso. destruct (merge_assoc u p "") as [m [Hm _]]. now apply (Hl m).
  - destruct (merge_step u p k) as [m [H1 H2]]. rewrite H1, H2 in H. cbn [at_keys].
    destruct (assoc k u) as [uv|] eqn:Eu, (assoc k p) as [pv|] eqn:Ep; try discriminate.
    + destruct uv as [| | | | | |a]; try (right; now exists w).
      destruct pv as [| | | | | |b]; try (right; now exists w).
      now apply IH.
    + left. exists w. split; [|auto]. destruct uv; exact H.
    + right. now exists w.
Qed.

(** * C10 *)
Lemma free_app c a b : free_of c (a ++ b)%string <-> free_of c a /\ free_of c b.
Proof. induction a as [|x a IH]; cbn; tauto. Qed.
Lemma app_assoc_s (a b c : string) : ((a ++ b) ++ c = a ++ (b ++ c))%string.
Proof. induction a as [|x a IH]; cbn; [reflexivity | now rewrite IH]. Qed.
Lemma split_aux_free c s : forall acc rest, free_of c s ->
  split_aux c (s ++ String c rest)%string acc = (acc ++ s)%string :: split_on c rest.
Proof.
  induction s as [|a s IH]; intros acc rest H; cbn.
  - unfold char_eqb. rewrite Ascii.eqb_refl. f_equal. clear. induction acc; cbn; congruence.
  - destruct H as [H1 H2]. unfold char_eqb in *. apply Ascii.eqb_neq in H1. rewrite H1, IH; auto.
    f_equal. rewrite app_assoc_s. reflexivity.
Qed.
Lemma split_aux_last c s : forall acc, free_of c s -> split_aux c s acc = [(acc ++ s)%string].
Proof.
  induction s as [|a s IH]; intros acc H; cbn.
  - f_equal. clear. induction acc; cbn; congruence.
  - destruct H as [H1 H2]. unfold char_eqb in *. apply Ascii.eqb_neq in H1. rewrite H1, IH; auto.
    f_equal. now rewrite app_assoc_s.
Qed.
Lemma split_free c s rest : free_of c s -> split_on c (s ++ String c rest)%string = s :: split_on c rest.
Proof. intros H. unfold split_on at 1. now rewrite split_aux_free. Qed.
Lemma split_whole c s : free_of c s -> split_on c s = [s].
Proof. intros H. unfold split_on. now rewrite split_aux_last. Qed.

Lemma parse_one_render r n v : plain_setting (r, n, v) -> parse_one_config (render_setting (r, n, v)) = Ok (r, n, v).
Proof.
  intros [[_ [Hr _]] [[_ [Hn1 Hn2]] [_ [Hv1 Hv2]]]]. unfold parse_one_config, render_setting.
  change (r ++ ":" ++ n ++ "=" ++ v)%string with (r ++ String ":" (n ++ "=" ++ v))%string.
  rewrite split_free by exact Hr.
  rewrite (split_whole ":" (n ++ "=" ++ v)%string).
  2:{ rewrite free_app. split; [exact Hn1|]. cbn. split; [discriminate | exact Hv1]. }
  change (n ++ "=" ++ v)%string with (n ++ String "=" v)%string. rewrite split_free by exact Hn2.
  now rewrite split_whole.
Qed.
Lemma render_comma_free s : plain_setting s -> free_of "," (render_setting s).
Proof.
  destruct s as [[r n] v]. intros [[Hr _] [[Hn _] [Hv _]]]. unfold render_setting.
  rewrite !free_app. cbn. repeat split; auto; discriminate.
Qed.
Lemma split_render l : l <> [] -> Forall plain_setting l -> comma_separated_arg (render_settings l) = map render_setting l.
Proof.
  unfold comma_separated_arg. induction l as [|s l IH]; [congruence|]. intros _ H. inversion H; subst.
  destruct l as [|s2 l].
  - cbn [render_settings map]. apply split_whole. now apply render_comma_free.
  - change (render_settings (s :: s2 :: l)) with (render_setting s ++ String "," (render_settings (s2 :: l)))%string.
    rewrite split_free by now apply render_comma_free. cbn [map]. f_equal. apply IH; [discriminate | assumption].
Qed.

Lemma assoc_set_same {A} k (v : A) d : assoc k (set_assoc k v d) = Some v.
Proof. induction d as [|[k' v'] d IH]; cbn; [now rewrite String.eqb_refl|]. destruct (String.eqb_spec k k') as [->|]; cbn.
  - now rewrite String.eqb_refl.
  - apply String.eqb_neq in n. now rewrite n. Qed.
Lemma assoc_set_other {A} k k2 (v : A) d : k2 <> k -> assoc k2 (set_assoc k v d) = assoc k2 d.
Proof.
  intros Hn. apply String.eqb_neq in Hn. induction d as [|[k' v'] d IH]; cbn; [now rewrite Hn|].
  destruct (String.eqb_spec k k') as [->|Hk]; cbn.
  - now rewrite Hn.
  - destruct (String.eqb k2 k'); auto.
Qed.

Lemma recorded_add rs r n v r' n' :
  recorded (add_setting r n v rs) r' n' = if String.eqb r' r && String.eqb n' n then Some v else recorded rs r' n'.
Proof.
  unfold recorded, add_setting. destruct (String.eqb_spec r' r) as [->|Hr].
  - rewrite assoc_set_same. cbn [andb]. destruct (String.eqb_spec n' n) as [->|Hn].
    + apply assoc_set_same.
    + rewrite assoc_set_other by exact Hn. destruct (assoc r rs); reflexivity.
  - rewrite assoc_set_other by exact Hr. reflexivity.
Qed.

Lemma parse_configs_render l : forall rs, Forall plain_setting l ->
  exists out, parse_configs (map render_setting l) rs = Ok out /\
    (forall r n, recorded out r n = match last_value r n l with Some v => Some v | None => recorded rs r n end) /\
    (forall r, (forall n v, ~ In (r, n, v) l) -> assoc r out = assoc r rs).
Proof.
  induction l as [|[[r n] v] l IH]; intros rs H; cbn [map parse_configs].
  - exists rs. split; [reflexivity|]. split; reflexivity.
  - inversion H as [|? ? Hs Hl]; subst. rewrite parse_one_render by exact Hs. cbn [bind].
    destruct (IH (add_setting r n v rs) Hl) as [out [H1 [H2 H3]]]. exists out. split; [exact H1|]. split.
    + intros r' n'. rewrite H2, recorded_add. cbn [last_value]. destruct (last_value r' n' l); [reflexivity|].
      destruct (String.eqb r' r && String.eqb n' n); reflexivity.
    + intros r' Hr'. rewrite H3.
      * unfold add_setting. apply assoc_set_other. intros ->. apply (Hr' n v). now left.
      * intros n' v' Hin. apply (Hr' n' v'). now right.
Qed.

(** Merging the settings of one argument into the namespace. *)
Definition merge_one (its : rule_configs) (kv : string * list (string * string)) : rule_configs :=
      match assoc (fst kv) its with
      | Some old => set_assoc (fst kv) (fold_left (fun o s => set_assoc (fst s) (snd s) o) (snd kv) old) its
      | None => set_assoc (fst kv) (snd kv) its
      end.
Lemma fold_set_keep n (l : list (string * string)) : forall o, assoc n l = None -> assoc n (fold_left (fun o s => set_assoc (fst s) (snd s) o) l o) = assoc n o.
Proof.
  induction l as [|[k v] l IH]; intros o H; [reflexivity|]. cbn in *.
  destruct (String.eqb_spec n k) as [->|Hn]; [discriminate|]. rewrite IH by exact H. now apply assoc_set_other.
Qed.
Lemma fold_set_hit n (l : list (string * string)) v : forall o, NoDup (keys l) -> assoc n l = Some v ->
  assoc n (fold_left (fun o s => set_assoc (fst s) (snd s) o) l o) = Some v.
Proof.
  induction l as [|[k w] l IH]; intros o Hn H; [discriminate|]. cbn in *. inversion Hn as [|? ? Hk Hn']; subst.
  destruct (String.eqb_spec n k) as [->|Hne].
  - injection H as ->. rewrite fold_set_keep; [apply assoc_set_same|]. now apply assoc_None.
  - now apply IH.
Qed.
Lemma recorded_merge_one its k o r n : NoDup (keys o) ->
  recorded (merge_one its (k, o)) r n =
  if String.eqb r k then match assoc n o with Some v => Some v | None => recorded its r n end else recorded its r n.
Proof.
  intros Hn. unfold merge_one, recorded. cbn [fst snd]. destruct (String.eqb_spec r k) as [->|Hr].
  - destruct (assoc k its) as [old|] eqn:E; rewrite assoc_set_same.
    + destruct (assoc n o) as [v|] eqn:Eo; [now apply fold_set_hit | now apply fold_set_keep].
    + destruct (assoc n o); reflexivity.
  - destruct (assoc k its) as [old|]; rewrite assoc_set_other by exact Hr; reflexivity.
Qed.
Definition nodup2 (rs : rule_configs) : Prop := NoDup (keys rs) /\ Forall (fun kv => NoDup (keys (snd kv))) rs.
Lemma set_assoc_keys {A} k (v : A) d x : In x (keys (set_assoc k v d)) <-> x = k \/ In x (keys d).
Proof.
  unfold keys. induction d as [|[k' v'] d IH]; cbn; [intuition|].
  destruct (String.eqb_spec k k') as [->|Hn]; cbn; [intuition congruence|]. rewrite IH. intuition congruence.
Qed.
Lemma set_assoc_NoDup {A} k (v : A) d : NoDup (keys d) -> NoDup (keys (set_assoc k v d)).
Proof.
  unfold keys. induction d as [|[k' v'] d IH]; cbn; intros H; [constructor; [easy | constructor]|].
  inversion H as [|? ? H1 H2]; subst. destruct (String.eqb_spec k k') as [->|Hn]; cbn; constructor; auto.
  intros Hin. apply (set_assoc_keys k v d k') in Hin. destruct Hin as [Hin|Hin]; [now subst | now apply H1].
Qed.
Lemma set_assoc_Forall {A} (P : string * A -> Prop) k v d :
  P (k, v) -> Forall P d -> Forall P (set_assoc k v d).
Proof.
  intros Hp. induction d as [|[k' v'] d IH]; cbn; intros H; [constructor; auto|]. inversion H; subst.
  destruct (String.eqb_spec k k') as [->|Hn]; constructor; auto.
Qed.
Lemma add_setting_nodup r n v rs : nodup2 rs -> nodup2 (add_setting r n v rs).
Proof.
  intros [H1 H2]. unfold add_setting. split; [now apply set_assoc_NoDup|]. apply set_assoc_Forall; [|exact H2]. cbn.
  apply set_assoc_NoDup. destruct (assoc r rs) as [o|] eqn:E; [|constructor].
  apply assoc_In in E. rewrite Forall_forall in H2. exact (H2 _ E).
Qed.
Lemma parse_configs_nodup cs : forall rs out, nodup2 rs -> parse_configs cs rs = Ok out -> nodup2 out.
Proof.
  induction cs as [|c cs IH]; intros rs out H; cbn [parse_configs]; [intros [= <-]; exact H|].
  destruct (parse_one_config c) as [[[r n] v]|]; cbn [bind]; [|discriminate]. apply IH. now apply add_setting_nodup.
Qed.
Lemma merge_settings_recorded nv : forall its r n, nodup2 nv ->
  recorded (merge_settings its nv) r n = match recorded nv r n with Some v => Some v | None => recorded its r n end.
Proof.
  change (forall its r n, nodup2 nv -> recorded (fold_left merge_one nv its) r n =
     match recorded nv r n with Some v => Some v | None => recorded its r n end).
  induction nv as [|[k o] nv IH]; intros its r n [H1 H2]; [reflexivity|]. cbn [fold_left].
  inversion H1 as [|? ? Hk H1']; subst. inversion H2 as [|? ? Ho H2']; subst.
  rewrite IH by now split. rewrite recorded_merge_one by exact Ho.
  assert (Hr : recorded ((k, o) :: nv) r n = if String.eqb r k then assoc n o else recorded nv r n).
  { unfold recorded. cbn [assoc]. destruct (String.eqb r k); reflexivity. }
  rewrite Hr. destruct (String.eqb_spec r k) as [->|Hn]; [|reflexivity].
  assert (Hnone : recorded nv k n = None). { unfold recorded. now rewrite (proj2 (assoc_None k nv) Hk). }
  now rewrite Hnone.
Qed.
Lemma merge_settings_untouched nv r : forall its, ~ In r (keys nv) -> assoc r (merge_settings its nv) = assoc r its.
Proof.
  change (forall its, ~ In r (keys nv) -> assoc r (fold_left merge_one nv its) = assoc r its).
  induction nv as [|[k o] nv IH]; intros its H; [reflexivity|]. cbn [fold_left]. rewrite IH by (cbn in H; tauto).
  unfold merge_one. cbn [fst snd]. destruct (assoc k its); apply assoc_set_other; cbn in H; intros ->; tauto.
Qed.
Lemma last_value_app r n a b :
  last_value r n (a ++ b) = match last_value r n b with Some v => Some v | None => last_value r n a end.
Proof.
  induction a as [|[[r0 n0] v0] a IH]; cbn [app last_value]; [now destruct (last_value r n b)|]. rewrite IH.
  destruct (last_value r n b); reflexivity.
Qed.

Lemma c10_recorded arguments : forall items,
  Forall (fun l => l <> [] /\ Forall plain_setting l) arguments ->
  exists out, rule_configuration_action (map render_settings arguments) items = Some out /\
    (forall r n, recorded out r n =
       match last_value r n (List.concat arguments) with Some v => Some v | None => recorded items r n end) /\
    (forall r, (forall n v, ~ In (r, n, v) (List.concat arguments)) -> assoc r out = assoc r items).
Proof.
  induction arguments as [|l arguments IH]; intros items H; cbn [map rule_configuration_action].
  - exists items. split; [reflexivity|]. split; reflexivity.
  - inversion H as [|? ? [Hne Hl] Hrest]; subst. unfold parse_rule_configuration. rewrite split_render by assumption.
    destruct (parse_configs_render l [] Hl) as [nv [H1 [H2 H3]]]. rewrite H1.
    assert (Hnd : nodup2 nv) by (eapply parse_configs_nodup; [|exact H1]; split; constructor).
    destruct (IH (merge_settings items nv) Hrest) as [out [G1 [G2 G3]]]. exists out. split; [exact G1|]. split.
    + intros r n. rewrite G2, merge_settings_recorded by exact Hnd. rewrite H2. cbn [List.concat]. rewrite last_value_app.
      destruct (last_value r n (List.concat arguments)); [reflexivity|].
      destruct (last_value r n l); [reflexivity|]. reflexivity.
    + intros r Hr. rewrite G3.
      * apply merge_settings_untouched. apply assoc_None. rewrite H3; [reflexivity|].
        intros n v Hin. apply (Hr n v). cbn [List.concat]. apply in_or_app. now left.
      * intros n v Hin. apply (Hr n v). cbn [List.concat]. apply in_or_app. now right.
Qed.

Lemma c10_refuted : exists r n v out,
  rule_configuration_action [render_settings [(r, n, v)]] [] = Some out /\ recorded out r n <> Some v.
Proof.
  exists "E9001", "pattern", "a=b", [("E9001", [("pattern", "a")])]. split; [reflexivity|]. discriminate.
Qed.

(** * Metadata options *)
Lemma template_arg_ok_iff name v : template_arg_ok name v = true <-> right_kind name v.
Proof.
  unfold template_arg_ok, right_kind. split.
  - destruct (smem name _) eqn:E.
    + apply smem_In in E. intros H. left. split; [exact E|]. destruct v; try discriminate. now eexists.
    + destruct (String.eqb_spec name "override_spec") as [->|].
      { intros H. right; left. split; [reflexivity|]. destruct v; try discriminate. now eexists. }
      destruct (String.eqb_spec name "ignore_bad_template") as [->|].
      { intros H. right; right; left. split; [reflexivity|]. destruct v; try discriminate. now eexists. }
      destruct (String.eqb_spec name "configure_rules") as [->|]; [|discriminate].
      intros H. right; right; right. split; [reflexivity|]. destruct v; try discriminate. now eexists.
  - intros [[H [l ->]]|[[-> [s ->]]|[[-> [b ->]]|[-> [d ->]]]]]; try reflexivity.
    apply smem_In in H. rewrite H. reflexivity.
Qed.
Lemma assoc_filter_hit {A} (f : string * A -> bool) k v d :
  assoc k d = Some v -> f (k, v) = true -> assoc k (filter f d) = Some v.
Proof.
  induction d as [|[k' v'] d IH]; cbn [assoc filter]; [discriminate|].
  destruct (String.eqb_spec k k') as [->|Hn].
  - intros [= ->] Hf. rewrite Hf. cbn [assoc]. now rewrite String.eqb_refl.
  - intros H Hf. apply String.eqb_neq in Hn. destruct (f (k', v')); cbn [assoc]; [rewrite Hn|]; auto.
Qed.
Lemma assoc_filter_miss {A} (f : string * A -> bool) k d :
  (forall v, In (k, v) d -> f (k, v) = false) -> assoc k (filter f d) = None.
Proof.
  induction d as [|[k' v'] d IH]; cbn [filter]; [reflexivity|]. intros H.
  assert (IH' := IH (fun v Hv => H v (or_intror Hv))).
  destruct (f (k', v')) eqn:Ef; [|exact IH']. cbn [assoc]. destruct (String.eqb_spec k k') as [->|]; [|exact IH'].
  rewrite (H v' (or_introl eq_refl)) in Ef. discriminate.
Qed.
Lemma metadata_used t a name v :
  set_template_args t = Ok a -> at_keys (metadata_path name) t = Some v -> right_kind name v -> value_in a name = v.
Proof.
  unfold metadata_path, set_template_args. intros H H2 Hk. apply template_arg_ok_iff in Hk.
  destruct t as [| | | | | |d]; try discriminate. cbn [at_keys vget_def bind] in *.
  destruct (assoc "Metadata" d) as [[| | | | | |m]|]; try discriminate. cbn [at_keys vget_def bind] in *.
  destruct (assoc "cfn-lint" m) as [[| | | | | |l]|]; try discriminate. cbn [at_keys vget_def bind] in *.
  destruct (assoc "config" l) as [[| | | | | |cs]|]; try discriminate. injection H as <-.
  destruct (assoc name cs) as [x|] eqn:E; [|discriminate]. injection H2 as ->.
  unfold value_in. rewrite (assoc_filter_hit _ name v cs E); [reflexivity | exact Hk].
Qed.
Lemma metadata_unused t a name :
  set_template_args t = Ok a ->
  (forall cs v, at_keys ["Metadata"; "cfn-lint"; "config"] t = Some (VDict cs) -> In (name, v) cs -> ~ right_kind name v) ->
  value_in a name = VNull.
Proof.
  unfold set_template_args, value_in. intros H Hk.
  destruct t as [| | | | | |d]; try (injection H as <-; reflexivity). cbn [at_keys vget_def bind] in *.
  destruct (assoc "Metadata" d) as [[| | | | | |m]|]; try discriminate; cbn [at_keys vget_def bind assoc] in *;
    [|injection H as <-; reflexivity].
  destruct (assoc "cfn-lint" m) as [[| | | | | |l]|]; try discriminate; cbn [at_keys vget_def bind assoc] in *;
    [|injection H as <-; reflexivity].
  destruct (assoc "config" l) as [[| | | | | |cs]|]; injection H as <-; try reflexivity.
  rewrite assoc_filter_miss; [reflexivity|]. intros v Hv.
  destruct (template_arg_ok (fst (name, v)) (snd (name, v))) eqn:E; [|reflexivity]. apply template_arg_ok_iff in E.
  exfalso. exact (Hk cs v eq_refl Hv E).
Qed.
