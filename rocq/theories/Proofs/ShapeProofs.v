(** Proofs for C39. *)
From Coq Require Import Lia QArith.
From Verif.Model Require Import Base Helpers Rules Search Refs ConditionRules Limits Parameters Shape.
From Verif.Spec Require Import Paths Limited ConditionUse Faults.
From Verif.Proofs Require Import BaseFacts SearchProofs RelationRule LimitProofs ParameterProofs PipelineProofs RefProofs ConditionUseProofs WfDecide.
Local Open Scope string_scope.

Lemma smem_in s l : smem s l = true <-> In s l.
Proof.
  unfold smem. rewrite existsb_exists. split; [intros [x [H E]]; apply String.eqb_eq in E; now subst | intros H; exists s; split; [exact H | apply String.eqb_refl]].
Qed.
Lemma smem_not s l : smem s l = false <-> ~ In s l.
Proof. rewrite <- smem_in. destruct (smem s l); split; congruence. Qed.
Lemma truthy_spec v : truthy v = false <-> empty v.
Proof.
  unfold empty. destruct v as [|b|z|q|s|l|d]; cbn [truthy].
  - split; [intros _; now left | reflexivity].
  - destruct b; split; try (intros H; discriminate); try reflexivity; [|auto]. intros [H|[H|[H|[[q [H _]]|[H|[H|H]]]]]]; discriminate.
  - rewrite negb_false_iff, Z.eqb_eq. split; [intros ->; auto | intros [H|[H|[H|[[q [H _]]|[H|[H|H]]]]]]; congruence].
  - rewrite negb_false_iff, Qeq_bool_iff. split; [intros H; right; right; right; left; eauto | intros [H|[H|[H|[[q' [[= <-] H]]|[H|[H|H]]]]]]; congruence].
  - rewrite negb_false_iff, String.eqb_eq. split; [intros ->; auto 6 | intros [H|[H|[H|[[q [H _]]|[H|[H|H]]]]]]; congruence].
  - destruct l; split; try reflexivity; try discriminate; [auto 8|]. intros [H|[H|[H|[[q [H _]]|[H|[H|H]]]]]]; congruence.
  - destruct d; split; try reflexivity; try discriminate; [auto 8|]. intros [H|[H|[H|[[q [H _]]|[H|[H|H]]]]]]; congruence.
Qed.
Lemma truthy_not v : truthy v = true <-> ~ empty v.
Proof. rewrite <- truthy_spec. destruct (truthy v); split; congruence. Qed.

(** ** The template *)
Lemma base_spec d m : In m (base_match d) <-> template_fault d (rm_path m) (rm_msg m).
Proof.
  unfold base_match. rewrite in_app_iff, in_flat_map. cbn [flat_map app]. rewrite app_nil_r. split.
  - intros [[x [Hx Hm]]|Hm].
    + apply one_in' in Hm as [E ->]. apply smem_not in E. cbn [rm_path rm_msg]. now constructor.
    + apply one_in' in Hm as [E ->]. apply smem_not in E. cbn [rm_path rm_msg]. now constructor.
  - destruct m as [p msg]. cbn [rm_path rm_msg]. intros H. inversion H as [k Hk Hn E1 E2|Hn E1 E2].
    + left. exists k. split; [exact Hk|]. apply one_in'. split; [now apply smem_not | reflexivity].
    + right. apply one_in'. split; [now apply smem_not | reflexivity].
Qed.

(** ** Parameters *)
Lemma composite_check v p m : In m (check_string v p) <-> composite v /\ m = type_message p "String".
Proof.
  unfold check_string, composite. destruct v as [|b|z|q|s|l|d]; try (split; [intros [] | intros [[[d H]|[l H]] _]; discriminate]).
  - split; [intros [<-|[]]; eauto | intros [_ ->]; now left].
  - split; [intros [<-|[]]; eauto | intros [_ ->]; now left].
Qed.
Lemma enum_from_in {A} (l : list A) : forall k i x, In (i, x) (enum_from k l) <-> exists j, i = k + j /\ nth_error l j = Some x.
Proof.
  induction l as [|y l IH]; intros k i x; cbn [enum_from].
  - split; [intros [] | intros [j [_ H]]; destruct j; discriminate].
  - split.
    + intros [[= <- <-]|H]; [exists 0; split; [lia | reflexivity]|]. apply IH in H as [j [-> H]]. exists (S j). split; [lia | exact H].
    + intros [[|j] [-> H]]; [injection H as ->; left; f_equal; lia | right; apply IH; exists j; split; [lia | exact H]].
Qed.
Lemma enum_in {A} (l : list A) i x : In (i, x) (enum l) <-> nth_error l i = Some x.
Proof. unfold enum. rewrite enum_from_in. split; [intros [j [-> H]]; exact H | intros H; exists i; auto]. Qed.
Lemma countable_spec v : is_bool v = false -> (exists z, py_int v = Ok z) <-> countable v.
Proof.
  intros Hb. destruct v as [|b|z|q|s|l|d]; try discriminate; cbn [py_int]; (split; [intros [z' E] | intros H]).
  all: try discriminate; try (inversion H; fail); try constructor; eauto.
  - destruct (parse_int s) eqn:Ep; [|discriminate]. econstructor; eauto.
  - inversion H as [| |s' z Ep]; subst. rewrite Ep. eauto.
Qed.
Lemma countable_not_bool v : is_bool v = true -> ~ countable v.
Proof. destruct v; try discriminate. intros _ H. inversion H. Qed.
Lemma in_texts v l : py_in v (map VStr l) = true <-> exists s, v = VStr s /\ In s l.
Proof.
  unfold py_in. rewrite existsb_exists. split.
  - intros [x [Hx E]]. apply in_map_iff in Hx as [s [<- Hs]]. destruct v as [|[]| | | | |]; try discriminate. cbn in E. apply String.eqb_eq in E. subst. eauto.
  - intros [s [-> Hs]]. exists (VStr s). split; [now apply in_map | cbn; apply String.eqb_refl].
Qed.
Lemma logical_spec v : negb (is_bool v) && negb (py_in v (map VStr ["True"; "true"; "False"; "false"])) = true <-> ~ logical v.
Proof.
  rewrite andb_true_iff, !negb_true_iff. split.
  - intros [H1 H2] Hl. destruct Hl as [b|s Hs]; [discriminate|]. assert (py_in (VStr s) (map VStr ["True"; "true"; "False"; "false"]) = true) by (apply in_texts; eauto). congruence.
  - intros H. split.
    + destruct v; try reflexivity. exfalso. apply H. constructor.
    + destruct (py_in v (map VStr ["True"; "true"; "False"; "false"])) eqn:E; [|reflexivity]. exfalso. apply H. apply in_texts in E as [s [-> Hs]]. now constructor.
Qed.
Lemma assoc_valid_none k : assoc k valid_keys = None <-> ~ In k parameter_attributes.
Proof.
  rewrite <- smem_not. unfold smem. unfold valid_keys, parameter_attributes, text_attributes, integer_attributes. cbn [assoc existsb app].
  repeat match goal with |- context [String.eqb ?a ?b] => destruct (String.eqb a b) eqn:?; cbn [orb] end; split; try discriminate; try reflexivity;
  repeat match goal with H : String.eqb _ _ = true |- _ => apply String.eqb_eq in H; subst end; cbn in *; congruence.
Qed.
Lemma string_fault v p m : In m (check_type v p AString) <-> composite v /\ m = type_message p "String".
Proof. apply composite_check. Qed.
Lemma integer_fault v p m : In m (check_type v p AInteger) <-> ~ countable v /\ m = type_message p "Integer".
Proof.
  cbn [check_type]. destruct (is_bool v) eqn:Eb.
  - split; [intros [<-|[]]; split; [now apply countable_not_bool | reflexivity] | intros [_ ->]; now left].
  - pose proof (countable_spec v Eb) as H. destruct (py_int v) as [z|e] eqn:E.
    + split; [intros [] | intros [Hn _]; exfalso; apply Hn; apply H; eauto].
    + split; [intros [<-|[]]; split; [|reflexivity]; intros Hc; apply H in Hc as [z Hz]; discriminate | intros [_ ->]; now left].
Qed.
Lemma boolean_fault v p m : In m (check_type v p ABoolean) <-> ~ logical v /\ m = type_message p "Boolean".
Proof.
  cbn [check_type]. change [VStr "True"; VStr "true"; VStr "False"; VStr "false"] with (map VStr ["True"; "true"; "False"; "false"]).
  rewrite one_in, logical_spec. reflexivity.
Qed.
Lemma strings_fault v p m : In m (check_type v p AStrings) <->
  ((forall l, v <> VList l) /\ m = type_message p "List") \/
  exists l i x, v = VList l /\ nth_error l i = Some x /\ composite x /\ m = type_message (p ++ [PIdx i])%list "String".
Proof.
  cbn [check_type]. destruct v as [|b|z|q|s|l|d]; try (split; [intros [<-|[]]; left; split; [discriminate | reflexivity] | intros [[_ ->]|[l [i [x [H _]]]]]; [now left | discriminate]]).
  rewrite in_flat_map. split.
  - intros [[i x] [Hi Hm]]. cbn [fst snd] in Hm. apply enum_in in Hi. apply composite_check in Hm as [Hc ->]. right. exists l, i, x. auto.
  - intros [[H _]|[l' [i [x [[= <-] [Hi [Hc ->]]]]]]]; [exfalso; now apply (H l)|]. exists (i, x). split; [now apply enum_in|]. now apply composite_check.
Qed.
Lemma only_for_fault n k t def m : In m (let ty := match assoc "Type" def with Some x => x | None => VNull end in
    if truthy ty && negb (py_in ty [VStr t]) then [mkRM [PKey "Parameters"; PKey n; PKey k] ("Parameter " ++ n ++ " has property " ++ k ++ " which is only valid for ['" ++ t ++ "']")] else []) <->
  exists u, assoc "Type" def = Some u /\ ~ empty u /\ u <> VStr t /\ m = mkRM [PKey "Parameters"; PKey n; PKey k] ("Parameter " ++ n ++ " has property " ++ k ++ " which is only valid for ['" ++ t ++ "']").
Proof.
  cbv zeta. rewrite one_in, andb_true_iff, negb_true_iff, truthy_not. split.
  - intros [[H1 H2] ->]. destruct (assoc "Type" def) as [u|]; [|exfalso; apply H1; now left]. exists u. repeat split; auto.
    intros ->. cbn [py_in existsb py_eq] in H2. rewrite String.eqb_refl in H2. discriminate.
  - intros [u [E [H1 [H2 ->]]]]. rewrite E. repeat split; auto. change [VStr t] with (map VStr [t]). destruct (py_in u (map VStr [t])) eqn:Ei; [|reflexivity].
    exfalso. apply in_texts in Ei as [s [-> [->|[]]]]. now apply H2.
Qed.
Lemma assoc_In {A} k (d : list (string * A)) x : assoc k d = Some x -> In (k, x) d.
Proof.
  induction d as [|[k' y] d IH]; [discriminate|]. cbn [assoc]. destruct (String.eqb_spec k k') as [->|]; [intros [= ->]; now left | intros H; right; auto].
Qed.
Lemma mem_assoc_in {A} k (d : list (string * A)) : mem_assoc k d = true <-> In k (map fst d).
Proof.
  unfold mem_assoc. induction d as [|[k' y] d IH]; cbn [assoc map fst In]; [split; [discriminate | intros []]|].
  destruct (String.eqb_spec k k') as [->|Hn]; [split; auto|]. rewrite IH. split; [auto | intros [H|H]; [congruence | exact H]].
Qed.
Lemma mem_assoc_not {A} k (d : list (string * A)) : mem_assoc k d = false <-> ~ In k (map fst d).
Proof. rewrite <- mem_assoc_in. destruct (mem_assoc k d); split; congruence. Qed.
Ltac attributes H := unfold text_attributes, integer_attributes in H; cbn [In app] in H; repeat (destruct H as [<-|H]; [|]); try (exfalso; exact H).
Lemma parameter_one_spec n def : exists ms, parameter_one (n, VDict def) = Ok ms /\ forall m, In m ms <-> parameter_fault n def (rm_path m) (rm_msg m).
Proof.
  eexists. split; [reflexivity|]. cbn [fst snd]. intros m. rewrite in_app_iff, in_flat_map, one_in', mem_assoc_not. split.
  - intros [[[k v] [Hi Hm]]|[Ht ->]].
    2: { cbn [rm_path rm_msg]. now constructor. }
    unfold parameter_attribute in Hm. cbn [fst snd] in Hm. destruct (assoc k valid_keys) as [a|] eqn:Ea.
    2: { destruct Hm as [<-|[]]. cbn [rm_path rm_msg]. eapply pf_unknown; [exact Hi | now apply assoc_valid_none]. }
    apply assoc_In in Ea. cbn [valid_keys In] in Ea.
    repeat (destruct Ea as [[= <- <-]|Ea]); try (exfalso; exact Ea); cbn [a_type a_valid_for] in Hm; apply in_app_iff in Hm as [Hm|Hm]; try (exfalso; exact Hm);
    first [ (apply string_fault in Hm as [Hc ->]; eapply pf_text; [exact Hi | cbn; tauto | exact Hc | reflexivity])
          | (apply integer_fault in Hm as [Hc ->]; eapply pf_integer; [exact Hi | cbn; tauto | exact Hc | reflexivity])
          | (apply boolean_fault in Hm as [Hc ->]; eapply pf_logical; [exact Hi | exact Hc | reflexivity])
          | (apply strings_fault in Hm as [[Hc ->]|[l [i [x [-> [Hx [Hc ->]]]]]]];
              [eapply pf_list; [exact Hi | exact Hc | reflexivity] | eapply pf_item; [exact Hi | exact Hx | exact Hc | reflexivity]])
          | (apply only_for_fault in Hm as [u [H1 [H2 [H3 ->]]]]; eapply pf_only_for; [exact Hi | constructor; cbn; tauto | exact H1 | exact H2 | exact H3]) ].
  - destruct m as [p msg]. cbn [rm_path rm_msg]. intros H.
    inversion H as [k v Hi Hn E1 E2|k v p' Hi Hk Hc Ep E1 E2|v p' Hi Hc Ep E1 E2|l i x p' Hi Hx Hc Ep E1 E2|k v p' Hi Hk Hc Ep E1 E2|v p' Hi Hc Ep E1 E2|k v t u Hi Ho Hu H1 H2 E1 E2|Hn E1 E2];
      try subst p'; try subst p; [left..|right].
    + exists (k, v). split; [exact Hi|]. unfold parameter_attribute. cbn [fst]. rewrite (proj2 (assoc_valid_none k) Hn). now left.
    + exists (k, v). split; [exact Hi|]. attributes Hk; apply in_app_iff; left; apply string_fault; split; auto.
    + exists ("AllowedValues", v). split; [exact Hi|]. apply in_app_iff; left. apply strings_fault. left. auto.
    + exists ("AllowedValues", VList l). split; [exact Hi|]. apply in_app_iff; left. apply strings_fault. right. exists l, i, x. auto.
    + exists (k, v). split; [exact Hi|]. attributes Hk; apply in_app_iff; left; apply integer_fault; split; auto.
    + exists ("NoEcho", v). split; [exact Hi|]. apply in_app_iff; left. apply boolean_fault. auto.
    + exists (k, v). split; [exact Hi|]. inversion Ho as [k' Hk|k' Hk]; subst; attributes Hk; apply in_app_iff; right; apply only_for_fault; eauto.
    + auto.
Qed.
Lemma get_parameters_section template ps : section template "Parameters" ps -> get_parameters template = Ok (VDict ps).
Proof. intros [d [-> E]]. unfold get_parameters. cbn [vget_def]. rewrite E. cbn [bind]. destruct ps; reflexivity. Qed.
Lemma parameters_spec template ps : section template "Parameters" ps -> (forall n x, In (n, x) ps -> exists def, x = VDict def) ->
  exists ms, parameter_configuration_match template = Ok ms /\ forall m, In m ms <-> exists n def, In (n, VDict def) ps /\ parameter_fault n def (rm_path m) (rm_msg m).
Proof.
  intros Hs Ho. unfold parameter_configuration_match. rewrite (get_parameters_section _ _ Hs). cbn [bind items_of].
  destruct (concat_res_total parameter_one ps) as [ms E].
  { intros [n x] Hi. destruct (Ho n x Hi) as [def ->]. destruct (parameter_one_spec n def) as [ms [E _]]. eauto. }
  exists ms. split; [exact E|]. intros m. rewrite (concat_res_in _ _ _ m E). split.
  - intros [[n x] [ys [Hi [Ey Hy]]]]. destruct (Ho n x Hi) as [def ->]. destruct (parameter_one_spec n def) as [ms' [E' H]]. rewrite E' in Ey. injection Ey as <-.
    exists n, def. split; [exact Hi | now apply H].
  - intros [n [def [Hi Hf]]]. destruct (parameter_one_spec n def) as [ms' [E' H]]. exists (n, VDict def), ms'. split; [exact Hi|]. split; [exact E' | now apply H].
Qed.
Lemma types_spec str_other template ps : section template "Parameters" ps -> (forall n x, In (n, x) ps -> exists def, x = VDict def) ->
  exists ms, parameter_types_match str_other template = Ok ms /\
  forall m, In m ms <-> exists n def t, In (n, VDict def) ps /\ assoc "Type" def = Some t /\
    ~ (exists s, t = VStr s /\ In s (VALID_PARAMETER_TYPES_SINGLE ++ VALID_PARAMETER_TYPES_LIST)%list) /\
    m = mkRM [PKey "Parameters"; PKey n; PKey "Type"] ("Parameter " ++ n ++ " has invalid type " ++ py_str str_other t).
Proof.
  intros Hs Ho. unfold parameter_types_match. rewrite (get_parameters_section _ _ Hs). cbn [bind items_of].
  match goal with |- context [concat_res ?f ps] => set (g := f) end.
  assert (Hg : forall n def, exists ms, g (n, VDict def) = Ok ms /\ forall m, In m ms <-> exists t, assoc "Type" def = Some t /\
    ~ (exists s, t = VStr s /\ In s (VALID_PARAMETER_TYPES_SINGLE ++ VALID_PARAMETER_TYPES_LIST)%list) /\
    m = mkRM [PKey "Parameters"; PKey n; PKey "Type"] ("Parameter " ++ n ++ " has invalid type " ++ py_str str_other t)).
  { intros n def. eexists. split; [reflexivity|]. cbn [fst]. intros m. rewrite one_in'. split.
    - intros [H ->]. destruct (assoc "Type" def) as [t|]; [|discriminate]. exists t. split; [reflexivity|]. split; [|reflexivity].
      intros Hin. apply in_texts in Hin. unfold VALID_PARAMETER_TYPES in H. congruence.
    - intros [t [E [Hn ->]]]. rewrite E. split; [|reflexivity]. destruct (py_in t (map VStr VALID_PARAMETER_TYPES)) eqn:Ei; [|reflexivity]. exfalso. apply Hn. now apply in_texts. }
  destruct (concat_res_total g ps) as [ms E].
  { intros [n x] Hi. destruct (Ho n x Hi) as [def ->]. destruct (Hg n def) as [ms [E _]]. eauto. }
  exists ms. split; [exact E|]. intros m. rewrite (concat_res_in _ _ _ m E). split.
  - intros [[n x] [ys [Hi [Ey Hy]]]]. destruct (Ho n x Hi) as [def ->]. destruct (Hg n def) as [ms' [E' H]]. rewrite E' in Ey. injection Ey as <-.
    apply H in Hy as [t [A [B C]]]. exists n, def, t. auto.
  - intros [n [def [t [Hi Hf]]]]. destruct (Hg n def) as [ms' [E' H]]. exists (n, VDict def), ms'. split; [exact Hi|]. split; [exact E' |]. apply H. eauto.
Qed.
Lemma per_member f (ps : list (string * val)) (P : string -> list (string * val) -> rulematch -> Prop) :
  (forall n x, In (n, x) ps -> exists def, x = VDict def /\ exists ms, f (n, VDict def) = Ok ms /\ forall m, In m ms <-> P n def m) ->
  exists ms, concat_res f ps = Ok ms /\ forall m : rulematch, In m ms <-> exists n def, In (n, VDict def) ps /\ P n def m.
Proof.
  intros Hg. destruct (concat_res_total f ps) as [ms E].
  { intros [n x] Hi. destruct (Hg n x Hi) as [def [-> [ms [E _]]]]. eauto. }
  exists ms. split; [exact E|]. intros m. rewrite (concat_res_in _ _ _ m E). split.
  - intros [[n x] [ys [Hi [Ey Hy]]]]. destruct (Hg n x Hi) as [def [-> [ms' [E' H]]]]. rewrite E' in Ey. injection Ey as <-. exists n, def. split; [exact Hi | now apply H].
  - intros [n [def [Hi Hf]]]. destruct (Hg n _ Hi) as [def' [[= <-] [ms' [E' H]]]]. exists (n, VDict def), ms'. split; [exact Hi|]. split; [exact E' | now apply H].
Qed.

(** ** Outputs *)
Lemma valid_funcs_in k : smem k valid_funcs = true <-> In k output_functions.
Proof.
  rewrite smem_in. split; intros H.
  - assert (E : forallb (fun k => smem k output_functions) valid_funcs = true) by reflexivity. rewrite forallb_forall in E. apply smem_in. now apply E.
  - assert (E : forallb (fun k => smem k valid_funcs) output_functions = true) by reflexivity. rewrite forallb_forall in E. apply smem_in. now apply E.
Qed.
Lemma call_spec k x d : call_of output_functions (VDict ((k, x) :: d)) <-> d = [] /\ smem k valid_funcs = true.
Proof.
  rewrite valid_funcs_in. split.
  - intros [f [y [[= -> -> ->] H]]]. auto.
  - intros [-> H]. exists k, x. auto.
Qed.
Lemma check_func_spec text v p m : ~ empty v -> In m (check_func text v p) <-> exists msg, value_fault text p v msg /\ m = mkRM p msg.
Proof.
  intros He. destruct v as [|b|z|q|s|l|d]; try solve [split; [intros [] | intros [msg [H _]]; inversion H]].
  - split; [intros [<-|[]]; eexists; split; [constructor | reflexivity] | intros [msg [H ->]]; inversion H; now left].
  - destruct d as [|[k x] d]; [exfalso; apply He; unfold empty; auto 8|]. cbn [check_func].
    assert (E : In m (if match d with [] => smem k valid_funcs | _ => false end then [] else [mkRM p (joined p ++ " must use one of the functions " ++ text)]) <->
                exists msg, value_fault text p (VDict ((k, x) :: d)) msg /\ m = mkRM p msg).
    { rewrite one_in'. split.
      - intros [H ->]. eexists. split; [|reflexivity]. constructor. intros Hc. apply call_spec in Hc as [-> Hc]. congruence.
      - intros [msg [H ->]]. inversion H as [d' Hn E1 E2|]; subst. split; [|reflexivity].
        destruct d; [|reflexivity]. destruct (smem k valid_funcs) eqn:Ek; [|reflexivity]. exfalso. apply Hn. apply call_spec. auto. }
    destruct d as [|y d]; exact E.
Qed.
Lemma check_export_spec text v p m : (forall x, v = VDict [("Name", x)] -> ~ empty x) -> In m (check_export text v p) <->
  ((forall x, v <> VDict [("Name", x)]) /\ m = mkRM p (shown p ++ " must be a an object of one with key ""Name""")) \/
  exists x msg, v = VDict [("Name", x)] /\ value_fault text (p ++ [PKey "Name"])%list x msg /\ m = mkRM (p ++ [PKey "Name"])%list msg.
Proof.
  intros He.
  assert (Hbad : (forall x, v <> VDict [("Name", x)]) -> In m [mkRM p (shown p ++ " must be a an object of one with key ""Name""")] <->
    ((forall x, v <> VDict [("Name", x)]) /\ m = mkRM p (shown p ++ " must be a an object of one with key ""Name""")) \/
    exists x msg, v = VDict [("Name", x)] /\ value_fault text (p ++ [PKey "Name"])%list x msg /\ m = mkRM (p ++ [PKey "Name"])%list msg).
  { intros Hn. split; [intros [<-|[]]; left; auto | intros [[_ ->]|[x [msg [E _]]]]; [now left | exfalso; exact (Hn x E)]]. }
  destruct v as [|b|z|q|s|l|[|[k x] [|y d]]]; try (apply Hbad; discriminate). cbn [check_export].
  destruct (String.eqb_spec k "Name") as [->|Hk]; [|apply Hbad; intros x' [= E _]; contradiction].
  rewrite check_func_spec by (apply He; reflexivity). split.
  - intros [msg [H ->]]. right. exists x, msg. auto.
  - intros [[H _]|[x' [msg [[= <-] [H ->]]]]]; [exfalso; exact (H x eq_refl) | eauto].
Qed.
Lemma output_one_spec text n def : filled def -> (forall x, assoc "Export" def = Some (VDict [("Name", x)]) -> ~ empty x) ->
  exists ms, output_one text (n, VDict def) = Ok ms /\ forall m, In m ms <-> output_fault text n def (rm_path m) (rm_msg m).
Proof.
  intros Hf Hn. eexists. split; [reflexivity|]. cbn [fst]. intros m. rewrite !in_app_iff, in_flat_map.
  assert (H2 : In m (if truthy (match assoc "Value" def with Some x => x | None => VNull end) then check_func text (match assoc "Value" def with Some x => x | None => VNull end) [PKey "Outputs"; PKey n; PKey "Value"] else []) <->
     exists v msg, assoc "Value" def = Some v /\ value_fault text [PKey "Outputs"; PKey n; PKey "Value"] v msg /\ m = mkRM [PKey "Outputs"; PKey n; PKey "Value"] msg).
  { destruct (assoc "Value" def) as [v|] eqn:E.
    - assert (Hv : ~ empty v) by (apply (Hf "Value" v); cbn; auto). rewrite (proj2 (truthy_not v) Hv), check_func_spec by exact Hv.
      split; [intros [msg [H ->]]; exists v, msg; auto | intros [v' [msg [[= <-] H]]]; eauto].
    - split; [intros [] | intros [v [msg [H _]]]; discriminate]. }
  assert (H3 : In m (if truthy (match assoc "Export" def with Some x => x | None => VNull end) then check_export text (match assoc "Export" def with Some x => x | None => VNull end) [PKey "Outputs"; PKey n; PKey "Export"] else []) <->
     exists v, assoc "Export" def = Some v /\ (((forall x, v <> VDict [("Name", x)]) /\ m = mkRM [PKey "Outputs"; PKey n; PKey "Export"] (shown [PKey "Outputs"; PKey n; PKey "Export"] ++ " must be a an object of one with key ""Name""")) \/
       exists x msg, v = VDict [("Name", x)] /\ value_fault text [PKey "Outputs"; PKey n; PKey "Export"; PKey "Name"] x msg /\ m = mkRM [PKey "Outputs"; PKey n; PKey "Export"; PKey "Name"] msg)).
  { destruct (assoc "Export" def) as [v|] eqn:E.
    - assert (Hv : ~ empty v) by (apply (Hf "Export" v); cbn; auto). rewrite (proj2 (truthy_not v) Hv), check_export_spec by (intros x ->; apply Hn; reflexivity).
      split; [intros H; exists v; auto | intros [v' [[= <-] H]]; exact H].
    - split; [intros [] | intros [v [H _]]; discriminate]. }
  rewrite H2, H3. clear H2 H3. split.
  - intros [[[k v] [Hi Hm]]|[[v [msg [E [H ->]]]]|[v [E [[H ->]|[x [msg [-> [H ->]]]]]]]]].
    + cbn [fst] in Hm. apply one_in' in Hm as [Ek ->]. apply smem_not in Ek. eapply of_unknown; eauto.
    + eapply of_bad_value; eauto.
    + eapply of_export; eauto.
    + eapply of_name; eauto.
  - destruct m as [p msg]. cbn [rm_path rm_msg]. intros H. inversion H as [k v Hi Hk E1 E2|v p' msg' E Ep Hv E1 E2|v p' E Hx Ep E1 E2|x p' msg' E Ep Hv E1 E2]; subst.
    + left. exists (k, v). split; [exact Hi|]. cbn [fst]. apply one_in'. split; [now apply smem_not | reflexivity].
    + right. left. eauto.
    + right. right. eauto 6.
    + right. right. exists (VDict [("Name", x)]). split; [exact E|]. right. eauto.
Qed.
Definition named_export (def : list (string * val)) : Prop := forall x, assoc "Export" def = Some (VDict [("Name", x)]) -> ~ empty x.
Lemma outputs_spec text template os : section template "Outputs" os ->
  (forall n x, In (n, x) os -> exists def, x = VDict def /\ filled def /\ forall x, assoc "Export" def = Some (VDict [("Name", x)]) -> ~ empty x) ->
  exists ms, output_configuration_match text template = Ok ms /\ forall m, In m ms <-> exists n def, In (n, VDict def) os /\ output_fault text n def (rm_path m) (rm_msg m).
Proof.
  intros [d [-> E]] Ho. unfold output_configuration_match. cbn [vget_def]. rewrite E. cbn [bind]. apply per_member.
  intros n x Hi. destruct (Ho n x Hi) as [def [-> [H1 H2]]]. exists def. split; [reflexivity|]. now apply output_one_spec.
Qed.
Lemma truthy_cons (x : string * val) d : truthy (VDict (x :: d)) = true.
Proof. reflexivity. Qed.
Lemma required_spec template os : section template "Outputs" os -> (forall n x, In (n, x) os -> exists def, x = VDict def) ->
  exists ms, output_required_match template = Ok ms /\ forall m, In m ms <-> exists n def, In (n, VDict def) os /\ ~ In "Value" (map fst def) /\
    m = mkRM [PKey "Outputs"; PKey n; PKey "Value"] ("Output " ++ n ++ " is missing property Value").
Proof.
  intros [d [-> E]] Ho. unfold output_required_match. cbn [vget_def]. rewrite E. cbn [bind].
  destruct os as [|o os]; [exists []; split; [reflexivity|]; intros m; split; [intros [] | intros [n [def [[] _]]]]|]. rewrite truthy_cons. cbn [items_of bind].
  apply per_member with (P := fun n def m => ~ In "Value" (map fst def) /\ m = mkRM [PKey "Outputs"; PKey n; PKey "Value"] ("Output " ++ n ++ " is missing property Value")).
  intros n x Hi. destruct (Ho n x Hi) as [def ->]. exists def. split; [reflexivity|]. eexists. split; [reflexivity|]. intros m. cbn [fst]. now rewrite one_in', mem_assoc_not.
Qed.
Lemma is_str_spec v : is_str v = false <-> forall s, v <> VStr s.
Proof. destruct v; cbn; split; try discriminate; try reflexivity. intros H. exfalso. now apply (H s). Qed.
Lemma output_description_spec template os : section template "Outputs" os -> (forall n x, In (n, x) os -> exists def, x = VDict def) ->
  exists ms, output_description_match template = Ok ms /\ forall m, In m ms <-> exists n def, In (n, VDict def) os /\
    (exists v, assoc "Description" def = Some v /\ (forall s, v <> VStr s) /\ ~ empty v) /\
    m = mkRM [PKey "Outputs"; PKey n; PKey "Description"] "Output Description can only be a string".
Proof.
  intros [d [-> E]] Ho. unfold output_description_match. cbn [vget_def]. rewrite E. cbn [bind].
  destruct os as [|o os]; [exists []; split; [reflexivity|]; intros m; split; [intros [] | intros [n [def [[] _]]]]|]. rewrite truthy_cons. cbn [items_of bind].
  apply per_member with (P := fun n def m => (exists v, assoc "Description" def = Some v /\ (forall s, v <> VStr s) /\ ~ empty v) /\ m = mkRM [PKey "Outputs"; PKey n; PKey "Description"] "Output Description can only be a string").
  intros n x Hi. destruct (Ho n x Hi) as [def ->]. exists def. split; [reflexivity|]. eexists. split; [reflexivity|]. intros m. cbn [fst].
  rewrite one_in, andb_true_iff, truthy_not, negb_true_iff, is_str_spec. destruct (assoc "Description" def) as [v|].
  - split; [intros [[H1 H2] ->]; split; [exists v; auto | reflexivity] | intros [[v' [[= <-] [H1 H2]]] ->]; auto].
  - split; [intros [[H _] _]; exfalso; apply H; now left | intros [[v [H _]] _]; discriminate].
Qed.
Lemma description_spec d : exists ms, description_match (VDict d) = Ok ms /\ forall m, In m ms <->
  (exists v, assoc "Description" d = Some v /\ (forall s, v <> VStr s) /\ ~ empty v) /\ m = mkRM [PKey "Description"] "Description can only be a string".
Proof.
  eexists. split; [reflexivity|]. intros m. rewrite one_in, andb_true_iff, truthy_not, negb_true_iff, is_str_spec. destruct (assoc "Description" d) as [v|].
  - split; [intros [[H1 H2] ->]; split; [exists v; auto | reflexivity] | intros [[v' [[= <-] [H1 H2]]] ->]; auto].
  - split; [intros [[H _] _]; exfalso; apply H; now left | intros [[v [H _]] _]; discriminate].
Qed.

(** ** Mappings *)
Lemma mapping_one_spec show n v m : In m (mapping_one show (n, v)) <-> mapping_fault (py_str show) n v (rm_path m) (rm_msg m).
Proof.
  destruct m as [p msg]. cbn [rm_path rm_msg]. unfold mapping_one. cbn [fst snd]. destruct v as [|b|z|q|s|l|d];
    try (split; [intros [[= <- <-]|[]]; constructor; discriminate | intros H; inversion H; subst; now left]).
  rewrite in_flat_map. split.
  - intros [[k v] [Hi Hm]]. cbn [fst snd] in Hm. 
    assert (Hf : (forall e, v <> VDict e) -> In (mkRM p msg) [mkRM [PKey "Mappings"; PKey n; PKey k] ("Mapping " ++ n ++ " has invalid property at " ++ py_str show v)] ->
                 mapping_fault (py_str show) n (VDict d) p msg).
    { intros Hv [[= <- <-]|[]]. exact (mf_first (py_str show) n d k v Hi Hv). }
    destruct v as [|b|z|q|s|l|e]; try (apply Hf; [discriminate | exact Hm]). clear Hf.
    apply in_flat_map in Hm as [[k2 v] [Hi2 Hm]]. cbn [fst snd] in Hm. apply one_in' in Hm as [Ev [= -> ->]]. eapply mf_second; [exact Hi | exact Hi2|].
    destruct v; try discriminate; eauto.
  - intros H. inversion H as [v Hd E0 E1 E2|d' k v Hi Hn E0 E1 E2|d' k e k2 v Hi Hi2 Hv E0 E1 E2]; subst.
    + exfalso. now apply (Hd d).
    + exists (k, v). split; [exact Hi|]. cbn [fst snd]. destruct v; try (left; reflexivity). exfalso. now apply (Hn d0).
    + exists (k, VDict e). split; [exact Hi|]. cbn [fst snd]. apply in_flat_map. exists (k2, v). split; [exact Hi2|]. cbn [fst snd]. apply one_in'. split; [|reflexivity].
      destruct Hv as [->|[x ->]]; reflexivity.
Qed.
Lemma mappings_spec show template ms : section template "Mappings" ms ->
  exists rs, mapping_configuration_match show template = Ok rs /\ forall m, In m rs <-> exists n v, In (n, v) ms /\ mapping_fault (py_str show) n v (rm_path m) (rm_msg m).
Proof.
  intros [d [-> E]]. unfold mapping_configuration_match. cbn [vget_def]. rewrite E. cbn [bind].
  destruct ms as [|x ms]; [exists []; split; [reflexivity|]; intros m; split; [intros [] | intros [n [def [[] _]]]]|]. rewrite truthy_cons. cbn [items_of bind].
  eexists. split; [reflexivity|]. intros m. rewrite in_flat_map. split.
  - intros [[n v] [Hi Hm]]. exists n, v. split; [exact Hi | now apply mapping_one_spec].
  - intros [n [v [Hi Hm]]]. exists (n, v). split; [exact Hi | now apply mapping_one_spec].
Qed.

(** ** Resources *)
Lemma starts_rest p s : starts_with p s = true <-> exists rest, s = p ++ rest.
Proof. apply starts_with_iff. Qed.
Lemma starts_not p s : starts_with p s = false <-> ~ exists rest, s = p ++ rest.
Proof. rewrite <- starts_rest. destruct (starts_with p s); split; congruence. Qed.
Lemma custom_spec t : starts_with "Custom::" t || String.eqb t "AWS::CloudFormation::CustomResource" = true <-> custom t.
Proof. unfold custom. now rewrite orb_true_iff, starts_rest, String.eqb_eq. Qed.
Lemma open_type_spec t : negb (starts_with "Custom::" t || starts_with "AWS::Serverless::" t) && negb (ends_with "::MODULE" t) = true <-> ~ open_type t.
Proof.
  unfold open_type. rewrite <- !starts_rest, <- ends_with_iff.
  destruct (starts_with "Custom::" t), (starts_with "AWS::Serverless::" t), (ends_with "::MODULE" t); cbn; intuition congruence.
Qed.
Lemma attribute_spec t k :
  smem k (if starts_with "Custom::" t || String.eqb t "AWS::CloudFormation::CustomResource" then valid_custom_attributes else valid_attributes) = true <-> attribute_of t k.
Proof.
  rewrite smem_in. unfold attribute_of. destruct (starts_with "Custom::" t || String.eqb t "AWS::CloudFormation::CustomResource") eqn:E.
  - apply custom_spec in E. unfold shared_attributes, valid_custom_attributes. cbn [In]. assert (Hv : k = "Version" <-> "Version" = k) by (split; congruence). tauto.
  - assert (Hn : ~ custom t) by (rewrite <- custom_spec; congruence). unfold shared_attributes, valid_attributes. cbn [In]. assert (Hv : k = "Version" <-> "Version" = k) by (split; congruence). tauto.
Qed.
Lemma properties_check_spec specs regions n t o : In "Properties" (map fst o) \/ known_regions specs regions ->
  exists ms, properties_check specs regions n t o = Ok ms /\ forall m, In m ms <->
    m = mkRM [PKey "Resources"; PKey n] ("Properties not defined for resource " ++ n) /\
    exists region rest spec props p, ~ In "Properties" (map fst o) /\ regions = region :: rest /\ assoc region specs = Some spec /\ assoc t spec = Some props /\ In (p, true) props /\
      ~ (t = "AWS::CloudFormation::WaitCondition" /\ In "CreationPolicy" (map fst o)).
Proof.
  unfold known_regions, region_spec in *. intros Hk. unfold properties_check. destruct (mem_assoc "Properties" o) eqn:Ep.
  - exists []. split; [reflexivity|]. intros m. split; [intros [] | intros [_ [region [rest [spec [props [p [H _]]]]]]]]. apply mem_assoc_in in Ep. contradiction.
  - apply mem_assoc_not in Ep. destruct Hk as [Hk|[r [rest [types [-> Er]]]]]; [contradiction|]. rewrite Er. destruct (assoc t types) as [props|] eqn:Et.
    + eexists. split; [reflexivity|]. intros m. rewrite one_in, andb_true_iff, existsb_exists. split.
      * intros [[[[p b] [Hi Hb]] Hw] ->]. cbn [snd] in Hb. subst b. split; [reflexivity|]. exists r, rest, types, props, p. repeat (split; [now auto|]).
        intros [-> Hc]. apply mem_assoc_in in Hc. rewrite Hc in Hw. discriminate.
      * intros [-> [region [rest' [spec [props' [p [_ [[= <- <-] [E1 [E2 [Hi Hw]]]]]]]]]]]. rewrite Er in E1. injection E1 as <-. rewrite Et in E2. injection E2 as <-.
        split; [|reflexivity]. split; [exists (p, true); auto|]. destruct (String.eqb_spec t "AWS::CloudFormation::WaitCondition") as [->|]; [|reflexivity].
        destruct (mem_assoc "CreationPolicy" o) eqn:Ec; [|reflexivity]. exfalso. apply Hw. split; [reflexivity | now apply mem_assoc_in].
    + exists []. split; [reflexivity|]. intros m. split; [intros [] | intros [_ [region [rest' [spec [props [p [_ [[= <- <-] [E1 [E2 _]]]]]]]]]]]. rewrite Er in E1. injection E1 as <-. congruence.
Qed.
Lemma type_is_fun def t t' : type_is def t -> type_is def t' -> t = t'.
Proof. intros [H|[H ->]] [H'|[H' ->]]; congruence. Qed.
Lemma resource_one_spec specs registry regions n v : (forall def, v = VDict def -> In "Properties" (map fst def) \/ known_regions specs regions) ->
  exists ms, resource_one specs registry regions (n, v) = Ok ms /\ forall m, In m ms <-> resource_fault specs registry regions n v (rm_path m) (rm_msg m).
Proof.
  intros Hk. destruct v as [|b|z|q|s|l|o];
    try (eexists; split; [reflexivity|]; intros [p msg]; cbn [fst rm_path rm_msg]; split; [intros [[= <- <-]|[]]; apply rf_object; discriminate | intros H; inversion H; subst; now left]).
  specialize (Hk o eq_refl). unfold resource_one. cbn [fst snd].
  assert (H1 : forall m, In m (if is_str (match assoc "Condition" o with Some x => x | None => VStr "" end) then []
                else [mkRM [PKey "Resources"; PKey n; PKey "Condition"] ("Condition for resource " ++ n ++ " should be a string")]) <->
      m = mkRM [PKey "Resources"; PKey n; PKey "Condition"] ("Condition for resource " ++ n ++ " should be a string") /\ exists c, assoc "Condition" o = Some c /\ forall s, c <> VStr s).
  { intros m. rewrite one_in', is_str_spec. destruct (assoc "Condition" o) as [c|].
    - split; [intros [H ->]; eauto | intros [-> [c' [[= <-] H]]]; auto].
    - split; [intros [H _]; exfalso; now apply (H "") | intros [_ [c [H _]]]; discriminate]. }
  assert (Htype : (exists t, type_is o t /\ (match assoc "Type" o with Some x => x | None => VStr "" end) = VStr t) \/
                  exists t, assoc "Type" o = Some t /\ (forall s, t <> VStr s)).
  { unfold type_is. destruct (assoc "Type" o) as [[|b|z|q|s|l|d]|]; try (right; eexists; split; [reflexivity | discriminate]); left; eauto. }
  destruct Htype as [[t [Ht E]]|[t [Et Hn]]].
  - rewrite E. destruct (properties_check_spec specs regions n t o Hk) as [m4 [E4 H4]]. rewrite E4. cbn [bind]. eexists. split; [reflexivity|]. intros m.
    rewrite !in_app_iff, H1, H4, in_flat_map. clear H1 H4. destruct m as [p msg]. cbn [rm_path rm_msg]. split.
    + intros [[[= -> ->] [c [Hc Hs]]]|[[[k v] [Hi Hm]]|[Hm|[[= -> ->] [region [rest [spec [props [pr [Hp [-> [H2 [H3 [H5 H6]]]]]]]]]]]]]].
      * eapply rf_condition; eauto.
      * cbn [fst] in Hm. apply one_in' in Hm as [Ek [= -> ->]]. eapply rf_attribute; [exact Ht | exact Hi|]. rewrite <- attribute_spec. congruence.
      * destruct (String.eqb_spec t "") as [->|Hne].
        -- destruct Hm as [[= <- <-]|[]]. now apply rf_no_type.
        -- apply in_flat_map in Hm as [[region spec] [Hi Hm]]. unfold region_check in Hm. cbn [fst snd] in Hm. apply one_in in Hm as [Hm [= -> ->]].
           rewrite <- andb_assoc, !andb_true_iff in Hm. destruct Hm as [[[Ha Hb] Hc] Hd].
           assert (Hd' : negb (starts_with "Custom::" t || starts_with "AWS::Serverless::" t) && negb (ends_with "::MODULE" t) = true) by (now rewrite andb_true_iff).
           apply open_type_spec in Hd'. eapply rf_unsupported; [exact Ht | exact Hne | exact Hi | now apply smem_in | apply mem_assoc_not; now apply negb_true_iff | apply smem_not; now apply negb_true_iff | exact Hd'].
      * eapply rf_properties; eauto.
    + intros H. inversion H as [v Hd E0 E1 E2|def c Hc Hs E0 E1 E2|def t' Ht' Hs E0 E1 E2|def t' k v Ht' Hi Ha E0 E1 E2|def Ht' E0 E1 E2|def t' region spec Ht' Hne Hi Hr Hs Hg Ho E0 E1 E2|def t' region rest spec props pr Ht' Hp Er Es Et Hi Hw E0 E1 E2]; subst.
      * exfalso. now apply (Hd o).
      * left. eauto.
      * exfalso. rewrite Ht' in E. now apply (Hs t).
      * right. left. exists (k, v). split; [exact Hi|]. cbn [fst]. apply one_in'. rewrite (type_is_fun _ _ _ Ht' Ht) in Ha. rewrite <- attribute_spec in Ha. split; [|reflexivity]. now apply not_true_is_false.
      * right. right. left. rewrite (type_is_fun _ _ _ Ht Ht'). left. reflexivity.
      * right. right. left. rewrite (type_is_fun _ _ _ Ht Ht'). destruct (String.eqb_spec t' ""); [contradiction|]. apply in_flat_map. exists (region, spec). split; [exact Hi|].
        unfold region_check. cbn [fst snd]. apply one_in. split; [|reflexivity]. rewrite <- andb_assoc, (proj2 (open_type_spec t') Ho), (proj2 (smem_in _ _) Hr), (proj2 (mem_assoc_not _ _) Hs), (proj2 (smem_not _ _) Hg). reflexivity.
      * right. right. right. split; [reflexivity|]. rewrite (type_is_fun _ _ _ Ht Ht'). exists region, rest, spec, props, pr. auto 8.
  - rewrite Et.
    assert (Hgoal : forall ms, (forall m, In m ms <-> (m = mkRM [PKey "Resources"; PKey n; PKey "Condition"] ("Condition for resource " ++ n ++ " should be a string") /\ exists c, assoc "Condition" o = Some c /\ forall s, c <> VStr s) \/
         m = mkRM [PKey "Resources"; PKey n] ("Type has to be a string at Resources/" ++ n)) ->
       exists ms', Ok (A := list rulematch) ms = Ok ms' /\ forall m, In m ms' <-> resource_fault specs registry regions n (VDict o) (rm_path m) (rm_msg m)).
    { intros ms H. exists ms. split; [reflexivity|]. intros [p msg]. rewrite H. cbn [rm_path rm_msg]. split.
      - intros [[[= -> ->] [c [Hc Hs]]]|[= -> ->]]; [eapply rf_condition; eauto | eapply rf_type_text; eauto].
      - assert (Hno : forall t', ~ type_is o t') by (intros t' [H'|[H' _]]; [rewrite Et in H'; injection H' as ->; now apply (Hn t') | congruence]).
        intros H'. inversion H'; subst; try (exfalso; eapply Hno; eassumption).
        + exfalso. eapply H0. reflexivity.
        + left. eauto.
        + now right. }
    destruct t as [|b|z|q|s|l|d]; try (exfalso; now apply (Hn s)); apply Hgoal; intros m; rewrite in_app_iff, H1; cbn [In]; intuition.
Qed.
Lemma resources_spec specs registry regions template rs : section template "Resources" rs ->
  (forall n def, In (n, VDict def) rs -> In "Properties" (map fst def) \/ known_regions specs regions) ->
  exists ms, resource_configuration_match specs registry regions template = Ok ms /\
    forall m, In m ms <-> exists n v, In (n, v) rs /\ resource_fault specs registry regions n v (rm_path m) (rm_msg m).
Proof.
  intros [d [-> E]] Hr. unfold resource_configuration_match. cbn [vget_def]. rewrite E. cbn [bind].
  assert (Hone : forall n v, In (n, v) rs -> exists ms, resource_one specs registry regions (n, v) = Ok ms /\ forall m, In m ms <-> resource_fault specs registry regions n v (rm_path m) (rm_msg m)).
  { intros n v Hi. apply resource_one_spec. intros def ->. eauto. }
  destruct (concat_res_total (resource_one specs registry regions) rs) as [ms Em]; [intros [n v] Hi; destruct (Hone n v Hi) as [ms [H _]]; eauto|].
  exists ms. split; [exact Em|]. intros m. rewrite (concat_res_in _ _ _ m Em). split.
  - intros [[n v] [ys [Hi [Ey Hy]]]]. destruct (Hone n v Hi) as [ms' [H Hs]]. rewrite H in Ey. injection Ey as <-. exists n, v. split; [exact Hi | now apply Hs].
  - intros [n [v [Hi Hf]]]. destruct (Hone n v Hi) as [ms' [H Hs]]. exists (n, v), ms'. split; [exact Hi|]. split; [exact H | now apply Hs].
Qed.

(** ** Unused mappings *)
Lemma used_mappings_spec l : (forall p, ~ In (p, VList []) l) ->
  if existsb (fun pv => match snd pv with VList (VDict _ :: _) => true | _ => false end) l then used_mappings l = Ok None
  else exists names, used_mappings l = Ok (Some names) /\
    forall n, In (VStr n) names <-> exists p, In (p, VStr n) l \/ exists rest, In (p, VList (VStr n :: rest)) l.
Proof.
  induction l as [|[q v] l IH]; intros He.
  - exists []. split; [reflexivity|]. intros n. split; [intros [] | intros [p [[]|[rest []]]]].
  - assert (He' : forall p, ~ In (p, VList []) l) by (intros p H; apply (He p); now right). specialize (IH He'). cbn [existsb snd].
    assert (Hother : forall x, (match v with VList (y :: _) => x = y /\ (forall d, y <> VDict d) | VList [] => False | _ => x = v end) ->
      used_mappings ((q, v) :: l) = rmap (option_map (cons x)) (used_mappings l) /\
      (match v with VList (VDict _ :: _) => true | _ => false end) = false /\
      forall n, VStr n = x <-> v = VStr n \/ exists rest, v = VList (VStr n :: rest)).
    { intros x Hx. destruct v as [|b|z|r|s|[|y w]|d]; try (subst x; repeat split; try reflexivity; [intros E; left; congruence | intros [E|[rest E]]; congruence]).
      - contradiction.
      - destruct Hx as [-> Hd]. destruct y as [|b|z|r|s|w'|d]; try (repeat split; try reflexivity; [intros E; right; exists w; congruence | intros [E|[rest E]]; congruence]).
        exfalso. now apply (Hd d). }
    destruct (match v with VList (VDict _ :: _) => true | _ => false end) eqn:Ev.
    + destruct v as [|b|z|r|s|[|[| | | | | |d] w]|d]; try discriminate. reflexivity.
    + assert (Hx : exists x, match v with VList (y :: _) => x = y /\ (forall d, y <> VDict d) | VList [] => False | _ => x = v end).
      { destruct v as [|b|z|r|s|[|y w]|d]; try (eexists; reflexivity).
        - exfalso. apply (He q). now left.
        - exists y. split; [reflexivity|]. intros d ->. discriminate. }
      destruct Hx as [x Hx]. destruct (Hother x Hx) as [E1 [_ E2]]. rewrite E1. cbn [orb]. destruct (existsb _ l).
      * rewrite IH. reflexivity.
      * destruct IH as [names [E IH]]. rewrite E. exists (x :: names). split; [reflexivity|]. intros n. cbn [In]. rewrite IH. split.
        -- intros [H|[p [H|[rest H]]]].
           ++ symmetry in H. apply E2 in H as [->|[rest ->]]; exists q; [left; now left | right; exists rest; now left].
           ++ exists p. left. now right.
           ++ exists p. right. exists rest. now right.
        -- intros [p [[H|H]|[rest [H|H]]]].
           ++ left. symmetry. apply E2. left. congruence.
           ++ right. exists p. now left.
           ++ left. symmetry. apply E2. right. exists rest. congruence.
           ++ right. exists p. right. now exists rest.
Qed.
Lemma eq_str_in n names : existsb (eq_str n) names = true <-> In (VStr n) names.
Proof.
  rewrite existsb_exists. split.
  - intros [x [Hi H]]. destruct x; try discriminate. apply String.eqb_eq in H. now subst.
  - intros H. exists (VStr n). split; [exact H | apply String.eqb_refl].
Qed.
Lemma c44_all pre template ms : wf pre -> section template "Mappings" ms -> (forall p, ~ occurs "Fn::FindInMap" pre (VDict []) p (VList [])) ->
  exists rs, mappings_used_match pre template = Ok rs /\
  forall m, In m rs <-> exists n x, In (n, x) ms /\ ~ names_mapping pre n /\ ~ computes_mapping pre /\
    m = mkRM [PKey "Mappings"; PKey n] ("Mapping '" ++ n ++ "' is defined but not used").
Proof.
  intros Hw [d [-> E]] He. unfold mappings_used_match. cbn [vget_def]. rewrite E. cbn [bind].
  destruct ms as [|x ms]; [exists []; split; [reflexivity|]; intros m; split; [intros [] | intros [n [y [[] _]]]]|]. rewrite truthy_cons.
  assert (Hg : wf (VDict [])) by (split; [constructor | exact I]).
  assert (Hin : forall v, (exists q, In (q, v) (search_deep_keys "Fn::FindInMap" pre (VDict []))) <-> exists p, occurs "Fn::FindInMap" pre (VDict []) p v).
  { intros v. split.
    - intros [q H]. apply in_search_deep in H as [p [_ H]]; eauto.
    - intros [p H]. exists (p ++ [PKey "Fn::FindInMap"])%list. apply in_search_deep; eauto. }
  pose proof (used_mappings_spec (search_deep_keys "Fn::FindInMap" pre (VDict []))) as Hu.
  assert (He' : forall p, ~ In (p, VList []) (search_deep_keys "Fn::FindInMap" pre (VDict []))).
  { intros p H. destruct (proj1 (Hin (VList [])) (ex_intro _ p H)) as [q Hq]. exact (He q Hq). }
  specialize (Hu He'). destruct (existsb _ (search_deep_keys "Fn::FindInMap" pre (VDict []))) eqn:Ex.
  - rewrite Hu. cbn [bind]. exists []. split; [reflexivity|]. intros m. split; [intros [] | intros [n [y [_ [_ [H _]]]]]]. exfalso. apply H.
    apply existsb_exists in Ex as [[p v] [Hi Hv]]. cbn [snd] in Hv. destruct v as [|b|z|r|s|[|[| | | | | |o] w]|o]; try discriminate.
    destruct (proj1 (Hin _) (ex_intro _ p Hi)) as [q Hq]. unfold computes_mapping. eauto.
  - destruct Hu as [names [Eu Hn]]. rewrite Eu. cbn [bind items_of]. eexists. split; [reflexivity|]. intros m. rewrite in_flat_map.
    assert (Hc : ~ computes_mapping pre).
    { intros [p [o [rest Ho]]]. destruct (proj2 (Hin _) (ex_intro _ p Ho)) as [q Hq]. assert (Ht : existsb (fun pv : path * val => match snd pv with VList (VDict _ :: _) => true | _ => false end) (search_deep_keys "Fn::FindInMap" pre (VDict [])) = true) by (apply existsb_exists; exists (q, VList (VDict o :: rest)); auto). congruence. }
    assert (Hnm : forall n, In (VStr n) names <-> names_mapping pre n).
    { intros n. rewrite Hn. split.
      - intros [p [H|[rest H]]]; [destruct (proj1 (Hin _) (ex_intro _ p H)) as [q Hq]; exists q; now left | destruct (proj1 (Hin _) (ex_intro _ p H)) as [q Hq]; exists q; right; now exists rest].
      - intros [p [H|[rest H]]]; [destruct (proj2 (Hin _) (ex_intro _ p H)) as [q Hq]; exists q; now left | destruct (proj2 (Hin _) (ex_intro _ p H)) as [q Hq]; exists q; right; now exists rest]. }
    split.
    + intros [[n y] [Hi Hm]]. cbn [fst] in Hm. apply one_in' in Hm as [Hm ->]. exists n, y. split; [exact Hi|]. split; [|auto]. rewrite <- Hnm, <- eq_str_in. congruence.
    + intros [n [y [Hi [Hu [_ ->]]]]]. exists (n, y). split; [exact Hi|]. cbn [fst]. apply one_in'. split; [|reflexivity]. apply not_true_is_false. now rewrite eq_str_in, Hnm.
Qed.

(** ** References in parameters *)
Lemma default_ref_spec str_other template globals : wf template -> wf globals -> forall m, In m (default_ref_match str_other template globals) <->
  exists p v, occurs "Ref" template globals (PKey "Parameters" :: p) v /\
    m = mkRM (PKey "Parameters" :: p ++ [PKey "Ref"]) ("Invalid value (" ++ py_str str_other v ++ "), Ref cannot be used in Parameters").
Proof.
  intros Hw Hg m. unfold default_ref_match. rewrite in_flat_map. split.
  - intros [[q v] [Hi Hm]]. cbn [fst snd] in Hm. apply in_search_deep in Hi as [p [-> Hi]]; [|assumption..].
    destruct p as [|[k|i] p]; cbn [app] in Hm.
    + change (String.eqb "Ref" "Parameters") with false in Hm. destruct Hm.
    + apply one_in in Hm as [Hk ->]. apply String.eqb_eq in Hk. subst k. exists p, v. auto.
    + destruct Hm.
  - intros [p [v [H ->]]]. exists ((PKey "Parameters" :: p) ++ [PKey "Ref"], v)%list. split; [apply in_search_deep; eauto|]. now left.
Qed.

(** ** A template with one fault of each kind *)
Definition kiosk_parameters : list (string * val) :=
  [("Size", VDict [("Type", VStr "Number"); ("MaxLength", VInt 4); ("MinValue", VStr "x")]);
   ("Colour", VDict [("Type", VStr "Strin"); ("Colours", VInt 1); ("AllowedValues", VList [VStr "red"; VList []])]);
   ("Hidden", VDict [("NoEcho", VStr "yes"); ("Default", VDict [("Ref", VStr "Size")])])].
Definition kiosk_outputs : list (string * val) :=
  [("Address", VDict [("Value", VDict [("Fn::GetAtt", VList [VStr "Screen"; VStr "Arn"])]); ("Export", VDict [("Name", VStr "address")])]);
   ("Zones", VDict [("Value", VDict [("Fn::GetAZs", VStr "")]); ("Export", VStr "zones"); ("Price", VInt 1)]);
   ("Nothing", VDict [("Description", VList [VStr "x"])])].
Definition kiosk_mappings : list (string * val) :=
  [("Regions", VDict [("east", VDict [("ami", VStr "a"); ("sizes", VDict [])]); ("west", VStr "none")]); ("Other", VList [])].
Definition kiosk_resources : list (string * val) :=
  [("Screen", VDict [("Type", VStr "AWS::SNS::Topic"); ("Version", VInt 1)]);
   ("Printer", VDict [("Type", VStr "Custom::Printer"); ("Version", VInt 1); ("Condition", VInt 3)]);
   ("Drawer", VDict [("Type", VStr "AWS::No::Thing"); ("Properties", VDict [])]);
   ("Queue", VDict [("Type", VStr "AWS::SQS::Queue")]);
   ("Lamp", VStr "on"); ("Plug", VDict [("Type", VInt 1)]); ("Wire", VDict [])].
Definition kiosk_sections : list (string * val) :=
  [("Parameters", VDict kiosk_parameters); ("Outputs", VDict kiosk_outputs); ("Mappings", VDict kiosk_mappings); ("Resources", VDict kiosk_resources);
   ("Extras", VInt 1); ("Description", VList [VStr "kiosk"])].
Definition kiosk : val := VDict kiosk_sections.
Definition kiosk_specs : list (string * region_spec) :=
  [("us-east-1", [("AWS::SNS::Topic", [("TopicName", false)]); ("AWS::SQS::Queue", [("Name", false); ("Size", true)])])].
Lemma kiosk_section s ms : In (s, VDict ms) kiosk_sections -> section kiosk s ms.
Proof.
  intros H. exists kiosk_sections. split; [reflexivity|].
  unfold kiosk_sections in H. cbn [In] in H. repeat (destruct H as [[= <- <-]|H]; [reflexivity|]).
  repeat (destruct H as [H|H]; [discriminate|]). destruct H.
Qed.
Lemma kiosk_objects ps : ps = kiosk_parameters \/ ps = kiosk_outputs -> forall n x, In (n, x) ps -> exists def, x = VDict def.
Proof. intros [->| ->] n x H; cbn [In kiosk_parameters kiosk_outputs] in H; repeat (destruct H as [[= <- <-]|H]; [eauto|]); destruct H. Qed.
Lemma kiosk_filled n x : In (n, x) kiosk_outputs -> exists def, x = VDict def /\ filled def /\ named_export def.
Proof.
  assert (Hf : forall def, forallb (fun k => match assoc k def with Some v => truthy v | None => true end) ["Value"; "Export"; "Description"] = true -> filled def).
  { intros def H k v Hk E. rewrite forallb_forall in H. specialize (H k Hk). rewrite E in H. now apply truthy_not. }
  intros H. cbn [In kiosk_outputs] in H. destruct H as [[= <- <-]|[[= <- <-]|[[= <- <-]|[]]]]; eexists; (split; [reflexivity|]); (split; [apply Hf; reflexivity|]); intros y E; cbn in E; try discriminate.
  injection E as <-. now apply truthy_not.
Qed.
Lemma kiosk_base : base_match kiosk_sections = [mkRM [PKey "Extras"] "Top level template section Extras is not valid"].
Proof. reflexivity. Qed.
Lemma kiosk_parameters_report : parameter_configuration_match kiosk = Ok
  [mkRM [PKey "Parameters"; PKey "Size"; PKey "MaxLength"] "Parameter Size has property MaxLength which is only valid for ['String']";
   mkRM [PKey "Parameters"; PKey "Size"; PKey "MinValue"] "Property Parameters/Size/MinValue should be of type Integer";
   mkRM [PKey "Parameters"; PKey "Colour"; PKey "Colours"] "Parameter Colour has invalid property Colours";
   mkRM [PKey "Parameters"; PKey "Colour"; PKey "AllowedValues"; PIdx 1] "Property Parameters/Colour/AllowedValues/1 should be of type String";
   mkRM [PKey "Parameters"; PKey "Hidden"; PKey "NoEcho"] "Property Parameters/Hidden/NoEcho should be of type Boolean";
   mkRM [PKey "Parameters"; PKey "Hidden"; PKey "Default"] "Property Parameters/Hidden/Default should be of type String";
   mkRM [PKey "Parameters"; PKey "Hidden"] "Parameter Hidden is missing required property Type"].
Proof. vm_compute. reflexivity. Qed.
Lemma kiosk_outputs_report text : output_configuration_match text kiosk = Ok
  [mkRM [PKey "Outputs"; PKey "Zones"; PKey "Price"] "Output Zones has invalid property Price";
   mkRM [PKey "Outputs"; PKey "Zones"; PKey "Value"] ("Outputs/Zones/Value must use one of the functions " ++ text);
   mkRM [PKey "Outputs"; PKey "Zones"; PKey "Export"] "Outputs/Zones/Export must be a an object of one with key ""Name"""].
Proof. vm_compute. reflexivity. Qed.
Lemma kiosk_required : output_required_match kiosk = Ok [mkRM [PKey "Outputs"; PKey "Nothing"; PKey "Value"] "Output Nothing is missing property Value"].
Proof. vm_compute. reflexivity. Qed.
Lemma kiosk_descriptions : output_description_match kiosk = Ok [mkRM [PKey "Outputs"; PKey "Nothing"; PKey "Description"] "Output Description can only be a string"].
Proof. vm_compute. reflexivity. Qed.
Lemma kiosk_mappings_report show : mapping_configuration_match show kiosk = Ok
  [mkRM [PKey "Mappings"; PKey "Regions"; PKey "east"; PKey "sizes"] "Mapping Regions has invalid property at sizes";
   mkRM [PKey "Mappings"; PKey "Regions"; PKey "west"] "Mapping Regions has invalid property at none";
   mkRM [PKey "Mappings"; PKey "Other"] "Mapping Other has invalid property"].
Proof. vm_compute. reflexivity. Qed.
Lemma kiosk_resources_report : resource_configuration_match kiosk_specs [] ["us-east-1"] kiosk = Ok
  [mkRM [PKey "Resources"; PKey "Screen"; PKey "Version"] "Invalid resource attribute Version for resource Screen";
   mkRM [PKey "Resources"; PKey "Printer"; PKey "Condition"] "Condition for resource Printer should be a string";
   mkRM [PKey "Resources"; PKey "Drawer"; PKey "Type"] "Invalid or unsupported Type AWS::No::Thing for resource Drawer in us-east-1";
   mkRM [PKey "Resources"; PKey "Queue"] "Properties not defined for resource Queue";
   mkRM [PKey "Resources"; PKey "Lamp"] "Resource not properly configured at Lamp";
   mkRM [PKey "Resources"; PKey "Plug"] "Type has to be a string at Resources/Plug";
   mkRM [PKey "Resources"; PKey "Wire"] "Type not defined for resource Wire"].
Proof. vm_compute. reflexivity. Qed.
Lemma kiosk_types show : parameter_types_match show kiosk = Ok [mkRM [PKey "Parameters"; PKey "Colour"; PKey "Type"] "Parameter Colour has invalid type Strin"].
Proof. vm_compute. reflexivity. Qed.
Lemma kiosk_regions : known_regions kiosk_specs ["us-east-1"].
Proof. exists "us-east-1", []. eexists. split; reflexivity. Qed.

(** ** What goes unreported *)
Definition blank_output : val := VDict [("Outputs", VDict [("Blank", VDict [("Value", VList []); ("Export", VDict []); ("Description", VList [])])])].
Lemma c39_empty : exists template n def, section template "Outputs" [(n, VDict def)] /\
  (forall text, value_fault text [PKey "Outputs"; PKey n; PKey "Value"] (VList []) (shown [PKey "Outputs"; PKey n; PKey "Value"] ++ " must be a string or one of the functions " ++ text)) /\
  assoc "Value" def = Some (VList []) /\
  (forall text, output_configuration_match text template = Ok []) /\ output_required_match template = Ok [] /\ output_description_match template = Ok [].
Proof.
  exists blank_output, "Blank", [("Value", VList []); ("Export", VDict []); ("Description", VList [])].
  split; [eexists; split; reflexivity|]. split; [intros text; apply vf_list|]. repeat split; reflexivity.
Qed.
Lemma c39_crash : exists template n, section template "Outputs" [(n, VList [])] /\ forall text, output_configuration_match text template = Err ETemplateAttribute.
Proof. exists (VDict [("Outputs", VDict [("Odd", VList [])])]), "Odd". split; [eexists; split; reflexivity | reflexivity]. Qed.
Lemma c39_text_output : exists template n, section template "Outputs" [(n, VStr "No Value here")] /\ output_required_match template = Ok [].
Proof. exists (VDict [("Outputs", VDict [("Odd", VStr "No Value here")])]), "Odd". split; [eexists; split; reflexivity | reflexivity]. Qed.

(** ** Mappings in use *)
Definition lookup : val := VDict
  [("Mappings", VDict [("Used", VDict []); ("Idle", VDict []); ("Plain", VDict [])]);
   ("Resources", VDict [("A", VDict [("Fn::FindInMap", VList [VStr "Used"; VStr "a"; VStr "b"]); ("B", VDict [("Fn::FindInMap", VStr "Plain")])])])].
Lemma lookup_wf : wf lookup.
Proof. apply wfb_sound. reflexivity. Qed.
Lemma lookup_section : section lookup "Mappings" [("Used", VDict []); ("Idle", VDict []); ("Plain", VDict [])].
Proof. eexists. split; reflexivity. Qed.
Lemma no_empty_occurs f template : wf template -> existsb (fun pv => match snd pv with VList [] => true | _ => false end) (search_deep_keys f template (VDict [])) = false ->
  forall p, ~ occurs f template (VDict []) p (VList []).
Proof.
  intros Hw E p H. assert (Ht : existsb (fun pv : path * val => match snd pv with VList [] => true | _ => false end) (search_deep_keys f template (VDict [])) = true).
  { apply existsb_exists. exists (p ++ [PKey f], VList [])%list. split; [|reflexivity]. apply in_search_deep; [assumption | split; [constructor | exact I] | eauto]. }
  congruence.
Qed.
Lemma lookup_maps p : ~ occurs "Fn::FindInMap" lookup (VDict []) p (VList []).
Proof. apply no_empty_occurs; [exact lookup_wf | reflexivity]. Qed.
Lemma lookup_report : mappings_used_match lookup lookup = Ok [mkRM [PKey "Mappings"; PKey "Idle"] "Mapping 'Idle' is defined but not used"].
Proof. vm_compute. reflexivity. Qed.
Lemma c44_crash : exists template, wf template /\ mappings_used_match template template = Err EIndex.
Proof.
  exists (VDict [("Mappings", VDict [("M", VDict [])]); ("Resources", VDict [("Fn::FindInMap", VList [])])]). split; [apply wfb_sound; reflexivity | reflexivity].
Qed.
