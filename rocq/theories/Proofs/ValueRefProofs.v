(** C61: what the values of properties refer to. *)
From Coq Require Import Lia.
From Verif.Model Require Import Base Locate Helpers Node Conditions Search Resolve Rules Refs Relationship Limits Parameters JsonDump PropertyRules Functions ValueRules.
From Verif.Spec Require Import Paths Branches Required References Attributes Values ValueRefs.
From Verif.Proofs Require Import BaseFacts BranchProofs SearchProofs PropertyRuleProofs GroupProofs SizeProofs CidrProofs PlaceholderProofs AttributeProofs ValueProofs.
Import Verif.Model.Rules.
Import ListNotations.
Local Open Scope string_scope.

(** * The place of a value *)
Inductive ifs : list pelem -> Prop :=
| ifs_nil : ifs []
| ifs_cons : forall i l, ifs l -> ifs (PKey "Fn::If" :: PIdx i :: l).
Lemma alternative_ifs x p w r : alternative x p w r -> exists l, ifs l /\ r = (p ++ l)%list.
Proof.
  induction 1 as [c a b p w q _ [l [Hl ->]]|c a b p w q _ [l [Hl ->]]|v p _ _].
  - exists (PKey "Fn::If" :: PIdx 1 :: l). split; [now constructor|]. now rewrite <- app_assoc.
  - exists (PKey "Fn::If" :: PIdx 2 :: l). split; [now constructor|]. now rewrite <- app_assoc.
  - exists []. split; [constructor|]. now rewrite app_nil_r.
Qed.
Lemma ifs_strip l : ifs l -> forall rp prop, is_value_a_list (rev l ++ rp)%list prop = is_value_a_list rp prop.
Proof.
  induction 1 as [|i l Hl IH]; intros rp prop; [reflexivity|]. cbn [rev]. rewrite <- !app_assoc. cbn [app]. rewrite IH. reflexivity.
Qed.
Lemma ifs_last l : ifs l -> l = [] \/ exists l' i, l = (l' ++ [PIdx i])%list.
Proof.
  induction 1 as [|i l Hl IH]; [now left|]. right. destruct IH as [->|[l' [j ->]]]; [exists [PKey "Fn::If"], i | exists (PKey "Fn::If" :: PIdx i :: l'), j]; reflexivity.
Qed.
Lemma whole_place x q prop w r : alternative x (q ++ [PKey prop])%list w r -> is_value_a_list (rev r) prop = Ok true.
Proof.
  intros H. apply alternative_ifs in H as [l [Hl ->]]. rewrite rev_app_distr, (ifs_strip l Hl), rev_app_distr. cbn. now rewrite String.eqb_refl.
Qed.
Lemma item_place x q prop l q1 i y w r : prop <> "Fn::If" -> alternative x (q ++ [PKey prop])%list (VList l) q1 -> alternative y (q1 ++ [PIdx i])%list w r ->
  is_value_a_list (rev r) prop = Ok false.
Proof.
  intros Hp H1 H2. apply alternative_ifs in H1 as [l1 [Hl1 ->]]. apply alternative_ifs in H2 as [l2 [Hl2 ->]]. rewrite rev_app_distr, (ifs_strip l2 Hl2), rev_app_distr. cbn [rev app].
  rewrite rev_app_distr. destruct (ifs_last l1 Hl1) as [->|[l' [j ->]]].
  - cbn [rev app]. rewrite rev_app_distr. cbn [rev app is_value_a_list]. apply String.eqb_neq in Hp. now rewrite Hp.
  - rewrite rev_app_distr. reflexivity.
Qed.
Lemma list_place x q prop w r : prop <> "Fn::If" -> single x (q ++ [PKey prop])%list w r ->
  exists b, is_value_a_list (rev r) prop = Ok b /\ (b = true <-> alternative x (q ++ [PKey prop])%list w r).
Proof.
  intros Hp H. inversion H as [v' p' w' q' Ha Hl|v' p' l q' i y w' r' Ha Hi Hb]; subst.
  - exists true. split; [exact (whole_place _ _ _ _ _ Ha)|]. split; auto.
  - exists false. split; [exact (item_place _ _ _ _ _ _ _ _ _ Hp Ha Hb)|]. split; [discriminate|]. intros K. apply whole_place in K. rewrite (item_place _ _ _ _ _ _ _ _ _ Hp Ha Hb) in K. discriminate.
Qed.
Lemma removelast_key r k : removelast (r ++ [PKey k])%list = r.
Proof. apply removelast_last. Qed.
Definition is_whole (ps : pspec) (r : path) (prop : string) : bool :=
  opt_eqb (ps_type ps) "List" && match is_value_a_list (rev r) prop with Ok b => b | Err _ => false end.
Lemma is_whole_iff ps x q prop w r : prop <> "Fn::If" -> single x (q ++ [PKey prop])%list w r ->
  is_whole ps r prop = true <-> whole_list ps x (q ++ [PKey prop])%list w r.
Proof.
  intros Hp Hs. destruct (list_place x q prop w r Hp Hs) as [b [E Hb]]. unfold is_whole, whole_list. rewrite E, andb_true_iff, opt_eqb_some, Hb. reflexivity.
Qed.
Lemma chosen_ref_eq {A} ps x q prop w r k (a b : A) : prop <> "Fn::If" -> single x (q ++ [PKey prop])%list w r ->
  chosen_ref ps prop (r ++ [PKey k])%list a b = Ok (if is_whole ps r prop then a else b).
Proof.
  intros Hp Hs. destruct (list_place x q prop w r Hp Hs) as [c [E _]]. unfold chosen_ref, is_whole. rewrite removelast_key, E. destruct (opt_eqb (ps_type ps) "List"); reflexivity.
Qed.
Lemma chosen_getatt_eq {A} ps x q prop w r k (a b : A) : prop <> "Fn::If" -> single x (q ++ [PKey prop])%list w r ->
  chosen_getatt ps prop (r ++ [PKey k])%list a b = Ok (if is_whole ps r prop then a else b).
Proof.
  intros Hp Hs. destruct (list_place x q prop w r Hp Hs) as [c [E _]]. unfold chosen_getatt, is_whole. rewrite removelast_key, E. reflexivity.
Qed.

(** * Sections *)
Lemma plain_section section template : plain_sections template -> In section ["Parameters"; "Resources"] ->
  exists m, vget_def section (VDict []) template = Ok (VDict m) /\
    (forall n x, assoc n m = Some x -> exists o, x = VDict o /\ defined_in section template n o) /\
    (forall n o, defined_in section template n o -> assoc n m = Some (VDict o)).
Proof.
  intros [d [-> H]] Hs. cbn [vget_def]. destruct (assoc section d) as [s|] eqn:E.
  - destruct (H section s Hs E) as [m [-> Hm]]. exists m. split; [reflexivity|]. split.
    + intros n x Hx. destruct (Hm n x (assoc_In _ _ _ Hx)) as [o [-> _]]. exists o. split; [reflexivity|]. exists d, m. auto.
    + intros n o [d' [s' [[= <-] [E1 E2]]]]. rewrite E in E1. injection E1 as <-. exact E2.
  - exists []. split; [reflexivity|]. split; [intros n x [=]|]. intros n o [d' [s' [[= <-] [E1 E2]]]]. congruence.
Qed.
Lemma plain_type template n o t : plain_sections template -> defined_in "Resources" template n o -> assoc "Type" o = Some t -> exists u, t = VStr u.
Proof.
  intros [d [-> H]] [d' [s [[= <-] [E1 E2]]]] Et. destruct (H "Resources" (VDict s) (or_intror (or_introl eq_refl)) E1) as [m [[= <-] Hm]].
  destruct (Hm n (VDict o) (assoc_In _ _ _ E2)) as [o' [[= <-] [H1 _]]]. now apply (H1 eq_refl).
Qed.
Lemma type_listed (l : list string) o : existsb (fun s => eq_str s (match assoc "Type" o with Some x => x | None => VNull end)) l = true <-> exists t, assoc "Type" o = Some (VStr t) /\ In t l.
Proof.
  rewrite existsb_exists. split.
  - intros [s [Hs E]]. destruct (assoc "Type" o) as [x|]; [|discriminate]. destruct x as [| | | |u| |]; try discriminate. change (String.eqb s u = true) in E. apply String.eqb_eq in E. subst u. eauto.
  - intros [t [-> Ht]]. exists t. split; [exact Ht|]. change (String.eqb t t = true). apply String.eqb_refl.
Qed.
Lemma kinds_of_eq kinds l : (forall k, In k l -> In k (keys kinds)) -> kinds_of kinds l = Ok (types_of_kinds kinds l).
Proof.
  unfold kinds_of, types_of_kinds. induction l as [|k l IH]; intros H; [reflexivity|]. cbn [concat_res flat_map]. destruct (proj1 (assoc_Some_key _ _) (H k (or_introl eq_refl))) as [ts E]. rewrite E. cbn [bind].
  rewrite IH; [reflexivity | intros k' Hk; apply H; now right].
Qed.

(** * Ref *)
Section Refs.
Variables (template : val) (kinds : list (string * list string)) (sp : refspec).
Hypothesis Hplain : plain_sections template.
Hypothesis Hkinds : forall k, In k (rf_parameters sp) -> In k (keys kinds).
Lemma ref_parameter_in prop n p : exists o, ref_parameter template kinds sp prop (VStr n) p = Ok o /\
  forall m, In m o <-> exists d, defined_in "Parameters" template n d /\
    ((rf_parameters sp = [] /\ m = mkRM p ("Property """ ++ prop ++ """ has no valid Refs to Parameters at " ++ path_text p)) \/
     (rf_parameters sp <> [] /\ (forall t, assoc "Type" d = Some (VStr t) -> ~ In t (types_of_kinds kinds (rf_parameters sp))) /\
      m = mkRM p ("Property """ ++ prop ++ """ can Ref to parameter of types [" ++ join_str ", " (types_of_kinds kinds (rf_parameters sp)) ++ "] at " ++ path_text p))).
Proof using Hplain Hkinds.
  destruct (plain_section "Parameters" template Hplain (or_introl eq_refl)) as [s [E [H1 H2]]]. unfold ref_parameter. rewrite E. cbn [bind py_member]. unfold mem_assoc. destruct (assoc n s) as [x|] eqn:Ex.
  - destruct (H1 n x Ex) as [d [-> Hd]]. cbn [bind]. unfold type_in, vget_def. rewrite Ex. cbn [bind vget]. rewrite (kinds_of_eq kinds _ Hkinds). cbn [bind]. set (valid := types_of_kinds kinds (rf_parameters sp)).
    eexists. split; [reflexivity|]. intros m. assert (Hu : forall d', defined_in "Parameters" template n d' -> d' = d) by (intros d' Hd'; apply H2 in Hd'; congruence).
    destruct (rf_parameters sp) as [|a l] eqn:Er.
    + split; [intros [<-|[]]; exists d; split; [exact Hd|]; left; auto | intros [d' [_ [[_ ->]|[K _]]]]; [now left | congruence]].
    + destruct (existsb (fun s0 => eq_str s0 (match assoc "Type" d with Some x => x | None => VNull end)) valid) eqn:Et.
      * apply type_listed in Et as [t [Et Ht]]. split; [intros [] | intros [d' [Hd' [[K _]|[_ [K _]]]]]; [discriminate K | rewrite (Hu d' Hd') in K; destruct (K t Et Ht)]].
      * assert (Kt : ~ exists t, assoc "Type" d = Some (VStr t) /\ In t valid) by (rewrite <- type_listed; congruence). split.
        -- intros [<-|[]]. exists d. split; [exact Hd|]. right. split; [discriminate|]. split; [intros t Ht Hi; apply Kt; eauto | reflexivity].
        -- intros [d' [_ [[K _]|[_ [_ ->]]]]]; [discriminate K | now left].
  - cbn [bind]. exists []. split; [reflexivity|]. intros m. split; [intros [] | intros [d [Hd _]]]. apply H2 in Hd. congruence.
Qed.
Lemma ref_resource_in prop n p : exists o, ref_resource template sp prop (VStr n) p = Ok o /\
  forall m, In m o <-> exists d, defined_in "Resources" template n d /\
    ((rf_resources sp = [] /\ m = mkRM p ("Property """ ++ prop ++ """ has no valid Refs to Resources at " ++ path_text p)) \/
     (rf_resources sp <> [] /\ (forall t, assoc "Type" d = Some (VStr t) -> ~ In t (rf_resources sp)) /\
      m = mkRM p ("Property """ ++ prop ++ """ can Ref to resources of types [" ++ join_str ", " (rf_resources sp) ++ "] at " ++ path_text p))).
Proof using Hplain.
  destruct (plain_section "Resources" template Hplain (or_intror (or_introl eq_refl))) as [s [E [H1 H2]]]. unfold ref_resource. rewrite E. cbn [bind py_member]. unfold mem_assoc. destruct (assoc n s) as [x|] eqn:Ex.
  - destruct (H1 n x Ex) as [d [-> Hd]]. cbn [bind]. unfold type_in, vget_def. rewrite Ex. cbn [bind vget].
    eexists. split; [reflexivity|]. intros m. assert (Hu : forall d', defined_in "Resources" template n d' -> d' = d) by (intros d' Hd'; apply H2 in Hd'; congruence).
    destruct (rf_resources sp) as [|a l] eqn:Er.
    + split; [intros [<-|[]]; exists d; split; [exact Hd|]; left; auto | intros [d' [_ [[_ ->]|[K _]]]]; [now left | congruence]].
    + destruct (existsb (fun s0 => eq_str s0 (match assoc "Type" d with Some x => x | None => VNull end)) (a :: l)) eqn:Et.
      * apply type_listed in Et as [t [Et Ht]]. split; [intros [] | intros [d' [Hd' [[K _]|[_ [K _]]]]]; [discriminate K | rewrite (Hu d' Hd') in K; destruct (K t Et Ht)]].
      * assert (Kt : ~ exists t, assoc "Type" d = Some (VStr t) /\ In t (a :: l)) by (rewrite <- type_listed; congruence). split.
        -- intros [<-|[]]. exists d. split; [exact Hd|]. right. split; [discriminate|]. split; [intros t Ht Hi; apply Kt; eauto | reflexivity].
        -- intros [d' [_ [[K _]|[_ [_ ->]]]]]; [discriminate K | now left].
  - cbn [bind]. exists []. split; [reflexivity|]. intros m. split; [intros [] | intros [d [Hd _]]]. apply H2 in Hd. congruence.
Qed.
Lemma ref_faults prop n p : exists o, (do a <- ref_parameter template kinds sp prop (VStr n) p; do b <- ref_resource template sp prop (VStr n) p; Ok (a ++ b)%list) = Ok o /\
  forall m, In m o <-> exists words, ref_fault template kinds sp prop n p words /\ m = mkRM p words.
Proof using Hplain Hkinds.
  destruct (ref_parameter_in prop n p) as [a [Ea Ha]]. destruct (ref_resource_in prop n p) as [b [Eb Hb]]. rewrite Ea. cbn [bind]. rewrite Eb. cbn [bind]. exists (a ++ b)%list. split; [reflexivity|].
  intros m. rewrite in_app_iff, Ha, Hb. split.
  - intros [[d [Hd [[H ->]|[H [K ->]]]]]|[d [Hd [[H ->]|[H [K ->]]]]]]; eexists; (split; [|reflexivity]).
    + eapply rft_no_parameters; eauto.
    + eapply rft_parameter; eauto.
    + eapply rft_no_resources; eauto.
    + eapply rft_resource; eauto.
  - intros [words [Hf ->]]. inversion Hf as [d Hd H|d Hd H K|d Hd H|d Hd H K]; subst; [left|left|right|right]; exists d; (split; [exact Hd|]); [left|right|left|right]; auto.
Qed.
End Refs.

(** * Fn::GetAtt *)
Lemma dotted_split a parts : dotted a parts -> split_on "." a = parts.
Proof.
  intros [H1 [-> H2]]. apply (split_on_join "." parts H1). eapply Forall_impl; [|exact H2]. intros s Hs. now apply dotless_has.
Qed.
Lemma getatt_names_eq y r parts : getatt_parts y r parts -> getatt_names y = Ok (VStr r, map VStr parts).
Proof.
  intros [r' a parts' Hr Ha|r' a parts' Ha|r' parts' Hl].
  - cbn [getatt_names]. change (r' ++ "." ++ a) with (r' ++ String "." a). rewrite split_on_app by now apply dotless_has. now rewrite (dotted_split _ _ Ha).
  - cbn [getatt_names]. now rewrite (dotted_split _ _ Ha).
  - destruct parts' as [|a [|b l]]; cbn in Hl; try lia. reflexivity.
Qed.
Lemma parts_nonempty y r parts : getatt_parts y r parts -> parts <> [].
Proof. intros [r' a parts' Hr [H _]|r' a parts' [H _]|r' parts' Hl]; try exact H. intros ->. cbn in Hl. lia. Qed.
Lemma resource_type_of_eq template n : plain_sections template ->
  (exists u, resource_type template n u /\ resource_type_of template (VStr n) = Ok (VStr u)) \/
  ((forall u, ~ resource_type template n u) /\ resource_type_of template (VStr n) = Ok VNull).
Proof.
  intros Hp. destruct (plain_section "Resources" template Hp (or_intror (or_introl eq_refl))) as [s [E [H1 H2]]]. unfold resource_type_of. rewrite E. cbn [bind vget_def]. destruct (assoc n s) as [x|] eqn:Ex.
  - destruct (H1 n x Ex) as [o [-> Ho]]. cbn [bind vget]. destruct (assoc "Type" o) as [t|] eqn:Et.
    + destruct (plain_type template n o t Hp Ho Et) as [u ->]. left. exists u. split; [exists o; auto | reflexivity].
    + right. split; [|reflexivity]. intros u [o' [Ho' Eu]]. apply H2 in Ho'. congruence.
  - cbn [bind vget assoc]. right. split; [|reflexivity]. intros u [o' [Ho' Eu]]. apply H2 in Ho'. congruence.
Qed.
Lemma resource_type_unique template n u v : resource_type template n u -> resource_type template n v -> u = v.
Proof. intros [o [[d [s [-> [E1 E2]]]] E3]] [o' [[d' [s' [[= <-] [E1' E2']]]] E3']]. congruence. Qed.
Lemma own_iff u : own_resource u <-> (negb (String.eqb u "") && (String.eqb u "AWS::CloudFormation::CustomResource" || starts_with "Custom::" u))%bool = true.
Proof.
  unfold own_resource. rewrite andb_true_iff, orb_true_iff, negb_true_iff, String.eqb_eq, String.eqb_neq, prefix_iff. unfold begins. split; [|tauto].
  intros H. split; [|exact H]. intros ->. destruct H as [H|[r H]]; discriminate H.
Qed.
Lemma is_custom_eq u : is_custom (VStr u) = Ok (negb (String.eqb u "") && (String.eqb u "AWS::CloudFormation::CustomResource" || starts_with "Custom::" u))%bool.
Proof. unfold is_custom. cbn [truthy]. destruct (String.eqb u ""); reflexivity. Qed.
Lemma stack_outputs_iff u parts : parts <> [] -> exists b, stack_outputs (VStr u) (map VStr parts) = Ok b /\ (b = true <-> stack_output u parts).
Proof.
  intros Hn. unfold stack_outputs, stack_output.
  change (eq_str "AWS::CloudFormation::Stack" (VStr u)) with (String.eqb "AWS::CloudFormation::Stack" u).
  change (eq_str "AWS::ServiceCatalog::CloudFormationProvisionedProduct" (VStr u)) with (String.eqb "AWS::ServiceCatalog::CloudFormationProvisionedProduct" u).
  destruct (String.eqb "AWS::CloudFormation::Stack" u || String.eqb "AWS::ServiceCatalog::CloudFormationProvisionedProduct" u)%bool eqn:E.
  - destruct parts as [|a rest]; [congruence|]. cbn [map]. eexists. split; [reflexivity|]. change (eq_str "Outputs" (VStr a)) with (String.eqb "Outputs" a). rewrite String.eqb_eq.
    apply orb_true_iff in E. rewrite !String.eqb_eq in E. split; [intros <-; split; [cbn; tauto | eauto] | intros [_ [r [= -> _]]]; reflexivity].
  - exists false. split; [reflexivity|]. apply orb_false_iff in E as [E1 E2]. apply String.eqb_neq in E1, E2. split; [discriminate | intros [[K|[K|[]]] _]; congruence].
Qed.
Lemma joined_texts str_other parts : joined_attribute str_other (map VStr parts) = join_str "." parts.
Proof. unfold joined_attribute. rewrite map_map. f_equal. now rewrite map_id. Qed.
Lemma attribute_in_iff s a : attribute_in s a = true <-> attribute_allowed a s.
Proof. destruct a; cbn; [apply String.eqb_eq | apply smem_iff]. Qed.
Definition show_list (str_other : val -> string) (l : list string) : string := py_str str_other (VList (map VStr l)).
Lemma getatt_spec_in template str_other sp prop n parts p : plain_sections template ->
  exists o, (do t <- resource_type_of template (VStr n); getatt_spec_check str_other sp prop t (map VStr parts) p) = Ok o /\
    forall m, In m o <-> exists words, getatt_fault template (show_list str_other) sp prop n parts p words /\ m = mkRM p words.
Proof.
  intros Hp.
  assert (Hnil : sp = [] -> forall t, exists o, getatt_spec_check str_other sp prop t (map VStr parts) p = Ok o /\ forall m, In m o <-> exists words, getatt_fault template (show_list str_other) sp prop n parts p words /\ m = mkRM p words).
  { intros -> t. cbn [getatt_spec_check]. eexists. split; [reflexivity|]. intros m. split.
    - intros [<-|[]]. eexists. split; [|reflexivity]. now apply gft_none.
    - intros [words [H ->]]. inversion H; subst; [now left | congruence | discriminate]. }
  assert (Htype : forall o : unit, sp <> [] -> (forall u, resource_type template n u -> ~ In u (keys sp)) -> forall m,
      In m [mkRM p (quoted_message prop "Fn::GetAtt to a resource of types" (keys sp) p)] <-> exists words, getatt_fault template (show_list str_other) sp prop n parts p words /\ m = mkRM p words).
  { intros _ Hne Hu m. split.
    - intros [<-|[]]. eexists. split; [|reflexivity]. now apply gft_type.
    - intros [words [H ->]]. inversion H as [K|K1 K2|t a Ht Ha K]; subst; [contradiction | now left |]. exfalso. apply (Hu t Ht). apply assoc_Some_key. eauto. }
  destruct (resource_type_of_eq template n Hp) as [[u [Hu ->]]|[Hu ->]]; cbn [bind].
  - destruct sp as [|kv sp'] eqn:Es; [apply Hnil; reflexivity|]. rewrite <- Es in *. clear Hnil. assert (Hne : sp <> []) by (rewrite Es; discriminate).
    assert (E : getatt_spec_check str_other sp prop (VStr u) (map VStr parts) p = Ok (match assoc u sp with
              | None => [mkRM p (quoted_message prop "Fn::GetAtt to a resource of types" (keys sp) p)]
              | Some a => if attribute_in (joined_attribute str_other (map VStr parts)) a then []
                          else [mkRM p ("Property """ ++ prop ++ """ can Fn::GetAtt to a resource attribute """ ++ attributes_text str_other a ++ """ at " ++ path_text p)]
              end)) by (rewrite Es; reflexivity).
    rewrite E. eexists. split; [reflexivity|]. rewrite joined_texts. destruct (assoc u sp) as [a|] eqn:Ea.
    + intros m. destruct (attribute_in (join_str "." parts) a) eqn:Ei.
      * apply attribute_in_iff in Ei. split; [intros []|]. intros [words [H ->]]. inversion H as [K|K1 K2|t a' Ht Ha K]; subst sp words; [congruence | |].
        -- destruct (K2 u Hu). apply assoc_Some_key. eauto.
        -- rewrite (resource_type_unique _ _ _ _ Ht Hu) in Ha. rewrite Ea in Ha. injection Ha as <-. contradiction.
      * assert (Kn : ~ attribute_allowed a (join_str "." parts)) by (rewrite <- attribute_in_iff; congruence). split.
        -- intros [<-|[]]. eexists. split; [|reflexivity]. now apply (gft_attribute template (show_list str_other) sp prop n parts p u a).
        -- intros [words [H ->]]. inversion H as [K|K1 K2|t a' Ht Ha K]; subst words; [congruence | |].
           ++ destruct (K2 u Hu). apply assoc_Some_key. eauto.
           ++ rewrite (resource_type_unique _ _ _ _ Ht Hu) in Ha. rewrite Ea in Ha. injection Ha as <-. left. destruct a; reflexivity.
    + apply (Htype tt Hne). intros v Hv. rewrite (resource_type_unique _ _ _ _ Hv Hu). intros K. apply assoc_Some_key in K as [a K]. congruence.
  - destruct sp as [|kv sp'] eqn:Es; [apply Hnil; reflexivity|]. rewrite <- Es in *. clear Hnil. assert (Hne : sp <> []) by (rewrite Es; discriminate).
    assert (E : getatt_spec_check str_other sp prop VNull (map VStr parts) p = Ok [mkRM p (quoted_message prop "Fn::GetAtt to a resource of types" (keys sp) p)]) by (rewrite Es; reflexivity).
    rewrite E. eexists. split; [reflexivity|]. apply (Htype tt Hne). intros v Hv. now destruct (Hu v).
Qed.

(** * The whole check *)
Section Check.
Variables (vs : list (string * vrule)) (str_other : val -> string) (template : val) (kinds : list (string * list string)).
Hypothesis He : ~ In "" (keys vs).
Hypothesis Hplain : plain_sections template.
Hypothesis Hkinds : kinds_known vs kinds.
Variables (prop : string) (ps : pspec) (x : val) (q : path).
Hypothesis Hprop : prop <> "Fn::If".
Hypothesis Hvalue : ps_value ps <> [].
Let item := vrule_of vs (value_type "ValueType" ps).
Let whole := vrule_of vs (value_type "ListValueType" ps).
Let fault := reference_fault vs template kinds (show_list str_other) prop ps x (q ++ [PKey prop])%list.
Lemma chosen_restriction w r vr : single x (q ++ [PKey prop])%list w r -> vr = (if is_whole ps r prop then whole else item) -> vr <> no_vrule ->
  restriction vs ps x (q ++ [PKey prop])%list w r vr.
Proof using He Hprop.
  intros Hs -> Hne. destruct (is_whole ps r prop) eqn:E.
  - left. split; [now apply (is_whole_iff ps x q prop w r Hprop Hs) | now apply rule_restricts].
  - right. split; [|now apply rule_restricts]. intros K. apply (is_whole_iff ps x q prop w r Hprop Hs) in K. congruence.
Qed.
Lemma restriction_chosen w r vr : single x (q ++ [PKey prop])%list w r -> restriction vs ps x (q ++ [PKey prop])%list w r vr -> (if is_whole ps r prop then whole else item) = vr.
Proof using Hprop.
  intros Hs [[H1 H2]|[H1 H2]].
  - apply (is_whole_iff ps x q prop w r Hprop Hs) in H1. rewrite H1. now apply restricts_rule in H2 as [H2 _].
  - rewrite <- (is_whole_iff ps x q prop w r Hprop Hs) in H1. apply not_true_is_false in H1. rewrite H1. now apply restricts_rule in H2 as [H2 _].
Qed.
Lemma known_kinds w r vr sp : restriction vs ps x (q ++ [PKey prop])%list w r vr -> vr_ref vr = Some sp -> forall k, In k (rf_parameters sp) -> In k (keys kinds).
Proof using Hkinds. intros [[_ [t [_ Ht]]]|[_ [t [_ Ht]]]] Hr k Hk; exact (Hkinds t vr sp k Ht Hr Hk). Qed.
Lemma ref_value_in n r : single x (q ++ [PKey prop])%list (VDict [("Ref", VStr n)]) r ->
  exists o, ref_value template kinds ps item whole prop (VStr n) (r ++ [PKey "Ref"])%list = Ok o /\
    forall m, In m o <-> exists words, fault r "Ref" (VStr n) words /\ m = mkRM (r ++ [PKey "Ref"])%list words.
Proof using He Hplain Hkinds Hprop.
  intros Hs. unfold ref_value. rewrite (chosen_ref_eq ps x q prop _ r "Ref" _ _ Hprop Hs). cbn [bind].
  assert (Ec : (if is_whole ps r prop then vr_ref whole else vr_ref item) = vr_ref (if is_whole ps r prop then whole else item)) by (destruct (is_whole ps r prop); reflexivity).
  rewrite Ec. clear Ec. destruct (vr_ref (if is_whole ps r prop then whole else item)) as [sp|] eqn:Er.
  - assert (Hres : restriction vs ps x (q ++ [PKey prop])%list (VDict [("Ref", VStr n)]) r (if is_whole ps r prop then whole else item)).
    { apply chosen_restriction; [exact Hs | reflexivity|]. intros K. rewrite K in Er. discriminate. }
    destruct (ref_faults template kinds sp Hplain (known_kinds _ _ _ sp Hres Er) prop n (r ++ [PKey "Ref"])%list) as [o [Eo Ho]]. exists o. split; [exact Eo|]. intros m. rewrite Ho. split.
    + intros [words [Hf ->]]. exists words. split; [|reflexivity]. eapply rfa_ref; eauto.
    + intros [words [Hf ->]]. exists words. split; [|reflexivity]. inversion Hf as [name vr sp' words' Hr' Hsp' Hf'| |]; subst. pose proof (restriction_chosen _ _ _ Hs Hr') as K. rewrite <- K, Er in Hsp'. injection Hsp' as <-. exact Hf'.
  - exists []. split; [reflexivity|]. intros m. split; [intros []|]. intros [words [Hf ->]]. inversion Hf as [name vr sp' words' Hr' Hsp' Hf'| |]; subst. pose proof (restriction_chosen _ _ _ Hs Hr') as K. rewrite <- K, Er in Hsp'. discriminate.
Qed.
Lemma getatt_parts_unique y n parts n' parts' : getatt_parts y n parts -> getatt_parts y n' parts' -> n = n' /\ parts = parts'.
Proof using.
  intros H1 H2. apply getatt_names_eq in H1, H2. rewrite H1 in H2. injection H2 as -> H2. split; [reflexivity|]. clear H1. revert parts' H2. induction parts as [|a l IH]; intros [|b l'] H; try discriminate; [reflexivity|].
  injection H as -> H. f_equal. now apply IH.
Qed.
Lemma getatt_value_in y n parts r : getatt_parts y n parts -> single x (q ++ [PKey prop])%list (VDict [("Fn::GetAtt", y)]) r ->
  exists o, getatt_value str_other template ps item whole prop y (r ++ [PKey "Fn::GetAtt"])%list = Ok o /\
    forall m, In m o <-> exists words, fault r "Fn::GetAtt" y words /\ m = mkRM (r ++ [PKey "Fn::GetAtt"])%list words.
Proof using He Hplain Hprop.
  intros Hy Hs. unfold getatt_value. rewrite (getatt_names_eq y n parts Hy). cbn [bind fst snd]. rewrite (chosen_getatt_eq ps x q prop _ r "Fn::GetAtt" _ _ Hprop Hs). cbn [bind].
  set (W := is_whole ps r prop) in *.
  set (vr := if W then whole else item).
  assert (Ef : fst (if W then (true, vr_getatt whole) else (false, vr_getatt item)) = W) by (destruct W; reflexivity).
  assert (Es : snd (if W then (true, vr_getatt whole) else (false, vr_getatt item)) = vr_getatt vr) by (unfold vr; destruct W; reflexivity).
  rewrite Ef, Es. clear Ef Es. set (P := (r ++ [PKey "Fn::GetAtt"])%list).
  (* findings that come from the specification *)
  assert (Hspec : ~ exempt template n parts -> exists o, match vr_getatt vr with None => Ok [] | Some sp => do t <- resource_type_of template (VStr n); getatt_spec_check str_other sp prop t (map VStr parts) P end = Ok o /\
     forall m, In m o <-> exists words, fault r "Fn::GetAtt" y words /\ m = mkRM P words).
  { intros Hex. destruct (vr_getatt vr) as [sp|] eqn:Eg.
    - assert (Hres : restriction vs ps x (q ++ [PKey prop])%list (VDict [("Fn::GetAtt", y)]) r vr).
      { apply chosen_restriction; [exact Hs | reflexivity|]. intros K. rewrite K in Eg. discriminate. }
      destruct (getatt_spec_in template str_other sp prop n parts P Hplain) as [o [Eo Ho]]. exists o. split; [exact Eo|]. intros m. rewrite Ho. split.
      + intros [words [Hf ->]]. exists words. split; [|reflexivity]. eapply rfa_getatt; eauto.
      + intros [words [Hf ->]]. exists words. split; [|reflexivity]. inversion Hf as [|y' n' parts' t Hy' Ht Ho' Hst Hw|y' n' parts' vr' sp' words' Hy' Hex' Hr' Hsp' Hf']; subst.
        * destruct (getatt_parts_unique _ _ _ _ _ Hy Hy') as [<- <-]. destruct Hex. exists t. auto.
        * destruct (getatt_parts_unique _ _ _ _ _ Hy Hy') as [<- <-]. pose proof (restriction_chosen _ _ _ Hs Hr') as K. fold W in K. fold vr in K. rewrite <- K, Eg in Hsp'. injection Hsp' as <-. exact Hf'.
    - exists []. split; [reflexivity|]. intros m. split; [intros []|]. intros [words [Hf ->]]. inversion Hf as [|y' n' parts' t Hy' Ht Ho' Hst Hw|y' n' parts' vr' sp' words' Hy' Hex' Hr' Hsp' Hf']; subst.
      + destruct (getatt_parts_unique _ _ _ _ _ Hy Hy') as [<- <-]. destruct Hex. exists t. auto.
      + pose proof (restriction_chosen _ _ _ Hs Hr') as K. fold W in K. fold vr in K. rewrite <- K, Eg in Hsp'. discriminate. }
  destruct (resource_type_of_eq template n Hplain) as [[u [Hu Eu]]|[Hu Eu]]; rewrite Eu in Hspec |- *; cbn [bind] in Hspec |- *.
  - rewrite is_custom_eq. cbn [bind]. destruct (negb (String.eqb u "") && (String.eqb u "AWS::CloudFormation::CustomResource" || starts_with "Custom::" u))%bool eqn:Eo.
    + apply own_iff in Eo. exists []. split; [reflexivity|]. intros m. split; [intros []|]. intros [words [Hf _]]. inversion Hf as [|y' n' parts' t Hy' Ht Ho' Hst Hw|y' n' parts' vr' sp' words' Hy' Hex' Hr' Hsp' Hf']; subst.
      * destruct (getatt_parts_unique _ _ _ _ _ Hy Hy') as [<- <-]. rewrite (resource_type_unique _ _ _ _ Ht Hu) in Ho'. contradiction.
      * destruct (getatt_parts_unique _ _ _ _ _ Hy Hy') as [<- <-]. destruct Hex'. exists u. auto.
    + assert (Kown : ~ own_resource u) by (rewrite own_iff; congruence). destruct (stack_outputs_iff u parts (parts_nonempty _ _ _ Hy)) as [b [Eb Hb]]. rewrite Eb. cbn [bind]. destruct b.
      * assert (Hst : stack_output u parts) by now apply Hb. eexists. split; [reflexivity|]. intros m. split.
        -- destruct W eqn:EW; [|intros []]. intros [<-|[]]. eexists. split; [|reflexivity]. eapply rfa_output; eauto. apply (is_whole_iff ps x q prop _ r Hprop Hs). exact EW.
        -- intros [words [Hf ->]]. inversion Hf as [|y' n' parts' t Hy' Ht Ho' Hst' Hw|y' n' parts' vr' sp' words' Hy' Hex' Hr' Hsp' Hf']; subst.
           ++ apply (is_whole_iff ps x q prop _ r Hprop Hs) in Hw. fold W in Hw. rewrite Hw. now left.
           ++ destruct (getatt_parts_unique _ _ _ _ _ Hy Hy') as [<- <-]. destruct Hex'. exists u. auto.
      * apply Hspec. intros [t [Ht [K|K]]]; rewrite (resource_type_unique _ _ _ _ Ht Hu) in K; [contradiction | apply Hb in K; discriminate].
  - change (is_custom VNull) with (Ok (A:=bool) false). change (stack_outputs VNull (map VStr parts)) with (Ok (A:=bool) false). cbn [bind]. apply Hspec. intros [t [Ht _]]. now destruct (Hu t).
Qed.
End Check.

Lemma c61_references vs str_other template kinds props specs p : ~ In "" (keys vs) -> ~ In "Fn::If" (keys specs) -> plain_sections template -> kinds_known vs kinds ->
  all_objects (VDict props) p -> no_null_property (VDict props) p -> judgeable (VDict props) p ->
  exists ms, ref_getatt_check vs str_other template kinds (VDict props) specs p = Ok ms /\
    forall m, In m ms <-> exists prop x q ps fn y r words, property_of (VDict props) p prop x q /\ assoc prop specs = Some ps /\ ps_value ps <> [] /\
      single x (q ++ [PKey prop])%list (VDict [(fn, y)]) r /\
      reference_fault vs template kinds (fun l => py_str str_other (VList (map VStr l))) prop ps x (q ++ [PKey prop])%list r fn y words /\
      m = mkRM (r ++ [PKey fn])%list words.
Proof.
  intros He Hif Hplain Hk Ha Hn Hj. unfold ref_getatt_check.
  assert (Hprop : forall prop ps, assoc prop specs = Some ps -> prop <> "Fn::If") by (intros prop ps E ->; apply Hif, assoc_Some_key; eauto).
  edestruct (per_value_spec props specs p) as [ms [E Hms]]; [exact Ha | exact Hn | |exists ms; split; [exact E|]].
  - intros prop x q ps w r Hp Hs Hv Hw. split; [intros _; eexists; reflexivity|]. intros fn y h [-> _] Eh. specialize (Hprop prop ps Hs). cbn [assoc] in Eh.
    destruct (String.eqb_spec fn "Ref") as [->|N1]; [injection Eh as <-|destruct (String.eqb_spec fn "Fn::GetAtt") as [->|N2]; [injection Eh as <-|discriminate]].
    + destruct (proj1 (Hj prop x q r Hp) y Hw) as [n ->]. destruct (ref_value_in vs str_other template kinds He Hplain Hk prop ps x q Hprop n r Hw) as [o [Eo _]]. eauto.
    + destruct (proj2 (Hj prop x q r Hp) y Hw) as [n [parts Hy]]. destruct (getatt_value_in vs str_other template kinds He Hplain prop ps x q Hprop y n parts r Hy Hw) as [o [Eo _]]. eauto.
  - intros m. rewrite Hms. split.
    + intros [prop [x [q [ps [w [r [Hp [Hs [Hv [Hw Hh]]]]]]]]]]. pose proof (Hprop prop ps Hs) as Hpr. destruct Hh as [[_ [o [[= <-] []]]]|[fn [y [h [o [[-> Hfn] [Eh [Eo Hm]]]]]]]]. cbn [assoc] in Eh.
      destruct (String.eqb_spec fn "Ref") as [->|N1]; [injection Eh as <-|destruct (String.eqb_spec fn "Fn::GetAtt") as [->|N2]; [injection Eh as <-|discriminate]].
      * destruct (proj1 (Hj prop x q r Hp) y Hw) as [n ->]. destruct (ref_value_in vs str_other template kinds He Hplain Hk prop ps x q Hpr n r Hw) as [o' [Eo' Ho]]. rewrite Eo in Eo'. injection Eo' as <-.
        destruct (proj1 (Ho m) Hm) as [words [Hf ->]]. exists prop, x, q, ps, "Ref", (VStr n), r, words. auto 8.
      * destruct (proj2 (Hj prop x q r Hp) y Hw) as [n [parts Hy]]. destruct (getatt_value_in vs str_other template kinds He Hplain prop ps x q Hpr y n parts r Hy Hw) as [o' [Eo' Ho]]. rewrite Eo in Eo'. injection Eo' as <-.
        destruct (proj1 (Ho m) Hm) as [words [Hf ->]]. exists prop, x, q, ps, "Fn::GetAtt", y, r, words. auto 8.
    + intros [prop [x [q [ps [fn [y [r [words [Hp [Hs [Hv [Hw [Hf ->]]]]]]]]]]]]]. exists prop, x, q, ps, (VDict [(fn, y)]), r. repeat (split; [assumption|]). right. pose proof (Hprop prop ps Hs) as Hpr.
      assert (Hfn : fn = "Ref" \/ fn = "Fn::GetAtt") by (inversion Hf; auto). destruct Hfn as [->| ->].
      * destruct (proj1 (Hj prop x q r Hp) y Hw) as [n ->]. destruct (ref_value_in vs str_other template kinds He Hplain Hk prop ps x q Hpr n r Hw) as [o' [Eo' Ho]].
        eexists "Ref", (VStr n), _, o'. split; [split; [reflexivity | apply smem_iff; reflexivity]|]. split; [reflexivity|]. split; [exact Eo'|]. apply Ho. exists words. split; [exact Hf | reflexivity].
      * destruct (proj2 (Hj prop x q r Hp) y Hw) as [n [parts Hy]]. destruct (getatt_value_in vs str_other template kinds He Hplain prop ps x q Hpr y n parts r Hy Hw) as [o' [Eo' Ho]].
        eexists "Fn::GetAtt", y, _, o'. split; [split; [reflexivity | apply smem_iff; reflexivity]|]. split; [reflexivity|]. split; [exact Eo'|]. apply Ho. exists words. split; [exact Hf | reflexivity].
Qed.
