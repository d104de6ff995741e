(** Proofs for C23 and C24. *)
From Coq Require Import Lia.
From Verif.Model Require Import Base Helpers Rules ConditionRules Limits.
From Verif.Spec Require Import References Limited.
From Verif.Proofs Require Import BaseFacts SearchProofs RelationRule.

Definition meets (k : kind) (q : quantity) : Prop := match k with Exceeds => exceeds q | Approaches => approaches q end.
Definition report (k : kind) (q : quantity) : rulematch :=
  mkRM (q_where q) (limit_text k (q_what q) (q_size q) (q_limit q) (q_unit q)).

Lemma over_spec k q : over k (q_size q) (q_limit q) = true <-> meets k q.
Proof.
  destruct k; unfold over, meets, exceeds, approaches; [apply Z.ltb_lt|]. rewrite andb_true_iff, Z.ltb_lt, Z.leb_le. reflexivity.
Qed.
Lemma check_in k p w n l u m : In m (limit_check k p w n l u) <-> meets k (mkQ w p n l u) /\ m = report k (mkQ w p n l u).
Proof.
  rewrite <- over_spec. unfold limit_check, report. cbn [q_what q_where q_size q_limit q_unit].
  destruct (over k n l); [|split; [intros [] | intros [H _]; discriminate]].
  split; [intros [<-|[]]; auto | intros [_ ->]; now left].
Qed.
Lemma small k n l : (0 <= 9 * l)%Z -> (10 * n <= 9 * l)%Z -> over k n l = false.
Proof.
  intros H1 H2. destruct k; unfold over; [apply Z.ltb_ge; lia|]. apply andb_false_iff. left. apply Z.ltb_ge. lia.
Qed.
Lemma check_small k p w n l u : (0 <= 9 * l)%Z -> (10 * n <= 9 * l)%Z -> limit_check k p w n l u = [].
Proof. intros H1 H2. unfold limit_check. now rewrite small. Qed.

Definition exact (template : val) (size : option Z) (k : kind) (number : string) (r : res (list rulematch)) : Prop :=
  exists ms, r = Ok ms /\ forall m, In m ms <-> exists q, limited template size number q /\ meets k q /\ m = report k q.

Section Limits.
Variable template : val.
Variable size : option Z.
Hypothesis Hdoc : documented template.

Lemma section_or_empty s : In s ["Mappings"; "Outputs"; "Parameters"; "Resources"] ->
  exists ms, vget_def s (VDict []) template = Ok (VDict ms) /\ forall n x, In (n, x) ms <-> exists ms', section template s ms' /\ In (n, x) ms'.
Proof using Hdoc.
  intros Hs. destruct Hdoc as [d [-> [H _]]]. cbn [vget_def]. destruct (assoc s d) as [x|] eqn:E.
  - destruct (H s x Hs E) as [m ->]. exists m. split; [reflexivity|]. intros n y. split; [intros Hi; exists m; split; [exists d; auto | exact Hi]|].
    intros [ms' [[d' [[= <-] E']] Hi]]. rewrite E in E'. injection E' as <-. exact Hi.
  - exists []. split; [reflexivity|]. intros n y. split; [intros []|]. intros [ms' [[d' [[= <-] E']] Hi]]. congruence.
Qed.
Lemma exact_flat {A} k number (l : list A) f : (forall m, (exists x, In x l /\ In m (f x)) <-> exists q, limited template size number q /\ meets k q /\ m = report k q) ->
  exact template size k number (Ok (flat_map f l)).
Proof using. intros H. eexists. split; [reflexivity|]. intros m. rewrite in_flat_map. apply H. Qed.

Lemma names_exact k s number : In (s, number) [("Mappings", "7011"); ("Outputs", "6011"); ("Parameters", "2011"); ("Resources", "3011")] ->
  exact template size k number (name_limit template k s 255).
Proof using Hdoc.
  intros Hs. assert (Hin : In s ["Mappings"; "Outputs"; "Parameters"; "Resources"]) by (cbn in Hs |- *; intuition congruence).
  destruct (section_or_empty s Hin) as [ms [E Hm]]. unfold name_limit. rewrite E. cbn [bind iterate_names]. apply exact_flat. intros m. split.
  - intros [n [Hn Hc]]. apply check_in in Hc as [H1 ->]. unfold keys in Hn. apply in_map_iff in Hn as [[n' x] [<- Hn]]. cbn [fst] in *.
    apply Hm in Hn as [ms' [Hs' Hn]]. eexists. split; [|split; [exact H1 | reflexivity]].
    cbn in Hs. destruct Hs as [[= <- <-]|[[= <- <-]|[[= <- <-]|[[= <- <-]|[]]]]]; econstructor; eauto.
  - intros [q [Hq [H1 ->]]].
    assert (H : exists ms' n x, section template s ms' /\ In (n, x) ms' /\ q = mkQ ("The length of " ++ singular s ++ " name")%string [PKey s; PKey n] (length n) 255 "").
    { cbn in Hs. destruct Hs as [[= <- <-]|[[= <- <-]|[[= <- <-]|[[= <- <-]|[]]]]]; inversion Hq; subst; eauto 8. }
    destruct H as [ms' [n [x [Hs' [Hi ->]]]]]. exists n. split; [unfold keys; apply in_map_iff; exists (n, x); split; [reflexivity | apply Hm; eauto]|].
    apply check_in. split; [exact H1 | reflexivity].
Qed.
Lemma numbers_exact k s number limit : In (s, number, limit) [("Mappings", "7010", 200%Z); ("Outputs", "6010", 200%Z); ("Parameters", "2010", 200%Z)] ->
  exact template size k number (number_limit template k s limit).
Proof using Hdoc.
  intros Hs. assert (Hin : In s ["Mappings"; "Outputs"; "Parameters"; "Resources"]) by (cbn in Hs |- *; intuition congruence).
  unfold number_limit. replace (String.eqb s "Resources") with false by (cbn in Hs; destruct Hs as [[= <- <- <-]|[[= <- <- <-]|[[= <- <- <-]|[]]]]; reflexivity).
  destruct Hdoc as [d [Ed [H _]]]. subst template. cbn [vget_def bind]. destruct (assoc s d) as [x|] eqn:E.
  - destruct (H s x Hin E) as [m ->]. cbn [py_len bind]. eexists. split; [reflexivity|]. intros r. rewrite check_in. split.
    + intros [H1 ->]. eexists. split; [|split; [exact H1 | reflexivity]].
      cbn in Hs. destruct Hs as [[= <- <- <-]|[[= <- <- <-]|[[= <- <- <-]|[]]]]; constructor; exists d; auto.
    + intros [q [Hq [H1 ->]]].
      assert (q = mkQ ("The number of " ++ s)%string [PKey s] (Z.of_nat (List.length m)) limit "").
      { cbn in Hs. destruct Hs as [[= <- <- <-]|[[= <- <- <-]|[[= <- <- <-]|[]]]]; inversion Hq as [| | | |ms Hse|ms Hse|ms Hse| | | | | | | |]; subst;
          destruct Hse as [d' [[= <-] E']]; rewrite E in E'; injection E' as <-; reflexivity. }
      subst q. split; [exact H1 | reflexivity].
  - cbn [py_len bind]. eexists. split; [reflexivity|]. intros r. rewrite check_small.
    + split; [intros []|]. intros [q [Hq [H1 ->]]]. exfalso.
      cbn in Hs. destruct Hs as [[= <- <- <-]|[[= <- <- <-]|[[= <- <- <-]|[]]]]; inversion Hq as [| | | |ms Hse|ms Hse|ms Hse| | | | | | | |]; subst;
          destruct Hse as [d' [[= <-] E']]; congruence.
    + cbn in Hs. intuition; match goal with H : _ = _ |- _ => injection H as <- <- <- end; lia.
    + cbn in Hs |- *. intuition; match goal with H : _ = _ |- _ => injection H as <- <- <- end; lia.
Qed.
Lemma resources_exact k : exact template size k "3010" (number_limit template k "Resources" 500).
Proof using Hdoc.
  unfold number_limit. rewrite String.eqb_refl. cbn [bind]. eexists. split; [reflexivity|]. intros r. unfold get_resources.
  destruct Hdoc as [d [Ed [H _]]]. subst template. cbn [vget_def]. destruct (assoc "Resources" d) as [x|] eqn:E.
  - destruct (H "Resources" x) as [m ->]; [cbn; auto 6 | exact E |]. rewrite check_in.
    assert (Ef : filter (fun kv : string * val => match snd kv with VDict o => match assoc "Type" o with Some VNull | None => false | Some _ => true end | _ => false end) m
                 = filter (fun nx => counts (snd nx)) m) by reflexivity.
    rewrite Ef. split.
    + intros [H1 ->]. eexists. split; [|split; [exact H1 | reflexivity]]. constructor. exists d. auto.
    + intros [q [Hq [H1 ->]]]. inversion Hq as [| | | | | | |ms Hse| | | | | | |]; subst. destruct Hse as [d' [[= <-] E']]. rewrite E in E'. injection E' as <-. split; [exact H1 | reflexivity].
  - rewrite check_small by (cbn; lia). split; [intros []|]. intros [q [Hq _]]. inversion Hq as [| | | | | | |ms Hse| | | | | | |]; subst.
    destruct Hse as [d' [[= <-] E']]. congruence.
Qed.
Lemma exact_concat {A} k number (l : list A) f : (forall x, In x l -> exists ms, f x = Ok ms) ->
  (forall m, (exists x ms, In x l /\ f x = Ok ms /\ In m ms) <-> exists q, limited template size number q /\ meets k q /\ m = report k q) ->
  exact template size k number (concat_res f l).
Proof using.
  intros Ht H. destruct (concat_res_total f l Ht) as [ms E]. exists ms. split; [exact E|]. intros m. rewrite <- H. apply (concat_res_in _ _ _ m E).
Qed.
Lemma attributes_exact k : exact template size k "7012" (attributes_limit template k).
Proof using Hdoc.
  unfold attributes_limit. destruct (section_or_empty "Mappings") as [ms [E Hm]]; [now left|]. rewrite E. cbn [bind items_of].
  assert (Hattr : forall n x, In (n, x) ms -> exists attrs, x = VDict attrs /\ forall a y, In (a, y) attrs -> exists o, y = VDict o).
  { intros n x Hi. apply Hm in Hi as [ms' [[d' [Ed E']] Hi]]. destruct Hdoc as [d [Ed2 [_ [H _]]]]. rewrite Ed in Ed2. injection Ed2 as <-. exact (H ms' n x E' Hi). }
  set (g := fun n na : string * val => match snd na with VDict o => limit_check k [PKey "Mappings"; PKey (fst n); PKey (fst na)] "The amount of mapping attributes" (Z.of_nat (List.length o)) LIMIT_Mappings_attributes "" | _ => [] end).
  assert (Hone : forall n attrs, In (n, VDict attrs) ms ->
     concat_res (fun na => do z <- py_len (snd na); Ok (limit_check k [PKey "Mappings"; PKey n; PKey (fst na)] "The amount of mapping attributes" z LIMIT_Mappings_attributes "")) attrs
     = Ok (flat_map (g (n, VDict attrs)) attrs)).
  { intros n attrs Hi. apply concat_res_Ok. intros [a y] Ha. destruct (Hattr n _ Hi) as [attrs' [[= <-] Ho]]. destruct (Ho a y Ha) as [o ->]. reflexivity. }
  apply exact_concat.
  - intros [n x] Hi. destruct (Hattr n x Hi) as [attrs [-> _]]. cbn [snd fst items_of bind]. rewrite Hone by exact Hi. eauto.
  - intros m. split.
    + intros [[n x] [ys [Hi [Ey Hy]]]]. destruct (Hattr n x Hi) as [attrs [-> Ho]]. cbn [snd fst items_of bind] in Ey. rewrite Hone in Ey by exact Hi. injection Ey as <-.
      apply in_flat_map in Hy as [[a y] [Ha Hy]]. destruct (Ho a y Ha) as [o ->]. unfold g in Hy. cbn [snd fst] in Hy. apply check_in in Hy as [H1 ->].
      apply Hm in Hi as [ms' [Hs Hi]]. eexists. split; [|split; [exact H1 | reflexivity]]. econstructor; eauto.
    + intros [q [Hq [H1 ->]]]. inversion Hq as [| | | | | | | |ms' n attrs a o Hs Hi Ha| | | | | |]; subst.
      assert (Hi' : In (n, VDict attrs) ms) by (apply Hm; eauto). exists (n, VDict attrs). eexists. split; [exact Hi'|]. cbn [snd fst items_of bind]. rewrite Hone by exact Hi'. split; [reflexivity|].
      apply in_flat_map. exists (a, VDict o). split; [exact Ha|]. unfold g. cbn [snd fst]. apply check_in. split; [exact H1 | reflexivity].
Qed.
Lemma output_description_exact k : exact template size k "6012" (output_description_limit template k).
Proof using Hdoc.
  unfold output_description_limit. destruct (section_or_empty "Outputs") as [ms [E Hm]]; [cbn; auto|]. rewrite E. cbn [bind items_of].
  assert (Ho : forall n x, In (n, x) ms -> exists o, x = VDict o /\ forall t, assoc "Description" o = Some t -> exists u, t = VStr u).
  { intros n x Hi. apply Hm in Hi as [ms' [[d' [Ed E']] Hi]]. destruct Hdoc as [d [Ed2 [_ [_ [H _]]]]]. rewrite Ed in Ed2. injection Ed2 as <-.
    destruct (H "Outputs" ms' n x) as [o [-> [H1 _]]]; [now left | exact E' | exact Hi |]. exists o. split; [reflexivity|]. intros t. now apply H1. }
  assert (Hone : forall n o, In (n, VDict o) ms ->
    (do d <- vget "Description" (VDict o); if truthy d then do z <- py_len d; Ok (limit_check k [PKey "Outputs"; PKey n; PKey "Description"] "The length of output description" z LIMIT_Outputs_description "") else Ok [])
    = Ok (match assoc "Description" o with Some (VStr t) => limit_check k [PKey "Outputs"; PKey n; PKey "Description"] "The length of output description" (length t) LIMIT_Outputs_description "" | _ => [] end)).
  { intros n o Hi. cbn [vget bind]. destruct (Ho n _ Hi) as [o' [[= <-] Ht]]. destruct (assoc "Description" o) as [t|]; [|reflexivity]. destruct (Ht t eq_refl) as [u ->].
    destruct u as [|c u]; [|reflexivity]. cbn [truthy String.eqb negb]. rewrite check_small by (cbn; lia). reflexivity. }
  apply exact_concat.
  - intros [n x] Hi. destruct (Ho n x Hi) as [o [-> _]]. cbn [snd fst]. rewrite Hone by exact Hi. eauto.
  - intros m. split.
    + intros [[n x] [ys [Hi [Ey Hy]]]]. destruct (Ho n x Hi) as [o [-> Ht]]. cbn [snd fst] in Ey. rewrite Hone in Ey by exact Hi. injection Ey as <-.
      destruct (assoc "Description" o) as [t|] eqn:Et; [|destruct Hy]. destruct (Ht t eq_refl) as [u ->]. apply check_in in Hy as [H1 ->].
      apply Hm in Hi as [ms' [Hs Hi]]. eexists. split; [|split; [exact H1 | reflexivity]]. econstructor; eauto.
    + intros [q [Hq [H1 ->]]]. inversion Hq as [| | | | | | | | |ms' n o t Hs Hi Ht| | | | |]; subst.
      assert (Hi' : In (n, VDict o) ms) by (apply Hm; eauto). exists (n, VDict o). eexists. split; [exact Hi'|]. cbn [snd fst]. rewrite Hone by exact Hi'. split; [reflexivity|].
      rewrite Ht. apply check_in. split; [exact H1 | reflexivity].
Qed.
Lemma description_exact k : exact template size k "1003" (template_description_limit template k).
Proof using Hdoc.
  unfold template_description_limit. destruct Hdoc as [d [Ed [_ [_ [_ H]]]]]. subst template. cbn [vget_def bind]. destruct (assoc "Description" d) as [x|] eqn:E.
  - destruct (H x eq_refl) as [u ->]. cbn [py_len bind]. eexists. split; [reflexivity|]. intros m. rewrite check_in. split.
    + intros [H1 ->]. eexists. split; [|split; [exact H1 | reflexivity]]. econstructor; eauto.
    + intros [q [Hq [H1 ->]]]. inversion Hq as [| | | | | | | | | |d' t Ed' Et| | | |]; subst. injection Ed' as <-. rewrite E in Et. injection Et as <-. split; [exact H1 | reflexivity].
  - cbn [py_len bind String.length]. eexists. split; [reflexivity|]. intros m. rewrite check_small by (cbn; lia). split; [intros []|].
    intros [q [Hq _]]. inversion Hq as [| | | | | | | | | |d' t Ed' Et| | | |]; subst. injection Ed' as <-. congruence.
Qed.
Lemma size_exact k : exact template size k "1002" (Ok (template_size_limit k size)).
Proof using.
  eexists. split; [reflexivity|]. intros m. unfold template_size_limit. destruct size as [n|] eqn:E.
  - rewrite check_in. split.
    + intros [H1 ->]. eexists. split; [|split; [exact H1 | reflexivity]]. now constructor.
    + intros [q [Hq [H1 ->]]]. inversion Hq as [| | | | | | | | | | |n' En| | |]; subst. injection En as <-. split; [exact H1 | reflexivity].
  - split; [intros []|]. intros [q [Hq _]]. inversion Hq; discriminate.
Qed.
Lemma values_exact k : exact template size k "2012" (value_limit template k).
Proof using Hdoc.
  unfold value_limit, get_parameters. destruct (section_or_empty "Parameters") as [ms [E Hm]]; [cbn; auto|]. rewrite E. cbn [bind].
  assert (Et : (if truthy (VDict ms) then VDict ms else VDict []) = VDict ms) by (destruct ms; reflexivity). rewrite Et. cbn [items_of bind].
  assert (Ho : forall n x, In (n, x) ms -> exists o, x = VDict o /\ forall t, assoc "AllowedValues" o = Some t -> exists l, t = VList l).
  { intros n x Hi. apply Hm in Hi as [ms' [[d' [Ed E']] Hi]]. destruct Hdoc as [d [Ed2 [_ [_ [H _]]]]]. rewrite Ed in Ed2. injection Ed2 as <-.
    destruct (H "Parameters" ms' n x) as [o [-> [_ H1]]]; [now right; left | exact E' | exact Hi |]. exists o. split; [reflexivity|]. intros t. now apply H1. }
  set (here := fun n x => [PKey "Parameters"; PKey n; PKey x]).
  set (out := fun n (o : list (string * val)) =>
    (match assoc "Default" o with Some (VStr s) => limit_check k (here n "Default") "The length of parameter default value" (length s) LIMIT_Parameters_value "" | _ => [] end) ++
    (match assoc "MaxLength" o with Some v => match max_length_of v with Some z => limit_check k (here n "MaxLength") "The MaxLength of parameter" z LIMIT_Parameters_value "" | None => [] end | None => [] end) ++
    (match assoc "AllowedValues" o with Some (VList l) => flat_map (fun v => match v with VStr s => limit_check k (here n "AllowedValues") "The length of parameter allowed value" (length s) LIMIT_Parameters_value "" | _ => [] end) l | _ => [] end)).
  assert (Hone : forall n o, In (n, VDict o) ms -> value_limit_one k (n, VDict o) = Ok (out n o)).
  { intros n o Hi. unfold value_limit_one, out. cbn [snd fst vget vget_def bind]. destruct (Ho n _ Hi) as [o' [[= <-] Ha]].
    assert (E3 : (do av <- (do x <- Ok (match assoc "AllowedValues" o with Some x => x | None => VList [] end); iterate_values x);
       Ok (flat_map (fun v => match v with VStr s => limit_check k (here n "AllowedValues") "The length of parameter allowed value" (length s) LIMIT_Parameters_value "" | _ => [] end) av))
       = Ok (match assoc "AllowedValues" o with Some (VList l) => flat_map (fun v => match v with VStr s => limit_check k (here n "AllowedValues") "The length of parameter allowed value" (length s) LIMIT_Parameters_value "" | _ => [] end) l | _ => [] end)).
    { cbn [bind]. destruct (assoc "AllowedValues" o) as [t|]; [|reflexivity]. destruct (Ha t eq_refl) as [l ->]. reflexivity. }
    cbn [bind] in E3. destruct (iterate_values (match assoc "AllowedValues" o with Some x => x | None => VList [] end)) as [av|]; [|discriminate]. cbn [bind] in E3 |- *. injection E3 as E3. f_equal. fold (here n "Default") (here n "MaxLength") (here n "AllowedValues").
    unfold length in E3. rewrite E3. f_equal; [|f_equal].
    - destruct (assoc "Default" o) as [v|]; [|reflexivity]. destruct v; reflexivity.
    - destruct (assoc "MaxLength" o) as [v|]; [reflexivity|]. cbn [max_length_of]. now rewrite check_small by (cbn; lia). }
  apply exact_concat.
  - intros [n x] Hi. destruct (Ho n x Hi) as [o [-> _]]. rewrite Hone by exact Hi. eauto.
  - intros m. split.
    + intros [[n x] [ys [Hi [Ey Hy]]]]. destruct (Ho n x Hi) as [o [-> Ha]]. rewrite Hone in Ey by exact Hi. injection Ey as <-. apply Hm in Hi as [ms' [Hs Hi]].
      unfold out in Hy. rewrite !in_app_iff in Hy. destruct Hy as [Hy|[Hy|Hy]].
      * destruct (assoc "Default" o) as [v|] eqn:Ev; [|destruct Hy]. destruct v; try (exfalso; exact Hy). apply check_in in Hy as [H1 ->].
        eexists. split; [|split; [exact H1 | reflexivity]]. eapply lm_default; eauto.
      * destruct (assoc "MaxLength" o) as [v|] eqn:Ev; [|destruct Hy]. destruct (max_length_of v) as [z|] eqn:Ez; [|destruct Hy].
        destruct v as [|bb|zz|qq|ss|ll|dd]; try discriminate.
        -- injection Ez as <-. rewrite check_small in Hy; [destruct Hy | cbn; lia | destruct bb; cbn; lia].
        -- injection Ez as <-. apply check_in in Hy as [H1 ->]. eexists. split; [|split; [exact H1 | reflexivity]]. eapply lm_max_length; eauto.
        -- cbn in Ez. destruct (parse_int ss) as [z'|] eqn:Ep; injection Ez as <-; [|rewrite check_small in Hy by (cbn; lia); destruct Hy].
           apply check_in in Hy as [H1 ->]. eexists. split; [|split; [exact H1 | reflexivity]]. eapply lm_max_length; eauto.
      * destruct (assoc "AllowedValues" o) as [v|] eqn:Ev; [|destruct Hy]. destruct v; try (exfalso; exact Hy). apply in_flat_map in Hy as [v [Hv Hy]]. destruct v; try (exfalso; exact Hy). apply check_in in Hy as [H1 ->].
        eexists. split; [|split; [exact H1 | reflexivity]]. eapply lm_allowed; eauto.
    + intros [q [Hq [H1 ->]]]. inversion Hq as [| | | | | | | | | | | |ms' n o t Hs Hi Ht|ms' n o z Hs Hi Hz|ms' n o l t Hs Hi Ht Hl]; subst.
      * assert (Hi' : In (n, VDict o) ms) by (apply Hm; eauto). exists (n, VDict o). eexists. split; [exact Hi'|]. rewrite Hone by exact Hi'. split; [reflexivity|].
        unfold out. rewrite !in_app_iff. left. rewrite Ht. apply check_in. split; [exact H1 | reflexivity].
      * assert (Hi' : In (n, VDict o) ms) by (apply Hm; eauto). exists (n, VDict o). eexists. split; [exact Hi'|]. rewrite Hone by exact Hi'. split; [reflexivity|].
        unfold out. rewrite !in_app_iff. right. left. destruct Hz as [Hz|[t [Hz Hp]]]; rewrite Hz; cbn [max_length_of]; [|rewrite Hp]; apply check_in; (split; [exact H1 | reflexivity]).
      * assert (Hi' : In (n, VDict o) ms) by (apply Hm; eauto). exists (n, VDict o). eexists. split; [exact Hi'|]. rewrite Hone by exact Hi'. split; [reflexivity|].
        unfold out. rewrite !in_app_iff. right. right. rewrite Ht. apply in_flat_map. exists (VStr t). split; [exact Hl|]. apply check_in. split; [exact H1 | reflexivity].
Qed.
Definition numbers : list string := ["7010"; "7011"; "7012"; "6010"; "6011"; "6012"; "2010"; "2011"; "2012"; "3010"; "3011"; "1002"; "1003"].
Lemma c23_one k number : In number numbers -> exists r, limit_rule template k size number = Some r /\ exact template size k number r.
Proof using Hdoc.
  intros H. unfold numbers in H. cbn [In] in H.
  destruct H as [<-|[<-|[<-|[<-|[<-|[<-|[<-|[<-|[<-|[<-|[<-|[<-|[<-|[]]]]]]]]]]]]]]; (eexists; split; [reflexivity|]).
  - apply numbers_exact; cbn; auto.
  - apply names_exact; cbn; auto.
  - apply attributes_exact.
  - apply numbers_exact; cbn; auto.
  - apply names_exact; cbn; auto.
  - apply output_description_exact.
  - apply numbers_exact; cbn; auto.
  - apply names_exact; cbn; auto.
  - apply values_exact.
  - apply resources_exact.
  - apply names_exact; cbn; auto.
  - apply size_exact.
  - apply description_exact.
Qed.
End Limits.

(** * C23 *)
Lemma c23_all template size : documented template -> forall number, In number numbers ->
  exists es is, limit_rule template Exceeds size number = Some (Ok es) /\ limit_rule template Approaches size number = Some (Ok is) /\
  (forall m, In m es <-> exists q, limited template size number q /\ exceeds q /\ m = mkRM (q_where q)
     (q_what q ++ " (" ++ str_of_Z (q_size q) ++ q_unit q ++ ") exceeds the limit (" ++ str_of_Z (q_limit q) ++ q_unit q ++ ")")%string) /\
  (forall m, In m is <-> exists q, limited template size number q /\ approaches q /\ m = mkRM (q_where q)
     (q_what q ++ " (" ++ str_of_Z (q_size q) ++ q_unit q ++ ") is approaching the limit (" ++ str_of_Z (q_limit q) ++ q_unit q ++ ")")%string).
Proof.
  intros Hd number Hn. destruct (c23_one template size Hd Exceeds number Hn) as [r1 [E1 [es [-> H1]]]].
  destruct (c23_one template size Hd Approaches number Hn) as [r2 [E2 [is [-> H2]]]]. exists es, is. repeat split; assumption || apply H1 || apply H2.
Qed.
Lemma c23_exclusive q : ~ (exceeds q /\ approaches q).
Proof. unfold exceeds, approaches. lia. Qed.
Fixpoint copies (n : nat) (s : string) : string := match n with O => "" | S n' => (s ++ copies n' s)%string end.
Lemma c23_size_shapes : exists template, (documented template -> False) /\ limit_rule template Exceeds None "7012" = Some (Err ETemplateAttribute).
Proof.
  exists (VDict [("Mappings", VDict [("M", VStr "x")])]). split; [|reflexivity].
  intros [d [[= <-] [_ [H _]]]]. destruct (H [("M", VStr "x")] "M" (VStr "x") eq_refl (or_introl eq_refl)) as [a [E _]]. discriminate.
Qed.

(** * C24 *)
Lemma is_alnum_spec a : is_alnum a = true <-> In a (list_ascii_of_string "ABCDEFGHIJKLMNOPQRSTUVWXYZabcdefghijklmnopqrstuvwxyz0123456789").
Proof.
  assert (E : is_alnum a = existsb (Ascii.eqb a) (list_ascii_of_string "ABCDEFGHIJKLMNOPQRSTUVWXYZabcdefghijklmnopqrstuvwxyz0123456789")).
  { destruct a as [b0 b1 b2 b3 b4 b5 b6 b7]. destruct b0, b1, b2, b3, b4, b5, b6, b7; vm_compute; reflexivity. }
  rewrite E, existsb_exists. split.
  - intros [x [H1 H2]]. apply Ascii.eqb_eq in H2. now subst x.
  - intros H. exists a. split; [exact H | apply Ascii.eqb_refl].
Qed.
Lemma regex_spec s : (forall t, s <> (t ++ String "010" "")%string) -> regex_alphanumeric s = true <-> alphanumeric s.
Proof.
  induction s as [|a s IH]; intros Hn.
  - split; [intros _ x [] | reflexivity].
  - cbn [regex_alphanumeric]. destruct (is_alnum a) eqn:E.
    + rewrite IH by (intros t ->; apply (Hn (String a t)); reflexivity). split.
      * intros H x [<-|Hx]; [now apply is_alnum_spec | now apply H].
      * intros H x Hx. apply H. now right.
    + split.
      * intros H. apply andb_prop in H as [H1 H2]. apply String.eqb_eq in H2. subst s. apply Ascii.eqb_eq in H1. subst a. exfalso. now apply (Hn "").
      * intros H. rewrite (proj2 (is_alnum_spec a)) in E; [discriminate | apply H; now left].
Qed.
Lemma c24_all template s ms : section template s ms -> (forall n x, In (n, x) ms -> forall t, n <> (t ++ String "010" "")%string) ->
  exists rs, alphanumeric_name template s = Ok rs /\
  forall m, In m rs <-> exists n x, In (n, x) ms /\ ~ alphanumeric n /\
    m = mkRM [PKey s; PKey n] (singular s ++ " " ++ n ++ " has invalid name.  Name has to be alphanumeric.")%string.
Proof.
  intros [d [-> E]] Hn. unfold alphanumeric_name. cbn [vget_def]. rewrite E. cbn [bind items_of]. eexists. split; [reflexivity|].
  intros m. rewrite in_flat_map. split.
  - intros [[n x] [Hi Hm]]. cbn [fst] in Hm. exists n, x. split; [exact Hi|].
    destruct (regex_alphanumeric n) eqn:Er; [destruct Hm|]. destruct Hm as [<-|[]]. split; [|reflexivity].
    intros Ha. apply (regex_spec n (Hn n x Hi)) in Ha. congruence.
  - intros [n [x [Hi [Ha ->]]]]. exists (n, x). split; [exact Hi|]. cbn [fst]. destruct (regex_alphanumeric n) eqn:Er; [|now left].
    exfalso. apply Ha. now apply (regex_spec n (Hn n x Hi)).
Qed.
Lemma c24_absent template d s : template = VDict d -> assoc s d = None -> alphanumeric_name template s = Ok [].
Proof. intros -> E. unfold alphanumeric_name. cbn [vget_def]. now rewrite E. Qed.
Lemma c24_keys template ms : section template "Mappings" ms ->
  (forall n m k x a y, In (n, VDict m) ms -> In (k, VDict x) m -> In (a, y) x -> forall t, a <> (t ++ String "010" "")%string) ->
  exists rs, key_name_match template = Ok rs /\
  forall r, In r rs <-> exists n m k x a y, In (n, VDict m) ms /\ In (k, VDict x) m /\ In (a, y) x /\ ~ alphanumeric a /\
    r = mkRM [PKey "Mappings"; PKey n; PKey k; PKey a] ("Mapping key (" ++ a ++ ") has invalid name. Name has to be alphanumeric.")%string.
Proof.
  intros [d [-> E]] Hn. unfold key_name_match. cbn [vget_def]. rewrite E. cbn [bind items_of]. eexists. split; [reflexivity|].
  intros r. rewrite in_flat_map. split.
  - intros [[n m] [Hi Hm]]. cbn [fst snd] in Hm. apply in_flat_map in Hm as [[k x] [Hk Hm]]. cbn [fst snd] in Hm.
    apply in_flat_map in Hm as [[a y] [Ha Hm]]. destruct m as [| | | | | |m]; try (exfalso; exact Hk). destruct x as [| | | | | |x]; try (exfalso; exact Ha).
    cbn [dict_of] in Hk, Ha. exists n, m, k, x, a, y. unfold key_name_check in Hm. cbn [fst] in Hm.
    destruct (regex_alphanumeric a) eqn:Er; [destruct Hm|]. destruct Hm as [<-|[]]. repeat split; try assumption.
    intros Hal. apply (regex_spec a (Hn _ _ _ _ _ _ Hi Hk Ha)) in Hal. congruence.
  - intros [n [m [k [x [a [y [Hi [Hk [Ha [Hal ->]]]]]]]]]]. exists (n, VDict m). split; [exact Hi|]. cbn [fst snd dict_of].
    apply in_flat_map. exists (k, VDict x). split; [exact Hk|]. cbn [fst snd dict_of]. apply in_flat_map. exists (a, y). split; [exact Ha|].
    unfold key_name_check. cbn [fst]. destruct (regex_alphanumeric a) eqn:Er; [|now left]. exfalso. apply Hal. now apply (regex_spec a (Hn _ _ _ _ _ _ Hi Hk Ha)).
Qed.
Lemma c24_newline : exists template n x ms, section template "Resources" ms /\ In (n, x) ms /\ ~ alphanumeric n /\ alphanumeric_name template "Resources" = Ok [].
Proof.
  exists (VDict [("Resources", VDict [(String "A" (String "010" ""), VDict [])])]), (String "A" (String "010" "")), (VDict []). eexists.
  split; [eexists; split; reflexivity|]. split; [now left|]. split; [|reflexivity].
  intros H. specialize (H "010"%char (or_intror (or_introl eq_refl))). apply is_alnum_spec in H. discriminate.
Qed.

(** * A template near its limits *)
Definition crowded : val :=
  VDict [("Description", VStr (copies 1000 "d"));
         ("Mappings", VDict [("Map_1", VDict [("east", VDict [("a-b", VStr "x"); ("ok", VStr "y")])])]);
         ("Parameters", VDict [(copies 240 "p", VDict [("MaxLength", VStr "5000"); ("Default", VStr (copies 4000 "v")); ("AllowedValues", VList [VStr "x"; VInt 3%Z])])]);
         ("Resources", VDict [(copies 256 "r", VDict [("Type", VStr "T")]); ("Bad-Name", VDict [])])].
Lemma crowded_documented : documented crowded.
Proof.
  eexists. split; [reflexivity|]. split; [|split; [|split]].
  - intros s x Hs E. cbn [In] in Hs. destruct Hs as [<-|[<-|[<-|[<-|[]]]]]; vm_compute in E; try discriminate; injection E as <-; eauto.
  - intros ms n x E Hi. injection E as <-. destruct Hi as [[= <- <-]|[]]. eexists. split; [reflexivity|]. intros a y [[= <- <-]|[]]. eauto.
  - intros s ms n x Hs E Hi. destruct Hs as [<-|[<-|[]]]; [discriminate|]. injection E as <-. destruct Hi as [[= <- <-]|[]]. eexists. split; [reflexivity|].
    split; [discriminate|]. intros t _ E. injection E as <-. eauto.
  - intros t E. injection E as <-. eauto.
Qed.
Lemma crowded_reports :
  limit_rule crowded Exceeds (Some 950000%Z) "3011" = Some (Ok [mkRM [PKey "Resources"; PKey (copies 256 "r")] "The length of Resource name (256) exceeds the limit (255)"]) /\
  limit_rule crowded Approaches (Some 950000%Z) "3011" = Some (Ok []) /\
  limit_rule crowded Exceeds (Some 950000%Z) "2011" = Some (Ok []) /\
  limit_rule crowded Approaches (Some 950000%Z) "2011" = Some (Ok [mkRM [PKey "Parameters"; PKey (copies 240 "p")] "The length of Parameter name (240) is approaching the limit (255)"]) /\
  limit_rule crowded Approaches (Some 950000%Z) "1002" = Some (Ok [mkRM [PKey "Template"] "The template file size (950000 bytes) is approaching the limit (1000000 bytes)"]) /\
  limit_rule crowded Approaches (Some 950000%Z) "2012" = Some (Ok [mkRM [PKey "Parameters"; PKey (copies 240 "p"); PKey "Default"] "The length of parameter default value (4000) is approaching the limit (4096)"]) /\
  limit_rule crowded Exceeds (Some 950000%Z) "2012" = Some (Ok [mkRM [PKey "Parameters"; PKey (copies 240 "p"); PKey "MaxLength"] "The MaxLength of parameter (5000) exceeds the limit (4096)"]).
Proof. vm_compute. repeat split. Qed.
Lemma crowded_names :
  alphanumeric_name crowded "Mappings" = Ok [mkRM [PKey "Mappings"; PKey "Map_1"] "Mapping Map_1 has invalid name.  Name has to be alphanumeric."] /\
  alphanumeric_name crowded "Resources" = Ok [mkRM [PKey "Resources"; PKey "Bad-Name"] "Resource Bad-Name has invalid name.  Name has to be alphanumeric."] /\
  alphanumeric_name crowded "Outputs" = Ok [] /\
  key_name_match crowded = Ok [mkRM [PKey "Mappings"; PKey "Map_1"; PKey "east"; PKey "a-b"] "Mapping key (a-b) has invalid name. Name has to be alphanumeric."].
Proof. vm_compute. repeat split. Qed.
