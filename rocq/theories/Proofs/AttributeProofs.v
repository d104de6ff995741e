(** Proofs about the attributes of resources and Fn::GetAtt (C52). *)
From Coq Require Import Lia.
From Verif.Model Require Import Base Helpers Rules Search Refs ConditionRules Relationship Limits Parameters Policies Functions.
From Verif.Spec Require Import Paths References ParameterUse ConditionUse FunctionArguments Attributes.
From Verif.Proofs Require Import BaseFacts SearchProofs ConditionUseProofs RefProofs FunctionProofs.
Import Verif.Model.Rules.
Local Open Scope string_scope.

(** * Texts *)
Lemma starts_begins p s : starts_with p s = true <-> begins p s.
Proof. unfold starts_with. rewrite prefix_iff. split; intros [r H]; exists r; auto. Qed.
Lemma ends_ends p s : ends_with p s = true <-> ends p s.
Proof. rewrite ends_with_iff. reflexivity. Qed.
Lemma dotless_has s : dotless s <-> has_char "." s = false.
Proof.
  unfold dotless. induction s as [|a s IH]; [cbn; intuition|]. cbn [has_char list_ascii_of_string]. unfold char_eqb. destruct (Ascii.eqb_spec a ".") as [->|Hn].
  - split; [intros H; exfalso; apply H; now left | discriminate].
  - cbn [orb]. rewrite <- IH. split; [intros H Hi; apply H; now right | intros H [Hi|Hi]; [now apply Hn | now apply H]].
Qed.
Lemma split_dot_some s : forall x y, split_dot s = Some (x, y) <-> s = x ++ "." ++ y /\ dotless x.
Proof.
  induction s as [|a s IH]; intros x y.
  - split; [discriminate|]. intros [H _]. destruct x; discriminate.
  - cbn [split_dot]. unfold char_eqb. destruct (Ascii.eqb_spec a ".") as [->|Hn].
    + split.
      * intros [= <- <-]. split; [reflexivity | intros []].
      * intros [H Hd]. destruct x as [|b x]; [now injection H as -> | injection H as <- _; exfalso; apply Hd; now left].
    + destruct (split_dot s) as [[x' y']|] eqn:E.
      * split.
        -- intros [= <- <-]. destruct (proj1 (IH x' y') eq_refl) as [-> Hd]. split; [reflexivity|]. intros [H|H]; [now apply Hn | now apply Hd].
        -- intros [H Hd]. destruct x as [|b x]; [injection H as -> _; contradiction|]. injection H as <- H.
           assert (Es : Some (x', y') = Some (x, y)) by (apply IH; split; [exact H | intros Hi; apply Hd; now right]). now injection Es as -> ->.
      * split; [discriminate|]. intros [H Hd]. destruct x as [|b x]; [injection H as -> _; contradiction|]. injection H as <- H.
        assert (Es : None = Some (x, y)) by (apply IH; split; [exact H | intros Hi; apply Hd; now right]). discriminate.
Qed.
Lemma split_dot_none s : split_dot s = None <-> dotless s.
Proof.
  split.
  - intros E Hi. destruct (in_split "."%char (list_ascii_of_string s) Hi) as [l1 [l2 _]].
    assert (H : exists x y, s = x ++ "." ++ y /\ dotless x).
    { clear -Hi. induction s as [|a s IH]; [destruct Hi|]. destruct (Ascii.eqb_spec a ".") as [->|Hn]; [exists "", s; split; [reflexivity | intros []]|].
      destruct Hi as [Hi|Hi]; [contradiction|]. destruct (IH Hi) as [x [y [-> Hd]]]. exists (String a x), y. split; [reflexivity|]. intros [H|H]; [now apply Hn | now apply Hd]. }
    destruct H as [x [y H]]. apply split_dot_some in H. congruence.
  - intros Hd. destruct (split_dot s) as [[x y]|] eqn:E; [|reflexivity]. apply split_dot_some in E as [-> _]. exfalso. apply Hd.
    clear. induction x as [|a x IH]; [now left | now right].
Qed.
Lemma dotless_split s : dotless s \/ exists x y, s = x ++ "." ++ y /\ dotless x.
Proof.
  destruct (split_dot s) as [[x y]|] eqn:E; [right; exists x, y; now apply split_dot_some | left; now apply split_dot_none].
Qed.
Lemma dot_det x y x' y' : dotless x -> dotless x' -> x ++ "." ++ y = x' ++ "." ++ y' -> x = x' /\ y = y'.
Proof.
  intros H H' E. assert (E1 : split_dot (x ++ "." ++ y) = Some (x, y)) by now apply split_dot_some.
  assert (E2 : split_dot (x ++ "." ++ y) = Some (x', y')) by now apply split_dot_some. rewrite E1 in E2. now injection E2 as -> ->.
Qed.
Lemma dot_dotless x y : ~ dotless (x ++ "." ++ y).
Proof. intros H. apply H. clear. induction x as [|a x IH]; [now left | now right]. Qed.
Lemma split_on_dot s : split_on "." s = match split_dot s with Some (x, y) => x :: split_on "." y | None => [s] end.
Proof.
  destruct (split_dot s) as [[x y]|] eqn:E.
  - apply split_dot_some in E as [-> H]. apply split_on_app. now apply dotless_has.
  - apply split_on_nochar. apply dotless_has. now apply split_dot_none.
Qed.

(** * The types *)
Definition open_type (t : string) : Prop := stack_type t \/ custom_type t.
Section Types.
Variable types : list (string * option (list (string * attspec))).
Lemma custom_spec t : starts_with "Custom::" t || starts_with "AWS::Serverless::" t || starts_with "AWS::CloudFormation::CustomResource" t || ends_with "::MODULE" t = true <-> custom_type t.
Proof. unfold custom_type. rewrite !orb_true_iff, !starts_begins, ends_ends. tauto. Qed.
Lemma custom_dec t : {custom_type t} + {~ custom_type t}.
Proof.
  destruct (starts_with "Custom::" t || starts_with "AWS::Serverless::" t || starts_with "AWS::CloudFormation::CustomResource" t || ends_with "::MODULE" t) eqn:E.
  - left. now apply custom_spec.
  - right. intros H. apply custom_spec in H. congruence.
Qed.
Lemma stack_dec t : {stack_type t} + {~ stack_type t}.
Proof.
  unfold stack_type. destruct (starts_with "AWS::CloudFormation::Stack" t) eqn:E; [left; now apply starts_begins|]. right. intros H. apply starts_begins in H. congruence.
Qed.
(** The three kinds of types. *)
Inductive kind (t : string) : option (list (string * attspec)) -> Prop :=
| k_stack : stack_type t -> kind t (Some [("*", mkAtt None (Some "String"))])
| k_custom : ~ stack_type t -> custom_type t -> kind t (Some [("*", mkAtt None None)])
| k_listed : forall atts, ~ stack_type t -> ~ custom_type t -> assoc t types = Some (Some atts) -> kind t (Some atts)
| k_none : ~ stack_type t -> ~ custom_type t -> (forall atts, assoc t types <> Some (Some atts)) -> kind t None.
Lemma kind_of t : kind t (getatts_of types t).
Proof.
  unfold getatts_of. destruct (starts_with "AWS::CloudFormation::Stack" t) eqn:E; [apply k_stack; now apply starts_begins|].
  assert (Hs : ~ stack_type t) by (intros H; apply starts_begins in H; congruence). clear E.
  destruct (starts_with "Custom::" t || starts_with "AWS::Serverless::" t || starts_with "AWS::CloudFormation::CustomResource" t || ends_with "::MODULE" t) eqn:E.
  - apply k_custom; [exact Hs | now apply custom_spec].
  - assert (Hc : ~ custom_type t) by (intros H; apply custom_spec in H; congruence).
    destruct (assoc t types) as [[atts|]|] eqn:Et; [now apply k_listed | apply k_none; auto; congruence | apply k_none; auto; congruence].
Qed.
Lemma has_attributes_spec t : has_attributes types t <-> exists atts, getatts_of types t = Some atts.
Proof.
  unfold has_attributes. destruct (kind_of t) as [H|H1 H2|atts H1 H2 H3|H1 H2 H3]; split; eauto.
  - intros [H|[H|[a H]]]; [contradiction | contradiction | exfalso; exact (H3 a H)].
  - intros [a H]. discriminate.
Qed.

Hypothesis Hpt : plain_types types.
Lemma getatt_attribute_spec (str_of : val -> string) p v name t atts a : getatts_of types t = Some atts ->
  Forall (fun m => rm_path m = p) (getatt_attribute str_of p v name atts a) /\ (getatt_attribute str_of p v name atts a = [] <-> has_attribute types t a).
Proof using Hpt.
  intros E. unfold getatt_attribute. rewrite split_on_dot.
  assert (Hb : forall x y, begins "*." (x ++ "." ++ y) /\ dotless x -> x = "*").
  { intros x y [[r Hr] Hd]. assert (Hx : x ++ "." ++ y = "*" ++ "." ++ r) by exact Hr. apply dot_det in Hx as [-> _]; [reflexivity | exact Hd|]. intros [H|[]]; discriminate. }
  assert (Hopen : forall s, open_type t -> atts = [("*", s)] -> att_type s = None ->
     let l := match match split_dot a with Some (x, y) => x :: split_on "." y | None => [a] end with
              | first :: _ :: _ => match assoc first atts with
                                   | Some s => match att_type s with
                                               | Some t => if String.eqb t "Map" then [] else ([invalid_getatt str_of p v name (Some a)] ++ (if mem_assoc a atts || mem_assoc "*" atts then [] else [invalid_getatt str_of p v name (Some a)]))%list
                                               | None => ([invalid_getatt str_of p v name (Some a)] ++ (if mem_assoc a atts || mem_assoc "*" atts then [] else [invalid_getatt str_of p v name (Some a)]))%list
                                               end
                                   | None => if mem_assoc a atts || mem_assoc "*" atts then [] else [invalid_getatt str_of p v name (Some a)]
                                   end
              | _ => if mem_assoc a atts || mem_assoc "*" atts then [] else [invalid_getatt str_of p v name (Some a)]
              end in
     Forall (fun m => rm_path m = p) l /\ (l = [] <-> has_attribute types t a)).
  { intros s Ho -> Hs. change (mem_assoc "*" [("*", s)]) with true. rewrite orb_true_r.
    assert (Hyes : ~ begins "*." a -> has_attribute types t a) by (intros H; left; auto).
    assert (Hno : begins "*." a -> ~ has_attribute types t a) by (intros H [[_ H']|[H1 [H2 _]]]; [contradiction | destruct Ho; contradiction]).
    destruct (split_dot a) as [[x y]|] eqn:Ed.
    - apply split_dot_some in Ed as [-> Hd]. pose proof (split_on_dot y) as Ey. destruct (split_on "." y) as [|z l] eqn:Es; [destruct (split_dot y) as [[]|]; discriminate|].
      destruct (String.eqb_spec x "*") as [->|Hn].
      + change (assoc "*" [("*", s)]) with (Some s). cbv beta iota. rewrite Hs. split; [repeat constructor|]. split; [discriminate|]. intros H. exfalso. apply (Hno (ex_intro _ y eq_refl) H).
      + assert (Ex : assoc x [("*", s)] = None) by (apply assoc_None; intros [H|[]]; now apply Hn).
        rewrite Ex.
        split; [constructor|]. split; [|reflexivity]. intros _. apply Hyes. intros H. apply Hn. now apply (Hb x y).
    - split; [constructor|]. split; [|reflexivity]. intros _. apply Hyes. intros [r ->]. apply split_dot_none in Ed. exact (dot_dotless "*" r Ed). }
  destruct (kind_of t) as [H|H1 H2|atts' H1 H2 H3|H1 H2 H3]; [injection E as <-; apply (Hopen _ (or_introl H) eq_refl eq_refl) | injection E as <-; apply (Hopen _ (or_intror H2) eq_refl eq_refl) | | discriminate].
  injection E as ->. clear Hopen Hb. destruct (Hpt t atts H3) as [_ [Hstar Hdot]].
  assert (Estar : mem_assoc "*" atts = false) by (destruct (mem_assoc "*" atts) eqn:E; [apply mem_assoc_iff in E; contradiction | reflexivity]).
  rewrite Estar, orb_false_r.
  assert (Hl : forall b s, assoc b atts = Some s -> listed types t b s) by (intros b s Hb; exists atts; auto).
  assert (Hl' : forall b s, listed types t b s -> assoc b atts = Some s) by (intros b s [atts' [Ha Hb]]; rewrite H3 in Ha; now injection Ha as <-).
  assert (Hmiss : (forall m k s, a = m ++ "." ++ k -> dotless m -> listed types t m s -> att_type s <> Some "Map") ->
    Forall (fun m => rm_path m = p) (if mem_assoc a atts then [] else [invalid_getatt str_of p v name (Some a)]) /\
    ((if mem_assoc a atts then [] else [invalid_getatt str_of p v name (Some a)]) = [] <-> has_attribute types t a)).
  { intros Hm. destruct (mem_assoc a atts) eqn:Ea.
    - split; [constructor|]. split; [|reflexivity]. intros _. right. split; [exact H1|]. split; [exact H2|]. left. apply mem_assoc_iff, assoc_Some_key in Ea as [s Es]. exists s. now apply Hl.
    - split; [repeat constructor|]. split; [discriminate|]. intros [[[Ho|Ho] _]|[_ [_ [[s Hs]|[m [k [s [Hk [Hd [Hs Ht]]]]]]]]]]; try contradiction.
      + exfalso. apply Hl' in Hs. assert (mem_assoc a atts = true) by (apply mem_assoc_iff, assoc_Some_key; eauto). congruence.
      + exfalso. exact (Hm m k s Hk Hd Hs Ht). }
  destruct (split_dot a) as [[x y]|] eqn:Ed.
  - apply split_dot_some in Ed as [-> Hd]. pose proof (split_on_dot y) as Ey. destruct (split_on "." y) as [|z l] eqn:Es; [destruct (split_dot y) as [[]|]; discriminate|].
    destruct (assoc x atts) as [s|] eqn:Ex.
    + assert (Hin : In x (map fst atts)) by (apply (proj2 (assoc_Some_key x atts)); eauto).
      assert (Hnot : ~ In (x ++ "." ++ y) (map fst atts)) by (apply Hdot; assumption).
      assert (Em : mem_assoc (x ++ "." ++ y) atts = false) by (destruct (mem_assoc (x ++ "." ++ y) atts) eqn:E; [apply mem_assoc_iff in E; contradiction | reflexivity]).
      rewrite Em.
      assert (Hbad : att_type s <> Some "Map" -> ~ has_attribute types t (x ++ "." ++ y)).
      { intros Hs [[[Ho|Ho] _]|[_ [_ [[s' Hs']|[m [k [s' [Hk [Hd' [Hs' Ht]]]]]]]]]]; try contradiction.
        - apply Hl' in Hs'. apply Hnot, (proj2 (assoc_Some_key _ atts)). eauto.
        - apply dot_det in Hk as [<- <-]; try assumption. apply Hl' in Hs'. congruence. }
      destruct (att_type s) as [ty|] eqn:Et; [destruct (String.eqb_spec ty "Map") as [->|Hn]|].
      * split; [constructor|]. split; [|reflexivity]. intros _. right. split; [exact H1|]. split; [exact H2|]. right. exists x, y, s. auto.
      * split; [repeat constructor|]. split; [discriminate|]. intros H. exfalso. apply Hbad; [congruence | exact H].
      * split; [repeat constructor|]. split; [discriminate|]. intros H. exfalso. apply Hbad; [congruence | exact H].
    + apply Hmiss. intros m k s Hk Hd' Hs Ht. apply dot_det in Hk as [<- <-]; try assumption. apply Hl' in Hs. congruence.
  - apply Hmiss. intros m k s -> Hd Hs Ht. apply split_dot_none in Ed. exact (dot_dotless m k Ed).
Qed.
End Types.

(** * The template *)
Lemma resource_type_det template r t t' : resource_type template r t -> resource_type template r t' -> t = t'.
Proof.
  intros [o [[d [s [-> [E1 E2]]]] Et]] [o' [[d' [s' [[= <-] [E1' E2']]]] Et']]. rewrite E1 in E1'. injection E1' as <-. rewrite E2 in E2'. injection E2' as <-. congruence.
Qed.
Section Template.
Variable template : val.
Variable types : list (string * option (list (string * attspec))).
Variable str_of : val -> string.
Hypothesis Hw : wf template.
Hypothesis Hpl : plain_sections template.

Lemma resources_plain : exists rs, vget_def "Resources" (VDict []) template = Ok (VDict rs) /\ NoDup (map fst rs) /\
  (forall n x, In (n, x) rs -> exists o, x = VDict o /\ forall t, assoc "Type" o = Some t -> exists u, t = VStr u) /\
  forall n o, defined_in "Resources" template n o <-> assoc n rs = Some (VDict o).
Proof using Hw Hpl.
  destruct Hpl as [d [-> H]]. cbn [vget_def]. destruct (assoc "Resources" d) as [x|] eqn:E.
  - destruct (H "Resources" x) as [rs [-> Hr]]; [right; now left | exact E|]. exists rs. split; [reflexivity|]. split; [|split].
    + apply wf_dict in Hw as [_ Hw']. apply assoc_In in E. apply Hw' in E. now apply wf_dict in E.
    + intros n y Hi. destruct (Hr n y Hi) as [o [-> [Ht _]]]. exists o. split; [reflexivity|]. now apply Ht.
    + intros n o. split; [intros [d' [s [[= <-] [E1 E2]]]]; congruence | intros Ea; exists d, rs; auto].
  - exists []. split; [reflexivity|]. split; [constructor|]. split; [intros n x []|]. intros n o. split; [intros [d' [s [[= <-] [E1 E2]]]]; congruence | discriminate].
Qed.

Lemma valid_getatts_spec : exists valid, get_valid_getatts template types = Ok valid /\ NoDup (map fst valid) /\
  forall r atts, assoc r valid = Some atts <-> exists t, resource_type template r t /\ getatts_of types t = Some atts.
Proof using Hw Hpl.
  destruct resources_plain as [rs [Er [Hnd [Hp Hd]]]]. unfold get_valid_getatts. rewrite Er. cbn [bind items_of].
  set (g := fun nx : string * val => match snd nx with VDict o => match assoc "Type" o with Some (VStr t) => match getatts_of types t with Some a => [(fst nx, a)] | None => [] end | _ => [] end | _ => [] end).
  rewrite (concat_res_ext _ (fun nx => Ok (g nx))).
  2: { intros [n x] Hi. destruct (Hp n x Hi) as [o [-> Ht]]. unfold g. cbn [snd fst member_type bind]. reflexivity. }
  rewrite (concat_res_Ok _ g) by reflexivity. exists (flat_map g rs). split; [reflexivity|].
  assert (Hi : forall r atts, In (r, atts) (flat_map g rs) <-> exists o t, In (r, VDict o) rs /\ assoc "Type" o = Some (VStr t) /\ getatts_of types t = Some atts).
  { intros r atts. rewrite in_flat_map. split.
    - intros [[n x] [Hn Hg]]. unfold g in Hg. cbn [fst snd] in Hg. destruct x as [| | | | | |o]; try (exfalso; exact Hg).
      destruct (assoc "Type" o) as [ty|] eqn:Et; [|destruct Hg]. destruct ty as [| | | |t| |]; try (exfalso; exact Hg).
      destruct (getatts_of types t) as [a|] eqn:Ea; [|destruct Hg]. destruct Hg as [[= -> ->]|[]]. exists o, t. auto.
    - intros [o [t [Hn [Et Ea]]]]. exists (r, VDict o). split; [exact Hn|]. unfold g. cbn [fst snd]. rewrite Et, Ea. now left. }
  assert (Hnd' : NoDup (map fst (flat_map g rs))).
  { clear -Hnd. induction rs as [|[n x] rs IH]; [constructor|]. cbn [map fst] in Hnd. inversion Hnd as [|? ? Hn Hd]; subst. cbn [flat_map].
    assert (Hsub : forall k, In k (map fst (flat_map g rs)) -> In k (map fst rs)).
    { intros k Hk. apply in_map_iff in Hk as [[k' a] [<- Hk]]. apply in_flat_map in Hk as [[m y] [Hm Hg]]. apply in_map_iff. exists (m, y). split; [|exact Hm].
      unfold g in Hg. cbn [fst snd] in *. destruct y as [| | | | | |o]; try (exfalso; exact Hg). destruct (assoc "Type" o) as [[| | | |t| |]|]; try (exfalso; exact Hg).
      destruct (getatts_of types t); [|destruct Hg]. destruct Hg as [[= -> ->]|[]]. reflexivity. }
    assert (Hg : g (n, x) = [] \/ exists a, g (n, x) = [(n, a)]).
    { unfold g. cbn [fst snd]. destruct x as [| | | | | |o]; try (now left). destruct (assoc "Type" o) as [[| | | |t| |]|]; try (now left). destruct (getatts_of types t); [right; eauto | now left]. }
    destruct Hg as [->|[a ->]]; [exact (IH Hd)|]. cbn [app map fst]. constructor; [|exact (IH Hd)]. intros H. apply Hn. now apply Hsub. }
  split; [exact Hnd'|]. intros r atts. split.
  - intros Ha. apply assoc_In in Ha. apply Hi in Ha as [o [t [Hn [Et Ea]]]]. exists t. split; [|exact Ea]. exists o. split; [|exact Et]. apply Hd. now apply In_assoc.
  - intros [t [[o [Ho Et]] Ea]]. apply In_assoc; [exact Hnd'|]. apply Hi. exists o, t. split; [|auto]. apply assoc_In. now apply Hd.
Qed.
Lemma modules_spec : exists ms, get_modules str_of template = Ok ms /\ forall n, (existsb (fun m => starts_with m n) ms = true <-> module_output template n).
Proof using Hw Hpl.
  destruct resources_plain as [rs [Er [Hnd [Hp Hd]]]]. unfold get_modules. rewrite Er. cbn [bind items_of].
  set (g := fun nx : string * val => match snd nx with VDict o => match assoc "Type" o with Some VNull | None => [] | Some t => if ends_with "::MODULE" (py_str str_of t) then [fst nx] else [] end | _ => [] end).
  assert (Hg : forall m, In m (flat_map g rs) <-> module template m).
  { intros m. rewrite in_flat_map. split.
    - intros [[n x] [Hn Hg]]. destruct (Hp n x Hn) as [o [-> Ht]]. unfold g in Hg. cbn [fst snd] in Hg. destruct (assoc "Type" o) as [ty|] eqn:Et; [|destruct Hg].
      destruct (Ht _ eq_refl) as [u ->]. change (py_str str_of (VStr u)) with u in Hg. destruct (ends_with "::MODULE" u) eqn:Eu; [|destruct Hg]. destruct Hg as [<-|[]].
      exists o, u. split; [apply Hd; now apply In_assoc | auto].
    - intros [o [t [Ho [Et Eu]]]]. exists (m, VDict o). split; [apply assoc_In; now apply Hd|]. unfold g. cbn [fst snd]. rewrite Et. change (py_str str_of (VStr t)) with t. rewrite Eu. now left. }
  exists (flat_map g rs). split.
  - destruct rs as [|x rs]; reflexivity.
  - intros n. rewrite existsb_exists. split.
    + intros [m [Hm Hs]]. apply starts_begins in Hs as [rest ->]. exists m, rest. split; [now apply Hg | reflexivity].
    + intros [m [rest [Hm ->]]]. exists m. split; [now apply Hg|]. apply starts_begins. now exists rest.
Qed.
End Template.

(** Findings that all lie at the argument. *)
Lemma places_all q ms (b : Prop) : Forall (fun m => rm_path m = q) ms -> (ms = [] <-> b) -> (b \/ ~ b) -> places q ms (fun r => r = [] /\ ~ b).
Proof.
  intros Hf Hb Hd. exists (map (fun _ => []) ms). split.
  - rewrite map_map. apply map_ext_in. intros m Hm. rewrite app_nil_r. rewrite Forall_forall in Hf. now apply Hf.
  - intros r. destruct ms as [|m ms].
    + split; [intros [] | intros [_ H]; exfalso; now apply H, Hb].
    + split.
      * intros Hr. apply in_map_iff in Hr as [x [<- _]]. split; [reflexivity|]. intros H. apply Hb in H. discriminate.
      * intros [-> _]. now left.
Qed.
Lemma nil_dec {A} (l : list A) (b : Prop) : (l = [] <-> b) -> b \/ ~ b.
Proof. intros H. destruct l; [left; now apply H | right; intros Hb; apply H in Hb; discriminate]. Qed.
Lemma places_empty q ms (b : Prop) : Forall (fun m => rm_path m = q) ms -> (ms = [] <-> b) -> places q ms (fun r => r = [] /\ ~ b).
Proof. intros Hf Hb. apply places_all; auto. now apply (nil_dec ms). Qed.
Lemma join_dots_inv l s : join_dots l = Ok s -> exists ts, l = map VStr ts /\ s = join_str "." ts.
Proof.
  unfold join_dots. intros H. destruct (map_res (fun v => match v with VStr s => Ok s | _ => Err ETypeErr end) l) as [ts|] eqn:E; [|discriminate].
  cbn [bind] in H. injection H as <-. exists ts. split; [|reflexivity]. revert ts E. induction l as [|v l IH]; intros ts E; [now injection E as <-|].
  cbn [map_res] in E. destruct v as [| | | |s| |]; try discriminate. cbn [bind] in E. destruct (map_res _ l) as [ts'|] eqn:E'; [|discriminate]. cbn [bind] in E. injection E as <-.
  cbn [map]. f_equal. now apply IH.
Qed.

Section GetAtt.
Variable template : val.
Variable types : list (string * option (list (string * attspec))).
Variable str_of : val -> string.
Hypothesis Hw : wf template.
Hypothesis Hpl : plain_sections template.
Hypothesis Hpt : plain_types types.
Variable valid : getatts.
Hypothesis Hv : forall r atts, assoc r valid = Some atts <-> exists t, resource_type template r t /\ getatts_of types t = Some atts.

Definition target_ok (r : val) (attr : option string) : Prop :=
  truthy r = false \/
  exists n, r = VStr n /\
    ((exists t, resource_type template n t /\ has_attributes types t /\ forall a, attr = Some a -> has_attribute types t a) \/
     ((forall t, resource_type template n t -> ~ has_attributes types t) /\ module_output template n)).
Lemma target_spec p v r attr ms : getatt_target_check template str_of valid p v r attr = Ok ms ->
  Forall (fun m => rm_path m = p) ms /\ (ms = [] <-> target_ok r attr).
Proof using Hw Hpl Hpt Hv.
  unfold getatt_target_check, target_ok. intros H. destruct (truthy r) eqn:Et; [|injection H as <-; split; [constructor | split; auto]].
  destruct (modules_spec template str_of Hw Hpl) as [mods [Em Hm]].
  assert (Hno : forall w, r = w -> (forall n, w <> VStr n) -> forall m, ([m] : list rulematch) = [] <-> true = false \/ exists n, r = VStr n /\
     ((exists t, resource_type template n t /\ has_attributes types t /\ forall a, attr = Some a -> has_attribute types t a) \/
     ((forall t, resource_type template n t -> ~ has_attributes types t) /\ module_output template n))).
  { intros w -> Hn m. split; [discriminate|]. intros [H1|[n [H1 _]]]; [discriminate | now apply Hn in H1]. }
  destruct r as [|b|z|q|s|l|d]; try discriminate.
  1-3: rewrite Em in H; cbn [bind in_module] in H; destruct mods as [|m mods]; [|discriminate]; cbn [bind] in H; injection H as <-; split; [repeat constructor | eapply Hno; [reflexivity | discriminate]].
  clear Hno. destruct (assoc s valid) as [atts|] eqn:Ea.
  - injection H as <-. apply Hv in Ea as [t [Ht Ea]]. destruct attr as [a|].
    + destruct (getatt_attribute_spec types Hpt str_of p v (key_text str_of (VStr s)) t atts a Ea) as [H1 H2]. split; [exact H1|]. rewrite H2. split.
      * intros Ha. right. exists s. split; [reflexivity|]. left. exists t. split; [exact Ht|]. split; [apply has_attributes_spec; eauto|]. now intros b [= <-].
      * intros [Hf|[n [[= <-] [[t' [Ht' [_ Ha]]]|[Hn _]]]]]; [discriminate | | ].
        -- rewrite (resource_type_det template s t t' Ht Ht'). now apply Ha.
        -- exfalso. apply (Hn t Ht). apply has_attributes_spec; eauto.
    + split; [constructor|]. split; [|reflexivity]. intros _. right. exists s. split; [reflexivity|]. left. exists t. split; [exact Ht|]. split; [apply has_attributes_spec; eauto | discriminate].
  - rewrite Em in H. cbn [bind] in H. destruct (in_module mods (VStr s)) as [b|] eqn:Eb; [|discriminate]. cbn [bind] in H. injection H as <-.
    assert (Eb' : b = existsb (fun m => starts_with m s) mods) by (destruct mods; injection Eb as <-; reflexivity).
    assert (Hna : forall t, resource_type template s t -> ~ has_attributes types t).
    { intros t Ht Ha. apply has_attributes_spec in Ha as [atts Ha]. assert (assoc s valid = Some atts) by (apply Hv; eauto). congruence. }
    specialize (Hm s). rewrite <- Eb' in Hm. destruct b.
    + split; [constructor|]. split; [|reflexivity]. intros _. right. exists s. split; [reflexivity|]. right. split; [exact Hna | now apply Hm].
    + split; [repeat constructor|]. split; [discriminate|]. intros [Hf|[n [[= <-] [[t [Ht [Ha _]]]|[_ Ho]]]]]; [discriminate | exfalso; exact (Hna t Ht Ha) | apply Hm in Ho; discriminate].
Qed.
Lemma reads_text r a : dotless r -> r ++ a <> "" -> forall r' attr, getatt_reads (VStr (r ++ "." ++ a)) r' attr -> r' = VStr r /\ attr = Some a.
Proof.
  intros Hd _ r' attr H. inversion H as [r0 a0 Hd0 Hn0 E| |]; subst. apply dot_det in E as [-> ->]; auto.
Qed.
Lemma VStr_map l : forall l', map VStr l = map VStr l' -> l = l'.
Proof. induction l as [|x l IH]; intros [|y l'] H; try discriminate; [reflexivity|]. injection H as -> H. f_equal. now apply IH. Qed.
Lemma reads_list r a ts r' attr : getatt_reads (VList (r :: VStr a :: ts)) r' attr -> exists l, VStr a :: ts = map VStr l /\ r' = r /\ attr = Some (join_str "." l).
Proof.
  intros H. remember (VList (r :: VStr a :: ts)) as v eqn:E. destruct H as [|r0 l Hl|r0 x rest]; [discriminate | | discriminate]. injection E as -> E. exists l. auto.
Qed.
Lemma getatt_checks : checks "Fn::GetAtt" (getatt_check template str_of valid) (unless (getatt_ok types template)).
Proof using Hw Hpl Hpt Hv.
  apply checks_places. intros p0 v ms. set (p := (p0 ++ [PKey "Fn::GetAtt"])%list). clearbody p. intros H. unfold getatt_check in H.
  apply (places_iff _ _ (fun r => r = [] /\ ~ getatt_ok types template v)); [|intros r; reflexivity].
  apply places_empty.
  all: destruct v as [|b|z|q|s|l|d]; try discriminate; cbn [bind] in H.
  (* texts *)
  1: destruct (Nat.ltb (String.length s) 2); [injection H as <-; repeat constructor|]; unfold getatt_parts in H; destruct (split_dot s) as [[x y]|]; [|discriminate]; cbn [bind] in H;
     destruct (getatt_target_check template str_of valid p (VStr s) (VStr x) (Some y)) as [ms'|] eqn:Et; [|discriminate]; cbn [bind app] in H; injection H as <-; now apply target_spec in Et as [Et _].
  3: { destruct (Nat.ltb (String.length s) 2) eqn:El.
       - injection H as <-. split; [discriminate|]. intros [r [attr [Hr _]]]. exfalso. apply Nat.ltb_lt in El. inversion Hr as [r0 a0 Hd0 Hn0 E| |]; subst s.
         destruct r0 as [|c [|c' r0]]; cbn in El; try lia. destruct a0; [contradiction | cbn in El; lia].
       - unfold getatt_parts in H. destruct (split_dot s) as [[x y]|] eqn:Es; [|discriminate]. cbn [bind] in H.
         destruct (getatt_target_check template str_of valid p (VStr s) (VStr x) (Some y)) as [ms'|] eqn:Et; [|discriminate]. cbn [bind app] in H. injection H as <-.
         apply target_spec in Et as [_ Et]. rewrite Et. apply split_dot_some in Es as [-> Hd]. apply Nat.ltb_ge in El.
         assert (Hn : x ++ y <> "") by (intros E; destruct x; [cbn in E; subst y; cbn in El; lia | discriminate]).
         split; [intros Ht; exists (VStr x), (Some y); split; [now constructor | exact Ht]|]. intros [r [attr [Hr Ht]]]. apply (reads_text x y Hd Hn) in Hr as [-> ->]. exact Ht. }
  (* objects *)
  2: destruct (Nat.ltb (List.length d) 2); [injection H as <-; repeat constructor|]; unfold getatt_parts in H; discriminate.
  3: destruct (Nat.ltb (List.length d) 2); [injection H as <-; split; [discriminate|]; intros [r [attr [Hr _]]]; inversion Hr|]; unfold getatt_parts in H; discriminate.
  (* lists *)
  - destruct (Nat.ltb (List.length l) 2) eqn:El; [injection H as <-; repeat constructor|]. unfold getatt_parts in H.
    destruct l as [|r [|x l]]; try discriminate. destruct x as [| | | |a|l'|d]; try (injection H as <-; repeat constructor; fail).
    + destruct (join_dots (VStr a :: l)) as [t|] eqn:Ej; [|discriminate]. cbn [bind] in H.
      destruct (getatt_target_check template str_of valid p _ r (Some t)) as [ms'|] eqn:Et in H; [|discriminate]. cbn [bind app] in H. injection H as <-. now apply target_spec in Et as [Et _].
    + cbn [bind] in H. destruct (getatt_target_check template str_of valid p _ r None) as [ms'|] eqn:Et in H; [|discriminate]. cbn [bind] in H. injection H as <-.
      apply target_spec in Et as [Et _]. apply Forall_app. split; [|exact Et]. destruct d as [|[k y] [|? ?]]; [repeat constructor | destruct (String.eqb k "Ref"); repeat constructor | repeat constructor].
  - destruct (Nat.ltb (List.length l) 2) eqn:El.
    { injection H as <-. split; [discriminate|]. intros [r [attr [Hr _]]]. apply Nat.ltb_lt in El. exfalso. inversion Hr as [|r0 l0 Hl0|r0 x0 rest0]; subst; [|cbn in El; lia].
      destruct l0; [contradiction | cbn in El; lia]. }
    unfold getatt_parts in H. destruct l as [|r [|x l]]; try discriminate.
    assert (Hnone : forall m, (forall a, x <> VStr a) -> (forall d, x <> VDict d) -> ms = [m] -> ms = [] <-> getatt_ok types template (VList (r :: x :: l))).
    { intros m H1 H2 ->. split; [discriminate|]. intros [r' [attr [Hr _]]]. exfalso. inversion Hr as [|r0 l0 Hl0 E|r0 x0 rest0 E]; subst; [|now apply (H2 [("Ref", x0)])].
      destruct l0 as [|a l0]; [contradiction|]. cbn [map] in *. congruence. }
    destruct x as [| | | |a|l'|d]; try (injection H as <-; eapply Hnone; try reflexivity; discriminate); clear Hnone.
    + destruct (join_dots (VStr a :: l)) as [t|] eqn:Ej; [|discriminate]. cbn [bind] in H.
      destruct (getatt_target_check template str_of valid p _ r (Some t)) as [ms'|] eqn:Et in H; [|discriminate]. cbn [bind app] in H. injection H as <-.
      apply target_spec in Et as [_ Et]. rewrite Et. apply join_dots_inv in Ej as [ts [El' ->]]. rewrite El'. split.
      * intros Ht. exists r, (Some (join_str "." ts)). split; [|exact Ht]. constructor. intros ->. discriminate.
      * rewrite <- El'. intros [r' [attr [Hr Ht]]]. apply reads_list in Hr as [l0 [E [-> ->]]]. rewrite El' in E. apply VStr_map in E. subst l0. exact Ht.
    + cbn [bind] in H. destruct (getatt_target_check template str_of valid p _ r None) as [ms'|] eqn:Et in H; [|discriminate]. cbn [bind] in H.
      apply target_spec in Et as [_ Et].
      assert (Hbad : forall m, (forall y, d <> [("Ref", y)]) -> (([m] ++ ms')%list : list rulematch) = [] <-> getatt_ok types template (VList (r :: VDict d :: l))).
      { intros m Hd. split; [discriminate|]. intros [r' [attr [Hr _]]]. exfalso. inversion Hr as [|r0 l0 Hl0 E|r0 x0 rest0 E]; subst; [|now apply (Hd x0)]. destruct l0; [contradiction | discriminate]. }
      destruct d as [|[k y] [|? ?]]; try (injection H as <-; apply Hbad; discriminate).
      destruct (String.eqb_spec k "Ref") as [->|Hk].
      * cbn [app] in H. injection H as <-. rewrite Et. split; [intros Ht; exists r, None; split; [constructor | exact Ht]|].
        intros [r' [attr [Hr Ht]]]. inversion Hr as [|r0 l0 Hl0 E E1|r0 x0 rest0 E]; subst; [|exact Ht]. destruct l0; [contradiction | discriminate].
      * injection H as <-. apply Hbad. intros z [= -> _]. contradiction.
Qed.
End GetAtt.
Lemma c52_getatt template globals types str_of ms : wf template -> wf globals -> plain_sections template -> plain_types types ->
  getatt_match template globals str_of types = Ok ms -> judged "Fn::GetAtt" template globals (unless (getatt_ok types template)) ms.
Proof.
  intros Hw Hgw Hpl Hpt H. unfold getatt_match in H. destruct (valid_getatts_spec template types Hw Hpl) as [valid [Ev [_ Hv]]]. rewrite Ev in H. cbn [bind] in H.
  exact (judged_each template globals Hw Hgw _ _ _ _ (getatt_checks template types str_of Hw Hpl Hpt valid Hv) H).
Qed.
