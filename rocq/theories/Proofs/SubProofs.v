(** Proofs about Fn::Sub (C53, C54) and references in conditions (C56). *)
From Coq Require Import Lia.
From Verif.Model Require Import Base Helpers Rules Search Refs ConditionRules Relationship Limits Parameters Policies Functions.
From Verif.Spec Require Import Paths References ParameterUse ConditionUse FunctionArguments Attributes.
From Verif.Proofs Require Import BaseFacts SearchProofs ConditionUseProofs RefProofs PlaceholderProofs FunctionProofs CidrProofs AttributeProofs JoinProofs.
Import Verif.Model.Rules.
Local Open Scope string_scope.

(** * Variables in texts *)
Lemma find_sound2 x : forall n s, String.length s <= n -> In x (find_placeholders s 0) ->
  exists a r, s = a ++ "${" ++ x ++ "}" ++ r /\ placeholder_at ("${" ++ x ++ "}" ++ r) = Some x.
Proof.
  induction n as [|n IH]; intros s Hl H; destruct s as [|c s]; try destruct H as []; [cbn in Hl; lia|].
  rewrite find_cons in H. destruct (placeholder_at (String c s)) as [y|] eqn:E.
  - pose proof (placeholder_sound _ _ E) as [r [E' _]]. rewrite E' in E. cbn [append] in E'. injection E' as -> ->. destruct H as [<-|H]; [exists "", r; split; [reflexivity | exact E]|].
    change (String "{" (y ++ String "}" r)) with ("{" ++ y ++ "}" ++ r) in H. rewrite find_rest in H.
    apply IH in H as [a [r' [-> Hp]]].
    + exists ("${" ++ y ++ "}" ++ a), r'. split; [|exact Hp]. cbn [append]. rewrite str_app_assoc. reflexivity.
    + cbn in Hl. rewrite str_app_length in Hl. cbn in Hl. lia.
  - apply IH in H as [a [r [-> Hp]]]; [exists (String c a), r; split; [reflexivity | exact Hp] | cbn in Hl; lia].
Qed.
Lemma white_one a : white (String a "") <-> is_space a = true.
Proof. rewrite is_space_spec. unfold white. cbn [list_ascii_of_string]. split; [intros H; apply H; now left | intros H b [<-|[]]; exact H]. Qed.
Lemma white_cons a w : white (String a w) <-> is_space a = true /\ white w.
Proof.
  rewrite is_space_spec. unfold white. cbn [list_ascii_of_string]. split.
  - intros H. split; [apply H; now left | intros b Hb; apply H; now right].
  - intros [H1 H2] b [<-|Hb]; [exact H1 | now apply H2].
Qed.
Lemma lstrip_head s a m : lstrip s = String a m -> is_space a = false.
Proof. induction s as [|c s IH]; [discriminate|]. cbn [lstrip]. destruct (is_space c) eqn:E; [exact IH|]. now intros [= <- _]. Qed.
Lemma rstrip_last s : forall a m, rstrip s = m ++ String a "" -> is_space a = false.
Proof.
  induction s as [|c s IH]; intros a m H; [destruct m; discriminate|]. cbn [rstrip] in H. destruct (rstrip s) as [|b t] eqn:E.
  - destruct (is_space c) eqn:Ec; [destruct m; discriminate|]. destruct m as [|x m]; [now injection H as <-|]. injection H as _ H. destruct m; discriminate.
  - destruct m as [|x m]; [discriminate|]. injection H as _ H. exact (IH a m H).
Qed.
Lemma strip_bare x : bare (strip x).
Proof.
  intros a m [H|H] Hw; apply white_one in Hw.
  - unfold strip in H. destruct (rstrip_split (lstrip x)) as [w [_ E]]. rewrite H in E. cbn [append] in E. apply lstrip_head in E. congruence.
  - apply rstrip_last in H. congruence.
Qed.
Lemma lstrip_white w s : white w -> lstrip (w ++ s) = lstrip s.
Proof. induction w as [|a w IH]; intros H; [reflexivity|]. apply white_cons in H as [Ha H]. cbn [append lstrip]. rewrite Ha. now apply IH. Qed.
Lemma rstrip_white s w : white w -> rstrip (s ++ w) = rstrip s.
Proof.
  intros H. induction s as [|a s IH]; [|cbn [append rstrip]; now rewrite IH]. cbn [append]. induction w as [|a w IH]; [reflexivity|].
  apply white_cons in H as [Ha H]. cbn [rstrip]. rewrite (IH H). cbn [rstrip]. now rewrite Ha.
Qed.
Lemma rstrip_bare n : (forall a m, n = m ++ String a "" -> is_space a = false) -> rstrip n = n.
Proof.
  induction n as [|a n IH]; intros H; [reflexivity|]. cbn [rstrip]. rewrite IH by (intros b m ->; apply (H b (String a m)); reflexivity).
  destruct n; [|reflexivity]. now rewrite (H a "" eq_refl).
Qed.
Lemma strip_padding w1 n w2 : white w1 -> white w2 -> bare n -> strip (w1 ++ n ++ w2) = n.
Proof.
  intros H1 H2 Hb. unfold strip. rewrite lstrip_white by exact H1.
  assert (Hs : forall a m, n = m ++ String a "" -> is_space a = false).
  { intros a m E. destruct (is_space a) eqn:Ea; [|reflexivity]. exfalso. apply (Hb a m); [now right | now apply white_one]. }
  destruct n as [|a n].
  - cbn [append]. destruct (lstrip_split w2) as [w [_ E]]. assert (Hl : white (lstrip w2)) by (intros b Hi; apply H2; rewrite E, chars_app, in_app_iff; now right).
    pose proof (rstrip_white "" _ Hl) as Hr. exact Hr.
  - assert (Ha : is_space a = false) by (destruct (is_space a) eqn:Ea; [exfalso; apply (Hb a n); [now left | now apply white_one] | reflexivity]).
    cbn [append lstrip]. rewrite Ha. change (String a (n ++ w2)) with (String a n ++ w2). rewrite rstrip_white by exact H2. now apply rstrip_bare.
Qed.
Lemma variables_spec s n : closed s -> In n (get_sub_parameters s) <-> variable_in n s.
Proof.
  intros Hc. unfold get_sub_parameters. rewrite in_map_iff. split.
  - intros [x [<- H]]. apply (find_sound2 x _ s (le_n _)) in H as [a [r [E Hp]]].
    destruct (Hc a (x ++ "}" ++ r) E) as [x' [r' [E' [Hn Hg]]]].
    assert (Hb : ~ begins "!" x) by (intros [m ->]; discriminate).
    assert (Ex : x' = x).
    { assert (Hp' : placeholder_at ("${" ++ x' ++ "}" ++ r') = Some x) by (rewrite <- E'; exact Hp).
      rewrite placeholder_complete in Hp'; [now injection Hp' | now split |]. intros m ->. cbn in Hp'. discriminate. }
    subst x'. destruct (strip_split x) as [w1 [w2 [H1 [H2 Es]]]]. exists a, w1, w2, r. rewrite <- Es. split; [exact E|]. split; [exact H1|]. split; [exact H2|]. split; [apply strip_bare | auto].
  - intros [a [w1 [w2 [r [E [H1 [H2 [Hb [Hn [Hbang Hg]]]]]]]]]]. exists (w1 ++ n ++ w2). split; [now apply strip_padding|].
    apply (find_complete _) with (n := String.length s); [now split | | apply le_n | exact Hc | exists a, r; exact E].
    intros t Et. apply Hbang. exists t. exact Et.
Qed.

(** * Judging what occurs *)
Lemma judged_places template globals f check fault ms : wf template -> wf globals ->
  (forall p v ms, occurs f template globals p v -> check (p ++ [PKey f])%list v = Ok ms -> places (p ++ [PKey f])%list ms (fault p v)) ->
  each template globals f check = Ok ms -> judged f template globals fault ms.
Proof.
  intros Hw Hgw Hc. apply judged_occurring; auto. intros p v ms' Ho E. destruct (Hc p v ms' Ho E) as [rs [E' H']]. exists rs. split; [|exact H']. rewrite E'. apply map_ext. intros r. now rewrite <- app_assoc.
Qed.
Lemma places_concat {A} q (check : A -> res (list rulematch)) (fault : A -> path -> Prop) l ms :
  (forall x ms, In x l -> check x = Ok ms -> places q ms (fault x)) -> concat_res check l = Ok ms -> places q ms (fun r => exists x, In x l /\ fault x r).
Proof.
  intros H E. apply concat_res_inv in E as [g [Hg ->]]. induction l as [|x l IH].
  - apply places_nil. intros r [x [[] _]].
  - cbn [flat_map]. apply (places_iff _ _ (fun r => fault x r \/ exists y, In y l /\ fault y r)).
    + apply places_app; [apply H; [now left | apply Hg; now left]|]. apply IH; [intros y ms' Hy; apply H; now right | intros y Hy; apply Hg; now right].
    + intros r. split.
      * intros [Hr|[y [Hy Hr]]]; [exists x | exists y]; (split; [|exact Hr]); [now left | now right].
      * intros [y [[<-|Hy] Hr]]; [now left | right; eauto].
Qed.

(** * C53 *)
Section Sub.
Variable template : val.
Variable types : list (string * option (list (string * attspec))).
Variable str_of : val -> string.
Hypothesis Hw : wf template.
Hypothesis Hpl : plain_sections template.
Hypothesis Hpt : plain_types types.
Hypothesis Hdp : dotless_parameters template.

Lemma resource_names_spec : exists names, get_resource_names template = Ok names /\ forall n, In n names <-> exists o, defined_in "Resources" template n o.
Proof using Hw Hpl.
  destruct (resources_plain template Hw Hpl) as [rs [Er [_ [Hp Hd]]]]. unfold get_resource_names. rewrite Er. cbn [bind]. exists (keys rs). split; [reflexivity|].
  intros n. rewrite assoc_Some_key. split.
  - intros [x Hx]. destruct (Hp n x) as [o [-> _]]; [now apply assoc_In|]. exists o. now apply Hd.
  - intros [o Ho]. exists (VDict o). now apply Hd.
Qed.
Lemma known_spec (params : list (string * val)) names n : (forall n, In n names <-> exists o, defined_in "Resources" template n o) ->
  existsb (fun s => eq_str s (VStr n)) (PSEUDOPARAMS ++ names ++ keys params)%list = true <->
  In n PSEUDOPARAMS \/ (exists o, defined_in "Resources" template n o) \/ In n (map fst params).
Proof.
  intros Hn. rewrite existsb_exists, <- (Hn n). split.
  - intros [s [Hi E]]. apply eq_str_true in E. injection E as <-. rewrite !in_app_iff in Hi. exact Hi.
  - intros Hi. exists n. split; [now rewrite !in_app_iff | now apply eq_str_true].
Qed.
Lemma first_of y : exists z l, split_on "." y = z :: l /\ dotless z /\ ((y = z /\ l = []) \/ exists k, y = z ++ "." ++ k).
Proof.
  rewrite split_on_dot. destruct (split_dot y) as [[z k]|] eqn:E.
  - apply split_dot_some in E as [-> Hd]. exists z, (split_on "." k). split; [reflexivity|]. split; [exact Hd | right; eauto].
  - apply split_dot_none in E. exists y, []. auto.
Qed.
Lemma join_split_dot y : join_str "." (split_on "." y) = y.
Proof. exact (CidrProofs.join_split "." y). Qed.
(** One attribute, for a text with a dot. *)
Definition att_found (x y : string) (ra : string * (string * attspec)) : Prop :=
  fst ra = x /\ (fst (snd ra) = "*" \/ fst (snd ra) = y \/
    (fst (snd ra) <> y /\ dotless (fst (snd ra)) /\ (exists k, y = fst (snd ra) ++ "." ++ k) /\ att_type (snd (snd ra)) = Some "Map")).
Definition att_list (x y : string) (ra : string * (string * attspec)) : Prop :=
  fst ra = x /\ fst (snd ra) <> "*" /\ fst (snd ra) = y /\ att_type (snd (snd ra)) = Some "List".
Lemma sub_attribute_spec p x y ra l b : dotless x -> sub_attribute p (x ++ "." ++ y) (split_on "." (x ++ "." ++ y)) (fst ra) (snd ra) = Ok (l, b) ->
  Forall (fun m => rm_path m = p) l /\ (l <> [] <-> att_list x y ra) /\ (b = true <-> att_found x y ra).
Proof.
  intros Hx. replace (split_on "." (x ++ "." ++ y)) with (x :: split_on "." y).
  2: { rewrite (split_on_dot (x ++ "." ++ y)). now rewrite (proj2 (split_dot_some (x ++ "." ++ y) x y)). }
  destruct ra as [r [a s]]. unfold att_list, att_found, sub_attribute. cbn [fst snd]. destruct (String.eqb_spec r x) as [->|Hr].
  2: { intros [= <- <-]. split; [constructor|]. split; [split; [congruence | intros [H _]; contradiction] | split; [discriminate | intros [H _]; contradiction]]. }
  destruct (String.eqb_spec a "*") as [->|Ha].
  { intros [= <- <-]. split; [constructor|]. split; [split; [congruence | intros [_ [H _]]; contradiction] | split; [auto | reflexivity]]. }
  rewrite join_split_dot. destruct (String.eqb_spec a y) as [->|Hy].
  - intros [= <- <-]. split; [|split; [|split; [auto | reflexivity]]].
    + destruct (att_type s) as [t|]; [destruct (String.eqb t "List"); repeat constructor | constructor].
    + destruct (att_type s) as [t|]; [|split; [congruence | intros [_ [_ [_ H]]]; discriminate]].
      destruct (String.eqb_spec t "List") as [->|Ht]; [split; [auto | discriminate] | split; [congruence | intros [_ [_ [_ H]]]; congruence]].
  - destruct (first_of y) as [z [k [-> [Hz Hk]]]]. intros H.
    assert (El : l = []) by (now injection H as <- <-).
    assert (Eb : b = String.eqb a z && match att_type s with Some t => String.eqb t "Map" | None => false end) by (now injection H as <- <-).
    clear H. subst l. split; [constructor|]. split; [split; [congruence | intros [_ [_ [H _]]]; contradiction]|]. rewrite Eb, andb_true_iff, String.eqb_eq. split.
    + intros [<- Ht]. split; [reflexivity|]. right; right. split; [exact Hy|]. split; [exact Hz|]. split; [destruct Hk as [[-> _]|Hk]; [contradiction | exact Hk]|].
      destruct (att_type s) as [t|]; [|discriminate]. apply String.eqb_eq in Ht. now subst t.
    + intros [_ [H|[H|[_ [Hd [[k' H] Ht]]]]]]; try contradiction. split; [|now rewrite Ht].
      destruct Hk as [[-> _]|[k'' Hk]]; [exfalso; subst z; exact (dot_dotless _ _ Hz)|]. rewrite H in Hk. now apply dot_det in Hk as [-> _].
Qed.
Lemma sub_attribute_dotless p n r na l b : dotless n -> r <> n -> sub_attribute p n (split_on "." n) r na = Ok (l, b) -> l = [] /\ b = false.
Proof.
  intros Hn Hr. rewrite (split_on_dot n), (proj2 (split_dot_none n) Hn). unfold sub_attribute. destruct (String.eqb_spec r n) as [->|_]; [contradiction|]. now intros [= <- <-].
Qed.

Lemma sub_test_spec params p n ms : sub_test template str_of types params p (VStr n) = Ok ms ->
  Forall (fun m => rm_path m = p) ms /\ (ms = [] <-> sub_variable types template params n).
Proof using Hw Hpl Hpt Hdp.
  unfold sub_test. destruct (valid_getatts_spec template types Hw Hpl) as [valid [Ev [Hnd Hv]]]. rewrite Ev. cbn [bind].
  destruct resource_names_spec as [names [En Hn]]. rewrite En. cbn [bind].
  destruct (parameter_types_ok template Hw Hpl) as [pts Ep]. rewrite Ep. cbn [bind]. destruct (parameters_spec template Hw Hpl pts Ep) as [Hpd Hpl'].
  pose proof (known_spec params names n Hn) as Hk. destruct (existsb (fun s => eq_str s (VStr n)) (PSEUDOPARAMS ++ names ++ keys params)%list).
  { intros [= <-]. split; [constructor|]. split; [|reflexivity]. intros _. destruct (proj1 Hk eq_refl) as [H|[[o H]|H]]; [now apply sv_pseudo | eapply sv_resource; eauto | now apply sv_own]. }
  assert (Hknown : ~ In n PSEUDOPARAMS /\ (forall o, ~ defined_in "Resources" template n o) /\ ~ In n (map fst params)).
  { split; [|split]; [intros H | intros o H | intros H]; assert (false = true) by (apply Hk; eauto); discriminate. }
  clear Hk. destruct Hknown as [Hk1 [Hk2 Hk3]].
  assert (Hpar : (exists t, assoc n pts = Some t /\ is_list_type t = false) <-> exists o, defined_in "Parameters" template n o /\ ~ list_parameter template n).
  { split.
    - intros [t [Et Ht]]. destruct (proj1 (Hpd n)) as [o Ho]; [eauto|]. exists o. split; [exact Ho|]. intros Hl. apply Hpl' in Hl as [t' [Et' Ht']]. congruence.
    - intros [o [Ho Hl]]. destruct (proj2 (Hpd n)) as [t Et]; [eauto|]. exists t. split; [exact Et|]. destruct (is_list_type t) eqn:E; [exfalso; apply Hl, Hpl'; eauto | reflexivity]. }
  set (L := flat_map (fun ra : string * list (string * attspec) => map (fun na => (fst ra, na)) (snd ra)) valid).
  assert (HL : forall r a s, In (r, (a, s)) L <-> exists atts, In (r, atts) valid /\ In (a, s) atts).
  { intros r a s. unfold L. rewrite in_flat_map. split.
    - intros [[r' atts] [Hi Hm]]. cbn [fst snd] in Hm. apply in_map_iff in Hm as [na [[= -> ->] Hm]]. eauto.
    - intros [atts [Hi Hm]]. exists (r, atts). split; [exact Hi|]. cbn [fst snd]. apply in_map_iff. eauto. }
  clearbody L. cbn [bind].
  destruct (map_res (fun x => sub_attribute p n (split_on "." n) (fst x) (snd x)) L) as [rs|] eqn:Er; [|discriminate]. cbn [bind]. intros E.
  apply map_res_inv in Er.
  assert (E' : ms = (match assoc n pts with Some t => if is_list_type t then [mkRM p ("Fn::Sub cannot use list " ++ n ++ " at " ++ path_text p)] else [] | None => [] end ++
    flat_map fst rs ++ (if match assoc n pts with Some _ => true | None => false end || existsb snd rs then [] else [mkRM p ("Parameter " ++ n ++ " for Fn::Sub not found at " ++ path_text p)%string]))%list) by (now injection E as <-).
  clear E. subst ms.
  assert (Hl : forall l b, In (l, b) rs -> exists ra, In ra L /\ sub_attribute p n (split_on "." n) (fst ra) (snd ra) = Ok (l, b)).
  { intros l b Hi. destruct (Forall2_in_r _ _ _ _ Er Hi) as [ra [Hr Hs]]. eauto. }
  assert (Hr : forall ra, In ra L -> exists l b, In (l, b) rs /\ sub_attribute p n (split_on "." n) (fst ra) (snd ra) = Ok (l, b)).
  { intros ra Hi. destruct (Forall2_in_l _ _ _ _ Er Hi) as [[l b] [Hr Hs]]. eauto. }
  clear Er. destruct (dotless_split n) as [Hd|[x [y [-> Hd]]]].
  - assert (Hall : forall l b, In (l, b) rs -> l = [] /\ b = false).
    { intros l b Hi. apply Hl in Hi as [[r [a s]] [Hi Hs]]. cbn [fst snd] in Hs. apply (sub_attribute_dotless p n r (a, s) l b Hd); [|exact Hs].
      intros ->. apply HL in Hi as [atts [Hi _]]. apply In_assoc in Hi; [|exact Hnd]. apply Hv in Hi as [t [[o [Ho _]] _]]. exact (Hk2 o Ho). }
    assert (Ef : flat_map fst rs = []) by (apply flat_map_nil, Forall_forall; intros [l b] Hi; now apply Hall in Hi).
    assert (Ee : existsb snd rs = false).
    { destruct (existsb snd rs) eqn:Ee; [|reflexivity]. apply existsb_exists in Ee as [[l b] [Hi Hb]]. apply Hall in Hi as [_ ->]. discriminate. }
    rewrite Ef, Ee, orb_false_r. cbn [app].
    assert (Hsv : sub_variable types template params n <-> exists o, defined_in "Parameters" template n o /\ ~ list_parameter template n).
    { split; [|intros [o [Ho Hn']]; eapply sv_parameter; eauto]. intros H. destruct H as [n H|n o H|n H|n o H1 H2|r a t H1 H2 H3].
      - contradiction.
      - exfalso. exact (Hk2 o H).
      - contradiction.
      - eauto.
      - exfalso. exact (dot_dotless r a Hd). }
    rewrite Hsv, <- Hpar. destruct (assoc n pts) as [t|].
    + destruct (is_list_type t) eqn:Et; cbn [app].
      * split; [repeat constructor|]. split; [discriminate|]. intros [t' [[= <-] Ht]]. congruence.
      * split; [constructor|]. split; [intros _; eauto | reflexivity].
    + cbn [app]. split; [repeat constructor|]. split; [discriminate|]. intros [t' [Ht _]]. discriminate.
  - assert (Enone : assoc (x ++ "." ++ y) pts = None).
    { destruct (assoc (x ++ "." ++ y) pts) as [t|] eqn:E; [|reflexivity]. destruct (proj1 (Hpd (x ++ "." ++ y))) as [o Ho]; [eauto|]. exfalso. exact (dot_dotless x y (Hdp _ _ Ho)). }
    rewrite Enone. cbn [app orb].
    assert (Hspec : forall l b, In (l, b) rs -> exists ra, In ra L /\ Forall (fun m => rm_path m = p) l /\ (l <> [] <-> att_list x y ra) /\ (b = true <-> att_found x y ra)).
    { intros l b Hi. apply Hl in Hi as [ra [Hi Hs]]. exists ra. split; [exact Hi|]. exact (sub_attribute_spec p x y ra l b Hd Hs). }
    assert (Hnil : flat_map fst rs = [] <-> forall ra, In ra L -> ~ att_list x y ra).
    { rewrite flat_map_nil, Forall_forall. split.
      - intros H ra Hi Ha. destruct (Hr ra Hi) as [l [b [Hb Hs]]]. destruct (sub_attribute_spec p x y ra l b Hd Hs) as [_ [Hs' _]]. apply Hs' in Ha. exact (Ha (H (l, b) Hb)).
      - intros H [l b] Hi. cbn [fst]. destruct (Hspec l b Hi) as [ra [Hra [_ [Hs _]]]]. destruct l as [|m l]; [reflexivity|]. exfalso. apply (H ra Hra), Hs. discriminate. }
    assert (Hfound : existsb snd rs = true <-> exists ra, In ra L /\ att_found x y ra).
    { rewrite existsb_exists. split.
      - intros [[l b] [Hi Hb]]. cbn [snd] in Hb. destruct (Hspec l b Hi) as [ra [Hra [_ [_ Hs]]]]. exists ra. split; [exact Hra | now apply Hs].
      - intros [ra [Hi Ha]]. destruct (Hr ra Hi) as [l [b [Hb Hs]]]. destruct (sub_attribute_spec p x y ra l b Hd Hs) as [_ [_ Hs']]. exists (l, b). split; [exact Hb | now apply Hs']. }
    assert (Hpath : Forall (fun m => rm_path m = p) (flat_map fst rs)).
    { apply Forall_forall. intros m Hm. apply in_flat_map in Hm as [[l b] [Hi Hm]]. destruct (Hspec l b Hi) as [ra [_ [Hf _]]]. rewrite Forall_forall in Hf. now apply Hf. }
    split; [apply Forall_app; split; [exact Hpath | destruct (existsb snd rs); repeat constructor]|].
    assert (Hms : (flat_map fst rs ++ (if existsb snd rs then [] else [mkRM p ("Parameter " ++ (x ++ "." ++ y) ++ " for Fn::Sub not found at " ++ path_text p)%string]))%list = [] <->
      (forall ra, In ra L -> ~ att_list x y ra) /\ exists ra, In ra L /\ att_found x y ra).
    { rewrite <- Hnil, <- Hfound. split.
      - intros E. apply app_eq_nil in E as [E1 E2]. split; [exact E1|]. destruct (existsb snd rs); [reflexivity | discriminate].
      - intros [-> ->]. reflexivity. }
    rewrite Hms. clear Hms Hpath Hfound Hnil Hspec Hr Hl.
    assert (Hsv : sub_variable types template params (x ++ "." ++ y) <-> exists t, resource_type template x t /\ text_attribute types t y).
    { split; [|intros [t [H1 H2]]; eapply sv_attribute; eauto]. intros H. inversion H as [n H' E|n o H' E|n H' E|n o H1 H2 E|r a t H1 H2 H3 E]; subst.
      - contradiction.
      - exfalso. exact (Hk2 o H').
      - contradiction.
      - exfalso. exact (dot_dotless x y (Hdp _ _ H1)).
      - apply dot_det in E as [-> ->]; auto. eauto. }
    rewrite Hsv. split.
    + intros [Hno [[r [a s]] [Hi [Hx Ha]]]]. cbn [fst snd] in Hx, Ha. subst r. pose proof Hi as Hi'. apply HL in Hi' as [atts [Hat Has]]. apply In_assoc in Hat; [|exact Hnd].
      apply Hv in Hat as [t [Ht Hat]]. exists t. split; [exact Ht|]. unfold text_attribute. destruct (kind_of types t) as [H|H1 H2|atts' H1 H2 H3|H1 H2 H3]; [now left | right; now left | | discriminate].
      injection Hat as ->. right; right. destruct (Hpt t atts H3) as [Hna [Hstar _]]. destruct Ha as [->|[->|[_ [Hda [[k ->] Hm]]]]].
      * exfalso. apply Hstar. apply in_map_iff. exists ("*", s). auto.
      * left. exists s. split; [exists atts; split; [exact H3 | now apply In_assoc]|]. intros Hs. apply (Hno (x, (y, s)) Hi). unfold att_list. cbn [fst snd].
        split; [reflexivity|]. split; [|auto]. intros ->. apply Hstar. apply in_map_iff. exists ("*", s). auto.
      * right. exists a, k, s. split; [reflexivity|]. split; [exact Hda|]. split; [exists atts; split; [exact H3 | now apply In_assoc] | exact Hm].
    + intros [t [Ht Ha]].
      assert (Hatts : exists atts, getatts_of types t = Some atts).
      { apply has_attributes_spec. destruct Ha as [Ha|[Ha|[[s [[atts [Ha _]] _]]|[m [k [s [_ [_ [[atts [Ha _]] _]]]]]]]]]; [now left | right; now left | right; right; eauto..]. }
      destruct Hatts as [atts Hat]. assert (Hva : assoc x valid = Some atts) by (apply Hv; eauto).
      assert (HL' : forall r a s, r = x -> In (r, (a, s)) L <-> In (a, s) atts).
      { intros r a s ->. rewrite HL. split; [intros [atts' [Hi Hs]]; apply In_assoc in Hi; [|exact Hnd]; rewrite Hva in Hi; now injection Hi as -> | intros Hs; exists atts; split; [now apply assoc_In | exact Hs]]. }
      destruct (kind_of types t) as [H|H1 H2|atts' H1 H2 H3|H1 H2 H3]; [| | |discriminate].
      1,2: injection Hat as <-; split;
        [intros [r [a s]] Hi [Hx [Hs _]]; cbn [fst snd] in *; apply (HL' r a s Hx) in Hi as [[= <- _]|[]]; contradiction
        |eexists (x, ("*", _)); split; [apply HL'; [reflexivity | left; reflexivity] | split; [reflexivity | now left]]].
      injection Hat as ->. destruct (Hpt t atts H3) as [Hna [Hstar Hdot]]. destruct Ha as [Ha|[Ha|[[s [[atts' [Ha Hs]] Hty]]|[m [k [s [-> [Hdm [[atts' [Ha Hs]] Hm]]]]]]]]]; try contradiction.
      * rewrite H3 in Ha. injection Ha as <-. split.
        -- intros [r [a s']] Hi [Hx [_ [Hy Hl]]]. cbn [fst snd] in *. subst a. apply (HL' r y s' Hx) in Hi. apply In_assoc in Hi; [|exact Hna]. rewrite Hs in Hi. injection Hi as <-. contradiction.
        -- exists (x, (y, s)). split; [apply HL'; [reflexivity | now apply assoc_In] | split; [reflexivity | right; now left]].
      * rewrite H3 in Ha. injection Ha as <-. assert (Hin : In m (map fst atts)) by (apply (proj2 (assoc_Some_key m atts)); eauto). split.
        -- intros [r [a s']] Hi [Hx [_ [Hy Hl]]]. cbn [fst snd] in *. subst a. apply (HL' r _ s' Hx) in Hi. apply (Hdot m k Hdm Hin). apply in_map_iff. exists (m ++ "." ++ k, s'). auto.
        -- exists (x, (m, s)). split; [apply HL'; [reflexivity | now apply assoc_In]|]. split; [reflexivity|]. right; right. cbn [fst snd]. split; [|split; [exact Hdm|split; [eauto | exact Hm]]].
           intros E. apply (dot_dotless m k). rewrite <- E. exact Hdm.
Qed.
Lemma sub_string_places params p s ms : closed s -> sub_string template str_of types params p (VStr s) = Ok ms ->
  places p ms (fun r => r = [] /\ exists n, variable_in n s /\ ~ sub_variable types template params n).
Proof using Hw Hpl Hpt Hdp.
  intros Hc H. cbn [sub_string] in H. apply (places_iff _ _ (fun r => exists n, In n (get_sub_parameters s) /\ r = [] /\ ~ sub_variable types template params n)).
  - apply (places_concat p (fun x => sub_test template str_of types params p (VStr x)) (fun n r => r = [] /\ ~ sub_variable types template params n)); [|exact H].
    intros n ms' _ E. destruct (sub_test_spec params p n ms' E) as [H1 H2]. now apply places_empty.
  - intros r. split.
    + intros [n [Hi [-> Hn]]]. split; [reflexivity|]. exists n. split; [now apply variables_spec | exact Hn].
    + intros [-> [n [Hi Hn]]]. exists n. split; [now apply variables_spec | auto].
Qed.
(** What is wrong with one of the values. *)
Definition value_fault (nx : string * val) (r : path) : Prop :=
  (r = [PKey (fst nx)] /\ ((exists l, snd nx = VList l) \/ exists o, snd nx = VDict o /\ forall k x, sub_call k -> o <> [(k, x)])) \/
  (r = [] /\ ((exists x, snd nx = VDict [("Ref", x)] /\ ~ (exists m, x = VStr m /\ sub_variable types template [] m)) \/
              exists x m, snd nx = VDict [("Fn::GetAtt", x)] /\ getatt_text x m /\ ~ sub_variable types template [] m)).
Lemma sub_test_other p v ms : (forall n, v <> VStr n) -> sub_test template str_of types [] p v = Ok ms -> Forall (fun m => rm_path m = p) ms /\ ms <> [].
Proof using Hw Hpl.
  intros Hn. unfold sub_test. destruct (get_valid_getatts template types) as [valid|]; [|discriminate]. cbn [bind].
  destruct (get_resource_names template) as [names|]; [|discriminate]. cbn [bind]. destruct (parameter_types template) as [pts|]; [|discriminate]. cbn [bind].
  assert (Ek : existsb (fun s => eq_str s v) (PSEUDOPARAMS ++ names ++ @keys val [])%list = false).
  { destruct (existsb _ _) eqn:E; [|reflexivity]. apply existsb_exists in E as [s [_ E]]. apply eq_str_true in E. now apply Hn in E. }
  rewrite Ek. destruct v as [|b|z|q|s|l|d]; try discriminate; [..|now destruct (Hn s)].
  all: cbn [bind]; destruct (map_res _ _) as [rs|] eqn:Er; [|discriminate]; cbn [bind]; intros E.
  all: assert (Ers : rs = []) by (destruct (flat_map _ valid) as [|x L]; [now injection Er as <- | discriminate]); subst rs.
  all: cbn [flat_map existsb app orb] in E; injection E as <-; split; [repeat constructor | discriminate].
Qed.
Lemma VStr_all l : forallb is_str l = true -> exists ts, l = map VStr ts.
Proof.
  induction l as [|v l IH]; intros H; [exists []; reflexivity|]. cbn [forallb] in H. apply andb_prop in H as [H1 H2]. destruct v; try discriminate.
  destruct (IH H2) as [ts ->]. exists (s :: ts). reflexivity.
Qed.
Lemma forallb_forall_str ts : forallb is_str (map VStr ts) = true.
Proof. induction ts; [reflexivity | assumption]. Qed.
Lemma sub_parameter_places p nx ms : sub_parameter template str_of types p nx = Ok ms -> places p ms (value_fault nx).
Proof using Hw Hpl Hpt Hdp.
  destruct nx as [n v]. unfold sub_parameter, value_fault. cbn [fst snd].
  assert (Hhere : forall m, (exists l, v = VList l) \/ (exists o, v = VDict o /\ forall k x, sub_call k -> o <> [(k, x)]) ->
    places p [mkRM (p ++ [PKey n])%list m] (fun r => (r = [PKey n] /\ ((exists l, v = VList l) \/ exists o, v = VDict o /\ forall k x, sub_call k -> o <> [(k, x)])) \/
      (r = [] /\ ((exists x, v = VDict [("Ref", x)] /\ ~ (exists m, x = VStr m /\ sub_variable types template [] m)) \/
              exists x m, v = VDict [("Fn::GetAtt", x)] /\ getatt_text x m /\ ~ sub_variable types template [] m)))).
  { intros m Hv. apply places_one. intros r. split; [|intros ->; left; auto]. intros [[-> _]|[-> H]]; [reflexivity|]. exfalso.
    destruct Hv as [[l ->]|[o [-> Ho]]]; destruct H as [[x [E _]]|[x [m' [E _]]]]; try discriminate; injection E as ->; eapply Ho; try reflexivity; unfold sub_call; cbn; intuition. }
  intros H. destruct v as [|b|z|q|s|l|d].
  1-5: injection H as <-; apply places_nil; intros r [[_ [[l0 E]|[o [E _]]]]|[_ [[x [E _]]|[x [m [E _]]]]]]; discriminate.
  { injection H as <-. apply Hhere. left. eauto. }
  destruct d as [|[k x] [|? ?]]; [injection H as <-; apply Hhere; right; eexists; split; [reflexivity | discriminate] | | injection H as <-; apply Hhere; right; eexists; split; [reflexivity | discriminate]].
  destruct (smem k sub_functions) eqn:Ek.
  2: { injection H as <-. apply Hhere. right. exists [(k, x)]. split; [reflexivity|]. intros k' x' Hk [= <- <-]. apply smem_notin in Ek. contradiction. }
  clear Hhere. apply smem_in in Ek. assert (Hk : sub_call k) by exact Ek. clear Ek.
  assert (Hnot : forall r, ~ (r = [PKey n] /\ ((exists l, VDict [(k, x)] = VList l) \/ exists o, VDict [(k, x)] = VDict o /\ forall k x, sub_call k -> o <> [(k, x)]))).
  { intros r [_ [[l E]|[o [[= <-] Ho]]]]; [discriminate|]. exact (Ho k x Hk eq_refl). }
  apply (places_iff _ _ (fun r => r = [] /\ ((exists y, VDict [(k, x)] = VDict [("Ref", y)] /\ ~ (exists m, y = VStr m /\ sub_variable types template [] m)) \/
              exists y m, VDict [(k, x)] = VDict [("Fn::GetAtt", y)] /\ getatt_text y m /\ ~ sub_variable types template [] m))).
  2: { intros r. split; [now right | intros [Hr|Hr]; [exfalso; exact (Hnot r Hr) | exact Hr]]. }
  clear Hnot. destruct (String.eqb_spec k "Ref") as [->|Hr].
  - apply (places_iff _ _ (fun r => r = [] /\ ~ (exists m, x = VStr m /\ sub_variable types template [] m))).
    2: { intros r. split; [intros [-> Hn]; split; [reflexivity|]; left; eauto | intros [-> [[y [[= <-] Hn]]|[y [m [[= E] _]]]]]; auto]. }
    assert (Hx : (exists m, x = VStr m) \/ forall m, x <> VStr m) by (destruct x; try (right; discriminate); left; eauto). destruct Hx as [[m ->]|Hx].
    + destruct (sub_test_spec [] p m ms H) as [H1 H2]. apply places_empty; [exact H1|]. rewrite H2. split; [eauto | intros [m' [[= <-] Hm]]; exact Hm].
    + destruct (sub_test_other p x ms Hx H) as [H1 H2]. apply places_empty; [exact H1|]. split; [contradiction | intros [m [E _]]; exfalso; exact (Hx m E)].
  - destruct (String.eqb_spec k "Fn::GetAtt") as [->|Hg].
    + assert (Hone : forall m, getatt_text x m -> (forall m', getatt_text x m' -> m' = m) -> sub_test template str_of types [] p (VStr m) = Ok ms ->
        places p ms (fun r => r = [] /\ ((exists y, VDict [("Fn::GetAtt", x)] = VDict [("Ref", y)] /\ ~ (exists m, y = VStr m /\ sub_variable types template [] m)) \/
              exists y m, VDict [("Fn::GetAtt", x)] = VDict [("Fn::GetAtt", y)] /\ getatt_text y m /\ ~ sub_variable types template [] m))).
      { intros m Hm Hu E. destruct (sub_test_spec [] p m ms E) as [H1 H2]. apply (places_iff _ _ (fun r => r = [] /\ ~ sub_variable types template [] m)); [now apply places_empty|].
        intros r. split; [intros [-> Hn]; split; [reflexivity|]; right; eauto | intros [-> [[y [[= E'] _]]|[y [m' [[= <-] [Hm' Hn]]]]]]; split; [reflexivity|]; now rewrite <- (Hu m' Hm')]. }
      assert (Hnone : (forall m, ~ getatt_text x m) -> ms = [] ->
        places p ms (fun r => r = [] /\ ((exists y, VDict [("Fn::GetAtt", x)] = VDict [("Ref", y)] /\ ~ (exists m, y = VStr m /\ sub_variable types template [] m)) \/
              exists y m, VDict [("Fn::GetAtt", x)] = VDict [("Fn::GetAtt", y)] /\ getatt_text y m /\ ~ sub_variable types template [] m))).
      { intros Hm ->. apply places_nil. intros r [_ [[y [[= E'] _]]|[y [m' [[= <-] [Hm' _]]]]]]. exact (Hm m' Hm'). }
      destruct x as [|b|z|q|s|l|d]; try (injection H as <-; apply Hnone; [intros m Hm; inversion Hm | reflexivity]).
      * apply (Hone s); [constructor | intros m' Hm; now inversion Hm | exact H].
      * destruct (forallb is_str l) eqn:El.
        -- apply VStr_all in El as [ts ->]. destruct (join_dots (map VStr ts)) as [t|] eqn:Ej; [|discriminate]. cbn [bind] in H. apply join_dots_inv in Ej as [ts' [Et ->]]. apply VStr_map in Et. subst ts'.
           apply (Hone (join_str "." ts)); [constructor | | exact H]. intros m' Hm. inversion Hm as [|l0 E0]. apply VStr_map in E0. now subst l0.
        -- injection H as <-. apply Hnone; [|reflexivity]. intros m Hm. inversion Hm as [|l0 E0]. subst. rewrite forallb_forall_str in El. discriminate.
    + injection H as <-. apply places_nil. intros r [_ [[y [[= E _] _]]|[y [m [[= E _] _]]]]]; contradiction.
Qed.
Lemma sub_places p v ms : (forall s, sub_text v s -> closed s) -> sub_check template str_of types p v = Ok ms -> forall p0, places p ms (sub_fault types template p0 v).
Proof using Hw Hpl Hpt Hdp.
  intros Hc H p0. unfold sub_check in H.
  assert (Hshape : forall m, ~ text v -> (forall s ps, v <> VList [s; ps]) -> (forall x, v <> VDict [("Fn::Transform", x)]) -> places p [mkRM p m] (sub_fault types template p0 v)).
  { intros m H1 H2 H3. apply places_here. intros r. split; [|intros ->; now constructor].
    intros Hf. destruct Hf; try reflexivity; exfalso; first [apply H1; eexists; reflexivity | eapply H2; reflexivity]. }
  destruct v as [|b|z|q|s|l|d].
  1-4: injection H as <-; apply Hshape; [intros [s0 E]; discriminate | discriminate | discriminate].
  - clear Hshape. apply (places_iff _ _ (fun r => r = [] /\ exists n, variable_in n s /\ ~ sub_variable types template [] n)).
    + apply sub_string_places; [apply Hc; constructor | exact H].
    + intros r. split; [intros [-> [n [H1 H2]]]; eapply su_text; eauto|]. intros Hf. inversion Hf as [v0 H1|s0 n H1 H2| | | | | | |]; subst; [exfalso; apply H1; eexists; reflexivity | eauto].
  - destruct l as [|s [|ps [|? ?]]]; try (injection H as <-; apply Hshape; [intros [s0 E]; discriminate | discriminate | discriminate]). clear Hshape.
    assert (Hps : (exists d, ps = VDict d) \/ forall d, ps <> VDict d) by (destruct ps; try (right; discriminate); left; eauto). destruct Hps as [[d ->]|Hps].
    + assert (Hs : exists t, s = VStr t) by (destruct s; try discriminate; eauto). destruct Hs as [t ->]. cbn [app] in H.
      destruct (sub_string template str_of types d (p ++ [PIdx 0])%list (VStr t)) as [b|] eqn:Eb; [|discriminate]. cbn [bind] in H.
      destruct (concat_res (sub_parameter template str_of types p) d) as [c|] eqn:Ec; [|discriminate]. cbn [bind] in H. injection H as <-.
      apply sub_string_places in Eb; [|apply Hc; constructor].
      assert (Eb' : places p b (fun r => r = [PIdx 0] /\ exists n, variable_in n t /\ ~ sub_variable types template d n)).
      { destruct Eb as [rs [E1 E2]]. exists (map (fun r => PIdx 0 :: r)%list rs). split; [rewrite E1, map_map; apply map_ext; intros r; now rewrite <- app_assoc|].
        intros r. rewrite in_map_iff. split; [intros [r' [<- Hr]]; apply E2 in Hr as [-> Hr]; auto | intros [-> Hr]; exists []; split; [reflexivity|]; now apply E2]. }
      apply (places_concat p _ value_fault) in Ec; [|intros nx ms' _ E; now apply sub_parameter_places].
      apply (places_iff _ _ _ _ (places_app _ _ _ _ _ Eb' Ec)). intros r. split.
      * intros [[-> [n [H1 H2]]]|[[n v] [Hi [[-> [[l E]|[o [E Ho]]]]|[-> [[x [E Hn]]|[x [m [E [Hm Hn]]]]]]]]]]; cbn [fst snd] in *.
        -- eapply su_variable; eauto.
        -- subst v. eapply su_list; eauto.
        -- subst v. eapply su_object; eauto.
        -- subst v. eapply su_ref; eauto.
        -- subst v. eapply su_getatt; eauto.
      * intros Hf. inversion Hf as [v0 H1 H2|s0 n H1 H2|s0 ps0 H1|s0 ps0 H1|s0 d0 n H1 H2|s0 d0 n l H1|s0 d0 n o H1 H2|s0 d0 n x H1 H2|s0 d0 n x m H1 H2 H3]; subst.
        -- exfalso. eapply H2. reflexivity.
        -- exfalso. apply H1. eexists. reflexivity.
        -- exfalso. apply H1. eexists. reflexivity.
        -- left. eauto.
        -- right. exists (n, VList l). split; [exact H1|]. left. cbn [fst snd]. eauto.
        -- right. exists (n, VDict o). split; [exact H1|]. left. cbn [fst snd]. eauto.
        -- right. exists (n, VDict [("Ref", x)]). split; [exact H1|]. right. cbn [fst snd]. eauto.
        -- right. exists (n, VDict [("Fn::GetAtt", x)]). split; [exact H1|]. right. cbn [fst snd]. split; [reflexivity|]. right. eauto.
    + assert (Ems : ms = ((match s with VStr _ => [] | _ => [mkRM (p ++ [PIdx 0])%list (at_text "Subs first element should be of type string for " p)] end) ++
        [mkRM (p ++ [PIdx 1])%list (at_text "Subs second element should be an object for " p)])%list) by (destruct ps as [| | | | | |d]; try (now injection H as <-); now destruct (Hps d)).
      subst ms. clear H. apply (places_iff _ _ (fun r => (r = [PIdx 0] /\ ~ text s) \/ r = [PIdx 1])).
      * apply places_app; [|apply places_one; reflexivity].
        destruct s; try (apply places_one; intros r; split; [intros [Hr _]; exact Hr | intros ->; split; [reflexivity | intros [t E]; discriminate]]).
        apply places_nil. intros r [_ Hn]. apply Hn. eexists. reflexivity.
      * assert (Hno : ~ object ps) by (intros [d E]; exact (Hps d E)). intros r. split.
        -- intros [[-> Ht]| ->]; [now constructor | now constructor].
        -- intros Hf. inversion Hf as [v0 H1 H2|s0 n H1 H2|s0 ps0 H1|s0 ps0 H1|s0 d0 n H1 H2|s0 d0 n l H1|s0 d0 n o H1 H2|s0 d0 n x H1 H2|s0 d0 n x m H1 H2 H3]; subst;
             try (exfalso; apply Hno; eexists; reflexivity); [exfalso; eapply H2; reflexivity | left; auto | now right].
  - assert (Hd : (exists x, d = [("Fn::Transform", x)]) \/ forall x, d <> [("Fn::Transform", x)]).
    { destruct d as [|[k x] [|? ?]]; try (right; discriminate). destruct (String.eqb_spec k "Fn::Transform") as [->|Hk]; [left; eauto | right; intros y [= -> _]; contradiction]. }
    destruct Hd as [[x ->]|Hd].
    + injection H as <-. apply places_nil. intros r Hf. inversion Hf as [v0 H1 H2 H3| | | | | | | |]; subst. eapply H3. reflexivity.
    + assert (Ems : ms = [sub_shape p]).
      { destruct d as [|[k x] [|? ?]]; try (now injection H as <-). destruct (String.eqb_spec k "Fn::Transform") as [->|Hk]; [now destruct (Hd x) | now injection H as <-]. }
      subst ms. apply Hshape; [intros [s0 E]; discriminate | discriminate | intros x [= E]; exact (Hd x E)].
Qed.
End Sub.
Lemma c53_sub template globals types str_of ms : wf template -> wf globals -> plain_sections template -> plain_types types ->
  dotless_parameters template -> closed_subs template globals ->
  sub_match template globals str_of types = Ok ms -> judged "Fn::Sub" template globals (sub_fault types template) ms.
Proof.
  intros Hw Hgw Hpl Hpt Hdp Hcs H. apply (judged_places _ _ _ _ _ _ Hw Hgw) with (2 := H). intros p v ms' Ho E.
  apply (sub_places template types str_of Hw Hpl Hpt Hdp); [intros s Hs; exact (Hcs p v s Ho Hs) | exact E].
Qed.

(** * C54 *)
Lemma c54_used template globals : wf template -> wf globals -> closed_subs template globals ->
  exists ms, sub_used_match template globals = Ok ms /\ judged "Fn::Sub" template globals sub_unused ms.
Proof.
  intros Hw Hgw Hcs. destruct (each_total template globals Hw Hgw "Fn::Sub" sub_used_check) as [ms E]; [intros p v _; eexists; reflexivity|].
  exists ms. split; [exact E|]. apply (judged_places _ _ _ _ _ _ Hw Hgw) with (2 := E). clear ms E. intros p v ms Ho E. set (q := (p ++ [PKey "Fn::Sub"])%list) in *. clearbody q.
  unfold sub_used_check in E.
  assert (Hnone : (forall s d, v <> VList [VStr s; VDict d]) -> ms = [] -> places q ms (sub_unused p v)).
  { intros Hv ->. apply places_nil. intros r Hr. destruct Hr. eapply Hv. reflexivity. }
  destruct v as [|b|z|q0|s|l|d]; try (injection E as <-; apply Hnone; [discriminate | reflexivity]).
  destruct l as [|x [|y l]]; try (injection E as <-; apply Hnone; [discriminate | reflexivity]); destruct x as [| | | |s| |]; try (injection E as <-; apply Hnone; [discriminate | reflexivity]);
  destruct y as [| | | | | |d]; try (injection E as <-; apply Hnone; [discriminate | reflexivity]); destruct l; try (injection E as <-; apply Hnone; [discriminate | reflexivity]).
  assert (Hcl : closed s) by (apply (Hcs p _ s Ho); constructor).
  match type of E with Ok ?x = Ok ?y => assert (Ex : y = x) by congruence; subst y; clear E end.
  apply (places_iff _ _ (fun r => exists nx, In nx d /\ r = [PIdx 1] /\ ~ variable_in (fst nx) s)).
  - apply (places_concat q (fun nx => Ok (if smem (fst nx) (get_sub_parameters s) then []
       else [mkRM (q ++ [PIdx 1])%list ("Parameter " ++ fst nx ++ " not used in Fn::Sub at " ++ path_text (q ++ [PIdx 1; PKey (fst nx)])%list)%string])) (fun nx r => r = [PIdx 1] /\ ~ variable_in (fst nx) s)).
    + intros nx ms' Hi E. destruct (smem (fst nx) (get_sub_parameters s)) eqn:Es.
      * injection E as <-. apply places_nil. intros r [_ Hn]. apply Hn. apply smem_in in Es. now apply variables_spec.
      * injection E as <-. apply places_one. intros r. split; [now intros [-> _]|]. intros ->. split; [reflexivity|]. intros Hv. apply (variables_spec s _ Hcl) in Hv. apply smem_notin in Es. contradiction.
    + apply (concat_res_Ok _ (fun nx => if smem (fst nx) (get_sub_parameters s) then []
       else [mkRM (q ++ [PIdx 1])%list ("Parameter " ++ fst nx ++ " not used in Fn::Sub at " ++ path_text (q ++ [PIdx 1; PKey (fst nx)])%list)%string])). reflexivity.
  - intros r. split.
    + intros [[n x] [Hi [-> Hn]]]. apply (ss_unused p s d n); [apply in_map_iff; exists (n, x); auto | exact Hn].
    + intros Hr. inversion Hr as [s0 d0 n Hi Hn]; subst. apply in_map_iff in Hi as [[n' x] [<- Hi]]. exists (n', x). auto.
Qed.
Lemma unneeded_places q s ms : closed s -> sub_unneeded_string q (VStr s) = Ok ms -> places q ms (fun r => r = [] /\ forall n, ~ variable_in n s).
Proof.
  intros Hc E. cbn [sub_unneeded_string] in E. destruct (get_sub_parameters s) as [|n l] eqn:Es; injection E as <-.
  - apply places_here. intros r. split; [now intros [-> _]|]. intros ->. split; [reflexivity|]. intros n Hn. apply (variables_spec s n Hc) in Hn. rewrite Es in Hn. exact Hn.
  - apply places_nil. intros r [_ Hn]. apply (Hn n). apply variables_spec; [exact Hc|]. rewrite Es. now left.
Qed.
Lemma c54_unneeded pre ms : wf pre -> closed_subs pre (VDict []) -> sub_unneeded_match pre = Ok ms -> judged "Fn::Sub" pre (VDict []) sub_unneeded ms.
Proof.
  intros Hw Hcs E. apply (judged_places pre (VDict []) _ _ _ _ Hw wf_empty) with (2 := E). clear ms E. intros p v ms Ho E. set (q := (p ++ [PKey "Fn::Sub"])%list) in *. clearbody q.
  unfold sub_unneeded_check in E.
  assert (Hnone : (forall s, v <> VStr s) -> (forall s x, v <> VList [VStr s; x]) -> ms = [] -> places q ms (sub_unneeded p v)).
  { intros H1 H2 ->. apply places_nil. intros r Hr. destruct Hr; [eapply H1; reflexivity | eapply H2; reflexivity]. }
  destruct v as [|b|z|q0|s|l|d]; try (injection E as <-; apply Hnone; [discriminate.. | reflexivity]).
  - clear Hnone. apply unneeded_places in E; [|apply (Hcs p _ s Ho); constructor]. apply (places_iff _ _ _ _ E). intros r. split; [intros [-> Hn]; now constructor | intros Hr; inversion Hr; subst; auto].
  - destruct l as [|x [|y [|? ?]]]; try (injection E as <-; apply Hnone; [discriminate.. | reflexivity]). clear Hnone. destruct x as [| | | |s| |]; try discriminate.
    apply unneeded_places in E; [|apply (Hcs p _ s Ho); constructor]. destruct E as [rs [E1 E2]]. exists (map (fun r => PIdx 0 :: r)%list rs). split; [rewrite E1, map_map; apply map_ext; intros r; now rewrite <- app_assoc|].
    intros r. rewrite in_map_iff. split; [intros [r' [<- Hr]]; apply E2 in Hr as [-> Hr]; now constructor|]. intros Hr. inversion Hr as [|s0 x0 Hn]; subst. exists []. split; [reflexivity|]. apply E2. auto.
Qed.
(** * C56 *)
Lemma c56_conditions template globals : wf template -> wf globals -> plain_sections template ->
  exists ms, ref_condition_match template globals = Ok ms /\ judged "Ref" template globals (resource_in_conditions template) ms.
Proof.
  intros Hw Hgw Hpl. unfold ref_condition_match. destruct (resource_names_spec template Hw Hpl) as [names [En Hn]]. rewrite En. cbn [bind].
  destruct (each_total template globals Hw Hgw "Ref" (ref_condition_check names)) as [ms E]; [intros p v _; eexists; reflexivity|].
  exists ms. split; [exact E|]. apply (judged_each template globals Hw Hgw) with (2 := E). clear ms E. apply checks_places. intros p v ms E. unfold ref_condition_check in E. unfold resource_in_conditions.
  assert (Hnone : ((exists rest, p = PKey "Conditions" :: rest) -> forall s, v = VStr s -> ~ In s names) -> ms = [] ->
     places (p ++ [PKey "Ref"])%list ms (fun r => r = [] /\ exists n o rest, v = VStr n /\ defined_in "Resources" template n o /\ p = PKey "Conditions" :: rest)).
  { intros H ->. apply places_nil. intros r [_ [n [o [rest [-> [Ho ->]]]]]]. apply (H (ex_intro _ rest eq_refl) n eq_refl). apply Hn. eauto. }
  destruct p as [|[k|i] p]; cbn [app] in *.
  - apply Hnone; [intros [rest Hr]; discriminate|]. destruct v; injection E as <-; reflexivity.
  - destruct v as [| | | |s| |]; try (injection E as <-; apply Hnone; [discriminate | reflexivity]).
    destruct (String.eqb_spec k "Conditions") as [->|Hk]; cbn [andb] in E.
    + destruct (smem s names) eqn:Es; injection E as <-.
      * clear Hnone. apply places_here. intros r. split; [now intros [-> _]|]. intros ->. split; [reflexivity|]. apply smem_in, Hn in Es as [o Ho]. exists s, o, p. auto.
      * apply Hnone; [|reflexivity]. intros _ s0 [= <-]. now apply smem_notin.
    + injection E as <-. apply Hnone; [|reflexivity]. intros [rest [= -> _]]. contradiction.
  - apply Hnone; [intros [rest Hr]; discriminate|]. destruct v; injection E as <-; reflexivity.
Qed.
