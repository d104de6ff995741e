(** Proofs for C51 and the regions of C08. *)
From Coq Require Import List Arith Lia Bool Sorting.Sorted Sorting.Permutation.
From Verif.Model Require Import Base Helpers Config.
From Verif.Spec Require Import Files.
From Verif.Proofs Require Import BaseFacts.
Import ListNotations.
Local Open Scope string_scope.

Lemma leb_iff a : forall b, str_leb a b = true <-> text_le a b.
Proof.
  induction a as [|c a IH]; intros [|d b]; cbn [str_leb]; try (split; [intros _; constructor | reflexivity]).
  - split; [discriminate | intros H; inversion H].
  - unfold code. destruct (Nat.ltb_spec (nat_of_ascii c) (nat_of_ascii d)) as [L|L]; [split; [intros _; now constructor | reflexivity]|].
    destruct (Nat.eqb_spec (nat_of_ascii c) (nat_of_ascii d)) as [E|N].
    + assert (c = d) by (rewrite <- (ascii_nat_embedding c), <- (ascii_nat_embedding d); now rewrite E). subst d. rewrite IH. split; [now constructor|]. intros H. inversion H; subst; [lia | assumption].
    + split; [discriminate|]. intros H. inversion H; subst; lia.
Qed.
Lemma insert_perm x l : Permutation (insert_str x l) (x :: l).
Proof. induction l as [|y l IH]; cbn [insert_str]; [reflexivity|]. destruct (str_leb x y); [reflexivity|]. rewrite IH. apply perm_swap. Qed.
Lemma sort_perm l : Permutation (sort_strings l) l.
Proof. unfold sort_strings. induction l as [|x l IH]; cbn [fold_right]; [reflexivity|]. rewrite insert_perm. now constructor. Qed.
Lemma insert_sorted x l : StronglySorted text_le l -> StronglySorted text_le (insert_str x l).
Proof.
  induction l as [|y l IH]; intros H; cbn [insert_str]; [repeat constructor|]. inversion H as [|? ? Hs Hf]; subst. destruct (str_leb x y) eqn:E.
  - constructor; [exact H|]. constructor; [now apply leb_iff|]. rewrite Forall_forall in *. intros z Hz. apply leb_iff. apply str_leb_trans with y; [exact E|]. apply leb_iff. now apply Hf.
  - constructor; [now apply IH|]. rewrite Forall_forall in *. intros z Hz. apply (Permutation_in _ (insert_perm x l)) in Hz as [<-|Hz]; [|now apply Hf]. apply leb_iff. destruct (str_leb_total y x) as [K|K]; [exact K | congruence].
Qed.
Lemma sort_sorted l : StronglySorted text_le (sort_strings l).
Proof. unfold sort_strings. induction l as [|x l IH]; cbn [fold_right]; [constructor | now apply insert_sorted]. Qed.
Lemma strings_map l : strings_of (map VStr l) = Ok l.
Proof. induction l as [|x l IH]; cbn [map strings_of]; [reflexivity|]. now rewrite IH. Qed.
Lemma names_read v l : file_names v l -> filenames_of v = Ok l.
Proof. intros []; [reflexivity|]. cbn [filenames_of string_list]. apply strings_map. Qed.
Lemma names_given v l : file_names v l -> (truthy v = true <-> given v).
Proof.
  unfold given. intros [s|l'].
  - cbn [truthy]. destruct s; cbn; split; try discriminate; try reflexivity; [intros [_ [_ K]]; congruence | intros _; repeat split; discriminate].
  - destruct l' as [|x l']; cbn; split; try discriminate; try reflexivity; [intros [_ [K _]]; congruence | intros _; repeat split; discriminate].
Qed.
Section G.
Variable glob : string -> list string.
Lemma expand_iff n f : In f (expand_or_self glob n) <-> stands_for glob n f.
Proof. unfold expand_or_self, stands_for. destruct (glob n) as [|x l]; cbn [In]; split; intros H; intuition (subst; auto); discriminate. Qed.
Lemma expand_all names f : In f (flat_map (expand_or_self glob) names) <-> some_stand_for glob names f.
Proof. unfold some_stand_for. rewrite in_flat_map. split; intros [n [H1 H2]]; exists n; (split; [exact H1 | now apply expand_iff]). Qed.
Lemma smem_iff s l : smem s l = true <-> In s l.
Proof. unfold smem. rewrite existsb_exists. split; [intros [x [H E]]; apply String.eqb_eq in E; now subst | intros H; exists s; split; [exact H | apply String.eqb_refl]]. Qed.
Lemma not_given v : ~ given v -> truthy v = false.
Proof.
  intros H. destruct v as [| | | |x|l|d]; try reflexivity; try (exfalso; apply H; unfold given; repeat split; discriminate).
  - destruct x; [reflexivity|]. exfalso. apply H. unfold given. repeat split; discriminate.
  - destruct l; [reflexivity|]. exfalso. apply H. unfold given. repeat split; discriminate.
Qed.
Lemma c51_files s names ignored vn :
  (given (option_value s "template_alt") /\ vn = option_value s "template_alt" \/
   ~ given (option_value s "template_alt") /\ vn = option_value s "templates" /\ given vn) -> file_names vn names ->
  (given (option_value s "ignore_templates") /\ file_names (option_value s "ignore_templates") ignored \/ ~ given (option_value s "ignore_templates") /\ ignored = []) ->
  exists l, templates glob s = Ok (Some l) /\ StronglySorted text_le l /\
    forall f, In f l <-> some_stand_for glob names f /\ ~ some_stand_for glob ignored f.
Proof.
  intros Hv Hn Hi. unfold templates. set (alt := option_value s "template_alt") in *.
  assert (E : truthy alt || truthy (option_value s "templates") = true /\ (if truthy alt then alt else option_value s "templates") = vn).
  { destruct Hv as [[Hg ->]|[Ha [-> Hg]]].
    - rewrite (proj2 (names_given _ _ Hn) Hg). now split.
    - rewrite (not_given _ Ha). cbn [orb]. split; [now apply (names_given _ _ Hn) | reflexivity]. }
  destruct E as [-> ->]. rewrite (names_read _ _ Hn). cbn [bind].
  assert (I : exists l, ignored_templates glob s = Ok l /\ forall f, In f l <-> some_stand_for glob ignored f).
  { unfold ignored_templates. destruct Hi as [[Hg Hi]|[Hg ->]].
    - rewrite (proj2 (names_given _ _ Hi) Hg), (names_read _ _ Hi). cbn [bind]. eexists. split; [reflexivity|]. intros f. apply expand_all.
    - rewrite (not_given _ Hg). exists []. split; [reflexivity|]. intros f. split; [intros [] | intros [n [[] _]]]. }
  destruct I as [ign [-> Hign]]. cbn [bind]. eexists. split; [reflexivity|]. split; [apply sort_sorted|]. intros f. split.
  - intros H. apply (Permutation_in _ (sort_perm _)) in H. apply filter_In in H as [H1 H2]. split; [now apply expand_all|]. intros K. apply Hign, smem_iff in K. rewrite K in H2. discriminate.
  - intros [H1 H2]. apply (Permutation_in _ (Permutation_sym (sort_perm _))). apply filter_In. split; [now apply expand_all|]. destruct (smem f ign) eqn:K; [|reflexivity]. exfalso. apply H2, Hign, smem_iff, K.
Qed.
Lemma c51_none s : ~ given (option_value s "template_alt") -> ~ given (option_value s "templates") -> templates glob s = Ok None.
Proof. intros H1 H2. unfold templates. now rewrite (not_given _ H1), (not_given _ H2). Qed.
End G.
Lemma c51_twice : exists glob s f, templates glob s = Ok (Some [f; f]).
Proof. exists (fun n => if String.eqb n "*.yaml" then ["a.yaml"] else [n]), (mkSources [("templates", VList [VStr "a.yaml"; VStr "*.yaml"])] [] []), "a.yaml". reflexivity. Qed.
Lemma c51_example : templates (fun n => if String.eqb n "*.yaml" then ["b.yaml"; "a.yaml"; "c.yaml"] else []) (mkSources [("templates", VList [VStr "*.yaml"; VStr "0.json"])] [] [("ignore_templates", VStr "b.yaml")]) = Ok (Some ["0.json"; "a.yaml"; "c.yaml"]).
Proof. reflexivity. Qed.
Lemma c51_hypotheses : let s := mkSources [("templates", VList [VStr "*.yaml"; VStr "0.json"])] [] [("ignore_templates", VStr "b.yaml")] in
  ~ given (option_value s "template_alt") /\ given (option_value s "templates") /\ file_names (option_value s "templates") ["*.yaml"; "0.json"] /\ given (option_value s "ignore_templates") /\ file_names (option_value s "ignore_templates") ["b.yaml"].
Proof. cbn. unfold given. repeat split; try discriminate; [intros [K _]; congruence | apply (fn_list ["*.yaml"; "0.json"]) | constructor]. Qed.

(** Regions. *)
Lemma c08_regions s : (~ given (option_value s "regions") -> regions s = Ok ["us-east-1"]) /\
  (forall l, option_value s "regions" = VList (map VStr l) -> l <> [] -> (In "ALL_REGIONS" l -> regions s = Ok REGIONS) /\ (~ In "ALL_REGIONS" l -> regions s = Ok l)).
Proof.
  unfold regions. split; [intros H; now rewrite (not_given _ H)|]. intros l E Hl. rewrite E. assert (T : truthy (VList (map VStr l)) = true) by (destruct l; [congruence | reflexivity]). rewrite T. cbn [negb string_list]. rewrite strings_map. cbn [bind].
  split; intros H; destruct (smem "ALL_REGIONS" l) eqn:K; try reflexivity.
  - apply smem_iff in H. congruence.
  - exfalso. apply H. now apply smem_iff.
Qed.
Lemma c08_include_checks s l : option_value s "include_checks" = VList (map VStr l) -> include_checks s = Ok ("W" :: "E" :: l).
Proof. intros E. unfold include_checks. rewrite E. cbn [string_list]. now rewrite strings_map. Qed.
Lemma c08_regions_example : regions (mkSources [] [("regions", VList [VStr "eu-west-1"; VStr "ALL_REGIONS"])] []) = Ok REGIONS /\ regions (mkSources [] [] []) = Ok ["us-east-1"].
Proof. split; reflexivity. Qed.
