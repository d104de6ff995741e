(** Proofs for C102: configuration files and the whole program. *)
From Coq Require Import List Arith Lia Bool ZArith QArith Ascii String.
From Verif.Model Require Import Base Node Locate Helpers Rules Runner Config Core Loading CommandLine Startup.
From Verif.Spec Require Import Options CommandLine Startup.
From Verif.Proofs Require Import BaseFacts OptionProofs LoadingProofs CommandLineProofs.
Import ListNotations.
Import Verif.Model.Rules.
Local Open Scope string_scope.
Local Open Scope nat_scope.

(** * The schema *)
Lemma any_name_iff k : any_name k = true <-> one_line k.
Proof.
  unfold one_line. induction k as [|c k IH]; cbn [any_name].
  - split; [intros _ [|? ?] b; discriminate | reflexivity].
  - destruct (Ascii.eqb_spec c "010") as [->|N].
    + split.
      * intros H a b E. apply String.eqb_eq in H. subst k. destruct a as [|a0 a]; cbn [append] in E; [now injection E as <-|]. injection E as _ E. destruct a; discriminate.
      * intros H. apply String.eqb_eq. apply (H "" k). reflexivity.
    + rewrite IH. split; intros H a b E.
      * destruct a as [|a0 a]; cbn [append] in E; injection E as E1 E2; [contradiction | exact (H a b E2)].
      * apply (H (String c a) b). cbn [append]. now rewrite E.
Qed.
Lemma setting_ok_iff v : setting_ok v = true <-> scalar v.
Proof.
  unfold scalar. destruct v; cbn [setting_ok]; split; intros H; try discriminate; try reflexivity; try (left; eexists; reflexivity); try (right; left; eexists; reflexivity); try (right; right; left; eexists; reflexivity);
    try (destruct H as [[? H]|[[? H]|[[? H]|[? [? [H ?]]]]]]; discriminate).
  - right. right. right. exists q, (Qnum (Qred q)). split; [reflexivity|]. apply Pos.eqb_eq in H. rewrite <- (Qred_correct q) at 1. destruct (Qred q) as [n d]. cbn [Qnum Qden] in *. now subst d.
  - destruct H as [[? H]|[[? H]|[[? H]|[q' [z [H E]]]]]]; try discriminate. injection H as <-. apply Qred_complete in E. rewrite E. unfold inject_Z, Qred. pose proof (Z.ggcd_gcd z 1) as G. pose proof (Z.ggcd_correct_divisors z 1) as D.
    destruct (Z.ggcd z 1) as [g [a b]]. cbn [fst snd] in *. rewrite Z.gcd_1_r in G. subst g. destruct D as [_ D]. assert (b = 1%Z) as -> by lia. reflexivity.
Qed.
Lemma settings_ok_iff v : settings_ok v = true <-> exists rs, v = VDict rs /\ forall r y, In (r, y) rs -> one_line r /\ exists os, y = VDict os /\ forall n z, In (n, z) os -> one_line n -> scalar z.
Proof.
  split.
  - destruct v; try discriminate. cbn [settings_ok]. intros H. eexists. split; [reflexivity|]. intros r y Hin. pose proof (proj1 (forallb_forall _ _) H _ Hin) as K. cbn [fst snd] in K. apply andb_true_iff in K as [K1 K2].
    split; [now apply any_name_iff|]. destruct y; try discriminate. eexists. split; [reflexivity|]. intros n z Hz Hn. pose proof (proj1 (forallb_forall _ _) K2 _ Hz) as K. cbn [fst snd] in K.
    apply any_name_iff in Hn. rewrite Hn in K. now apply setting_ok_iff.
  - intros [rs [-> H]]. cbn [settings_ok]. apply forallb_forall. intros [r y] Hin. destruct (H r y Hin) as [H1 [os [-> H2]]]. cbn [fst snd]. apply any_name_iff in H1. rewrite H1. cbn [andb].
    apply forallb_forall. intros [n z] Hz. cbn [fst snd]. destruct (any_name n) eqn:E; [|reflexivity]. cbn [negb orb]. apply setting_ok_iff. apply (H2 n z Hz). now apply any_name_iff.
Qed.
Lemma texts_ok_iff v : texts_ok v = true <-> exists l, v = texts_of l.
Proof.
  split.
  - destruct v as [| | | | |l|]; try discriminate. cbn [texts_ok]. intros H. unfold texts_of. assert (E : exists l', l = map VStr l').
    { induction l as [|x l IH]; [now exists []|]. cbn [forallb] in H. apply andb_true_iff in H as [H1 H2]. destruct (IH H2) as [l' ->]. destruct x; try discriminate. now exists (s :: l'). }
    destruct E as [l' ->]. now exists l'.
  - intros [l ->]. cbn [texts_ok texts_of]. apply forallb_forall. intros x H. apply in_map_iff in H as [s [<- _]]. reflexivity.
Qed.
Lemma c102_valid v : valid_config v = true <-> sound_config v.
Proof.
  unfold sound_config. split.
  - destruct v; try discriminate. cbn [valid_config]. intros H. eexists. split; [reflexivity|]. intros k x Hin. pose proof (proj1 (forallb_forall _ _) H _ Hin) as K. cbn [fst snd] in K.
    destruct (smem k ["append_rules"; "ignore_checks"; "include_checks"; "mandatory_checks"; "regions"; "templates"; "ignore_templates"; "registry_schemas"]) eqn:E1.
    { apply texts_ok_iff in K as [l ->]. apply texts_permitted. now apply smem_iff. }
    destruct (smem k ["override_spec"; "output_file"]) eqn:E2. { destruct x; try discriminate. apply text_permitted. now apply smem_iff. }
    destruct (String.eqb_spec k "configure_rules") as [->|]; [|discriminate]. apply settings_ok_iff in K as [rs [-> K]]. now apply settings_permitted.
  - intros [d [-> H]]. cbn [valid_config]. apply forallb_forall. intros [k x] Hin. cbn [fst snd]. pose proof (H k x Hin) as P. inversion P as [k' l I | k' s I | rs I]; subst.
    + apply smem_iff in I. rewrite I. apply texts_ok_iff. now exists l.
    + destruct I as [<-|[<-|[]]]; reflexivity.
    + change (settings_ok (VDict rs) = true). apply settings_ok_iff. exists rs. now split.
Qed.

(** * Merging *)
Lemma leaf_dict d : ~ is_leaf (VDict d).
Proof. intros H. exact (H d eq_refl). Qed.
Lemma cut_step k ks d x : assoc k d = Some x -> (cut_off (k :: ks) (VDict d) <-> cut_off ks x).
Proof.
  intros E. split.
  - intros (b & a & w & E1 & E2 & L). destruct b as [|k' b]; cbn [app] in E1; [cbn [at_keys] in E2; injection E2 as <-; now apply leaf_dict in L|].
    injection E1 as <- ->. cbn [at_keys] in E2. rewrite E in E2. exists b, a, w. now repeat split.
  - intros (b & a & w & -> & E2 & L). exists (k :: b), a, w. split; [reflexivity|]. split; [|exact L]. cbn [at_keys]. now rewrite E.
Qed.
Lemma at_leaf ks x v : is_leaf x -> at_keys ks x = Some v -> ks = [] /\ v = x.
Proof. intros L. destruct ks as [|k ks]; cbn [at_keys]; [intros [= <-]; now split|]. destruct x; try discriminate. now apply leaf_dict in L. Qed.
Lemma c102_merged ks : forall u p v, is_leaf v ->
  (at_keys ks (merge_config (VDict u) (VDict p)) = Some v <-> at_keys ks (VDict p) = Some v \/ at_keys ks (VDict p) = None /\ ~ cut_off ks (VDict p) /\ at_keys ks (VDict u) = Some v).
Proof.
  induction ks as [|k ks IH]; intros u p v L.
  - cbn [at_keys]. destruct (merge_step u p "") as [m [-> _]]. split; [intros [= <-]; now apply leaf_dict in L|]. intros [[= <-]|[K _]]; [now apply leaf_dict in L | discriminate].
  - destruct (merge_step u p k) as [m [-> M]]. rewrite M. clear M.
    destruct (assoc k u) as [uv|] eqn:Eu, (assoc k p) as [pv|] eqn:Ep.
    + assert (N : forall x y, ~ (exists a b, x = VDict a /\ y = VDict b) -> (at_keys ks y = Some v <-> at_keys ks y = Some v \/ at_keys ks y = None /\ ~ cut_off ks y /\ at_keys ks x = Some v)).
      { intros x y Hn. split; [now left|]. intros [K|[K1 [K2 K3]]]; [exact K|]. exfalso. assert (X : (exists b, y = VDict b) \/ is_leaf y) by (destruct y; try (right; intros ? ?; discriminate); left; eexists; reflexivity).
        destruct X as [[b ->]|Ly].
        - assert (Lx : is_leaf x) by (intros a ->; apply Hn; now exists a, b). destruct (at_leaf ks x v Lx K3) as [-> _]. discriminate K1.
        - apply K2. exists [], ks, y. now repeat split. }
      rewrite (cut_step k ks p pv Ep). cbn [at_keys]. rewrite Eu, Ep. clear Eu Ep.
      destruct uv; try (apply N; intros (? & ? & X & Y); discriminate). destruct pv; try (apply N; intros (? & ? & X & Y); discriminate). now apply IH.
    + cbn [at_keys]. rewrite Eu, Ep. assert (C : ~ cut_off (k :: ks) (VDict p)).
      { intros (b & a & w & E1 & E2 & Lw). destruct b as [|k' b]; [cbn [at_keys] in E2; injection E2 as <-; now apply leaf_dict in Lw|]. cbn [app] in E1. injection E1 as <- ->. cbn [at_keys] in E2. rewrite Ep in E2. discriminate. }
      destruct uv; (split; [intros K; right; now repeat split | intros [K|[_ [_ K]]]; [discriminate | exact K]]).
    + cbn [at_keys]. rewrite Eu, Ep. split; [intros K; now left | intros [K|[_ [_ K]]]; [exact K | discriminate]].
    + cbn [at_keys]. rewrite Eu, Ep. split; [discriminate | intros [K|[_ [_ K]]]; discriminate].
Qed.

(** * Reading the files *)
Lemma falsy_empty v : truthy v = false -> empty_value v.
Proof.
  intros H. destruct (truthy_iff' v) as [A _]. specialize (A H). unfold nonempty in A. unfold empty_value in *.
  destruct v as [|b|z|q|s|l|d]; cbn [truthy] in H; try tauto.
  - destruct b; [discriminate | tauto].
  - right. right. left. destruct z; try discriminate. reflexivity.
  - right. right. right. left. exists q. split; [reflexivity|]. apply Qeq_bool_iff. apply negb_false_iff. exact H.
  - destruct s; [tauto | discriminate].
  - destruct l; [tauto | discriminate].
  - destruct d; [tauto | discriminate].
Qed.
Lemma truthy_values v : truthy v = true <-> nonempty v.
Proof. apply truthy_iff. Qed.
Section Run.
Variable is_file : spot -> bool.
Variable load : spot -> res val.
Lemma read_content p v : read_config is_file load (Some p) = Ok v <-> content is_file load p v.
Proof.
  unfold read_config, content. destruct (is_file p).
  - destruct (load p) as [w|e]; cbn [bind]; split.
    + intros [= <-]. right. split; [reflexivity|]. exists w. split; [reflexivity|]. destruct (truthy w) eqn:E; [left; split; [now apply truthy_iff | reflexivity] | right; split; [now apply falsy_empty | reflexivity]].
    + intros [[? _]|[_ [w' [[= <-] [[N ->]|[N ->]]]]]]; [discriminate | |].
      * apply truthy_iff in N. now rewrite N.
      * destruct (truthy w) eqn:E; [apply truthy_iff in E; contradiction | reflexivity].
    + discriminate.
    + intros [[? _]|[_ [w' [? _]]]]; discriminate.
  - split; [intros [= <-]; now left | intros [[_ ->]|[? _]]; [reflexivity | discriminate]].
Qed.
Lemma project_reads p v : project_file is_file p -> read_config is_file load (snd (find_config is_file)) = Ok v <-> content is_file load p v.
Proof.
  intros H. rewrite <- read_content. unfold find_config. cbn [snd].
  assert (A : forall q, read_config is_file load (if is_file q then Some q else None) = read_config is_file load (Some q)) by (intros q; unfold read_config; destruct (is_file q) eqn:E; [now rewrite E | reflexivity]).
  destruct H as [E | E1 E2 | E1 E2].
  - pose proof (A (Here ".cfnlintrc.yaml")) as X. destruct (is_file (Here ".cfnlintrc.yaml")) eqn:K; [|discriminate]. rewrite K. reflexivity.
  - rewrite E1, E2. cbn iota. rewrite E2. reflexivity.
  - rewrite E1, E2. cbn iota. rewrite A. reflexivity.
Qed.
Lemma user_reads v : read_config is_file load (fst (find_config is_file)) = Ok v <-> content is_file load (Home ".cfnlintrc") v.
Proof. rewrite <- read_content. unfold find_config. cbn [fst]. unfold read_config. destruct (is_file (Home ".cfnlintrc")) eqn:E; [now rewrite E | reflexivity]. Qed.
Lemma sound_dict v : sound_config v -> v = VDict (dict_of v).
Proof. intros [d [-> _]]. reflexivity. Qed.
Lemma validate_sound v : sound_config v -> validate_config v = Ok tt.
Proof. intros H. apply c102_valid in H. unfold validate_config. now rewrite H. Qed.
Lemma validate_unsound v : ~ sound_config v -> validate_config v = Err (EOther "ValidationError").
Proof. intros H. unfold validate_config. destruct (valid_config v) eqn:E; [apply c102_valid in E; contradiction | reflexivity]. Qed.
Lemma argument_cli ns name : get_argument_value (mkSources ns [] []) name false false = lookup ns name.
Proof. unfold get_argument_value. cbn [cli tmpl file]. destruct (truthy (lookup ns name)); [reflexivity|]. now rewrite !andb_false_r. Qed.
Lemma load_both u p q : content is_file load (Home ".cfnlintrc") u -> project_file is_file q -> content is_file load q p -> forall custom, empty_value custom ->
  (sound_config u -> sound_config p -> load_config is_file load custom = Ok (dict_of (merge_config u p))) /\
  (~ (sound_config u /\ sound_config p) -> load_config is_file load custom = Err (EOther "ValidationError")).
Proof.
  intros Hu Hq Hp custom He. assert (T : truthy custom = false) by (destruct (truthy custom) eqn:E; [apply truthy_iff in E; contradiction | reflexivity]).
  unfold load_config. rewrite T. apply user_reads in Hu. apply (project_reads q p Hq) in Hp. destruct (find_config is_file) as [user project]. cbn [fst snd] in *. rewrite Hu. cbn [bind]. rewrite Hp. cbn [bind]. split.
  - intros Su Sp. rewrite (validate_sound u Su). cbn [bind]. rewrite (validate_sound p Sp). reflexivity.
  - intros N. destruct (valid_config u) eqn:E.
    + apply c102_valid in E. rewrite (validate_sound u E). cbn [bind]. rewrite validate_unsound; [reflexivity|]. intros K. apply N. now split.
    + rewrite validate_unsound; [reflexivity|]. intros K. apply c102_valid in K. congruence.
Qed.
Lemma load_custom s c : s <> "" -> content is_file load (At s) c -> (sound_config c -> load_config is_file load (VStr s) = Ok (dict_of c)) /\ (~ sound_config c -> load_config is_file load (VStr s) = Err (EOther "ValidationError")).
Proof.
  intros Hs Hc. apply read_content in Hc. unfold load_config. assert (T : truthy (VStr s) = true) by (destruct s; [now destruct Hs | reflexivity]). rewrite T, Hc. cbn [bind]. split; intros H.
  - rewrite (validate_sound c H). reflexivity.
  - rewrite (validate_unsound c H). reflexivity.
Qed.
(** What a run takes from its configuration files. *)
Lemma c102_config argv cli ex u p q : parse_args argv = Values cli ex -> empty_value (lookup cli "config_file") ->
  content is_file load (Home ".cfnlintrc") u -> project_file is_file q -> content is_file load q p ->
  (sound_config u -> sound_config p -> exists file, make_config is_file load argv = Config cli file /\ merged_from u p file) /\
  (~ (sound_config u /\ sound_config p) -> make_config is_file load argv = NoConfig 1).
Proof.
  intros E He Hu Hq Hp. destruct (load_both u p q Hu Hq Hp _ He) as [A B]. unfold make_config. rewrite E, argument_cli. split.
  - intros Su Sp. rewrite (A Su Sp). eexists. split; [reflexivity|]. intros ks v L. rewrite (sound_dict u Su), (sound_dict p Sp). rewrite <- c102_merged by exact L.
    destruct (merge_step (dict_of u) (dict_of p) "") as [m [-> _]]. reflexivity.
  - intros N. rewrite (B N). reflexivity.
Qed.
Lemma c102_custom argv cli ex s c : parse_args argv = Values cli ex -> lookup cli "config_file" = VStr s -> s <> "" -> content is_file load (At s) c ->
  (sound_config c -> exists file, make_config is_file load argv = Config cli file /\ c = VDict file) /\ (~ sound_config c -> make_config is_file load argv = NoConfig 1).
Proof.
  intros E El Hs Hc. destruct (load_custom s c Hs Hc) as [A B]. unfold make_config. rewrite E, argument_cli, El. split.
  - intros S. rewrite (A S). eexists. split; [reflexivity | now apply sound_dict].
  - intros N. rewrite (B N). reflexivity.
Qed.
End Run.

(** * The whole program *)
Section Main.
Variable is_file : spot -> bool.
Variable load : spot -> res val.
Variables update_specs update_documentation update_iam_policies : res unit.
Variable isatty : bool.
Variable glob : string -> list string.
Variable str_other : val -> string.
Variable default_dir : string.
Variable directory : string -> option (list entry).
Variable imported : string -> module.
Variable sp : spec.
Variable tr : translator.
Variable decode : option string -> decoded.
Variable name_of : option string -> string.
Variable prelude : sources -> string -> mval -> res (option Z).
Variable emit : val -> val -> list finding -> res unit.
Notation program := (main is_file load update_specs update_documentation update_iam_policies isatty glob str_other default_dir directory imported sp tr decode name_of prelude emit).
Notation begin := (get_args_filenames is_file load update_specs update_documentation update_iam_policies isatty glob str_other default_dir directory imported).
Lemma c102_refused argv z : make_config is_file load argv = NoConfig z -> program argv = Left z.
Proof. intros E. unfold main, get_args_filenames. now rewrite E. Qed.
Lemma option_cli cli file name : In name ["update_specs"; "update_documentation"; "update_iam_policies"; "listrules"; "template_alt"] -> option_value (mkSources cli [] file) name = lookup cli name.
Proof.
  intros H. assert (S : option_sources name = (false, false)) by (repeat (destruct H as [<-|H]; [reflexivity|]); destruct H).
  unfold option_value. rewrite S. unfold get_argument_value. cbn [Config.cli tmpl Config.file]. destruct (truthy (lookup cli name)); [reflexivity|]. now rewrite !andb_false_r.
Qed.
Lemma c102_tasks argv cli file : make_config is_file load argv = Config cli file ->
  (lookup cli "update_specs" = VBool true -> program argv = match update_specs with Ok _ => Left 0 | Err e => Failed e end) /\
  (lookup cli "update_specs" = VBool false -> lookup cli "update_documentation" = VBool true -> program argv = match update_documentation with Ok _ => Left 0 | Err e => Failed e end) /\
  (lookup cli "update_specs" = VBool false -> lookup cli "update_documentation" = VBool false -> lookup cli "update_iam_policies" = VBool true ->
     program argv = match update_iam_policies with Ok _ => Left 0 | Err e => Failed e end).
Proof.
  intros E. unfold main, get_args_filenames. rewrite E. rewrite !option_cli by (cbn; tauto). repeat split.
  - intros ->. cbn [truthy]. unfold leave_after. destruct update_specs; reflexivity.
  - intros -> ->. cbn [truthy]. unfold leave_after. destruct update_documentation; reflexivity.
  - intros -> -> ->. cbn [truthy]. unfold leave_after. destruct update_iam_policies; reflexivity.
Qed.
Definition no_task (cli : args) : Prop := Forall (fun n => lookup cli n = VBool false) ["update_specs"; "update_documentation"; "update_iam_policies"; "listrules"].
Lemma begin_lint argv cli file : make_config is_file load argv = Config cli file -> no_task cli ->
  begin argv = match templates glob (mkSources cli [] file) with
               | Err e => Fail e
               | Ok (Some (n :: l)) => Go cli file (map Some (n :: l))
               | Ok _ => if isatty then Leave 1 else Go cli file [None]
               end.
Proof.
  intros E N. unfold get_args_filenames. rewrite E. rewrite !option_cli by (cbn; tauto). unfold no_task in N. inversion N as [|? ? N1 N']; subst. inversion N' as [|? ? N2 N'']; subst. inversion N'' as [|? ? N3 N''']; subst. inversion N''' as [|? ? N4 _]; subst.
  rewrite N1, N2, N3, N4. reflexivity.
Qed.
Lemma files_lint cli file rs names : (forall s n t, prelude s n t = Ok None) -> forall st acc,
  lint_files str_other sp tr decode name_of prelude cli file rs None st names acc =
  match snd (lint_all str_other sp tr rs cli file st (map (fun n => (name_of n, decode n)) names) acc) with
  | Ok (Findings l) => Linted l | Ok (Exit z) => Left z | Err e => Failed e end.
Proof.
  intros P. induction names as [|n names IH]; intros st acc; [reflexivity|]. cbn [lint_files map lint_all]. unfold lint_file.
  destruct (get_template_rules str_other rs cli file st (decode n)) as [st' [[l|t k]|e]] eqn:G.
  - assert (L : lint_one str_other sp tr rs cli file st (name_of n) (decode n) = (st', Ok (Findings l))) by (unfold lint_one; now rewrite G). rewrite L. apply IH.
  - replace (if truthy (erase t) then prelude (src cli file (st_targs st')) (name_of n) t else Ok None) with (@Ok (option Z) None) by (destruct (truthy (erase t)); [now rewrite P | reflexivity]).
    destruct (lint_one str_other sp tr rs cli file st (name_of n) (decode n)) as [st'' [[l|z]|e]]; [apply IH | reflexivity | reflexivity].
  - assert (L : lint_one str_other sp tr rs cli file st (name_of n) (decode n) = (st', Err e)) by (unfold lint_one; now rewrite G). rewrite L. reflexivity.
Qed.
(** A run of the program is a run over its templates. *)
Lemma c102_lints argv cli file names ap rs : make_config is_file load argv = Config cli file -> no_task cli ->
  templates glob (mkSources cli [] file) = Ok (Some names) -> names <> [] ->
  append_rules (mkSources cli [] file) = Ok ap -> concat_res (load_path directory imported) (default_dir :: ap) = Ok rs ->
  (forall s n t, prelude s n t = Ok None) -> (forall f o l, emit f o l = Ok tt) ->
  program argv = match snd (lint_all str_other sp tr rs cli file initial_state (map (fun n => (name_of (Some n), decode (Some n))) names) []) with
                 | Ok (Findings l) => Linted l | Ok (Exit z) => Left z | Err e => Failed e end.
Proof.
  intros E N T Hn A L P M. unfold main. rewrite (begin_lint argv cli file E N), T. destruct names as [|n names]; [now destruct Hn|]. rewrite A, L, (files_lint cli file rs _ P). rewrite map_map.
  destruct (snd _) as [[l|z]|e]; [now rewrite M | reflexivity | reflexivity].
Qed.
(** The standard input, or help. *)
Lemma c102_input argv cli file ap rs : make_config is_file load argv = Config cli file -> no_task cli ->
  templates glob (mkSources cli [] file) = Ok None \/ templates glob (mkSources cli [] file) = Ok (Some []) ->
  append_rules (mkSources cli [] file) = Ok ap -> concat_res (load_path directory imported) (default_dir :: ap) = Ok rs ->
  (forall s n t, prelude s n t = Ok None) -> (forall f o l, emit f o l = Ok tt) ->
  (isatty = true -> program argv = Left 1) /\
  (isatty = false -> program argv = match snd (lint_all str_other sp tr rs cli file initial_state [(name_of None, decode None)] []) with
                 | Ok (Findings l) => Linted l | Ok (Exit z) => Left z | Err e => Failed e end).
Proof.
  intros E N T A L P M. unfold main. rewrite (begin_lint argv cli file E N). destruct T as [-> | ->]; (split; intros ->; [reflexivity|]); rewrite A, L, (files_lint cli file rs _ P); cbn [map];
    (destruct (snd _) as [[l|z]|e]; [now rewrite M | reflexivity | reflexivity]).
Qed.
(** Rules that cannot be loaded. *)
Lemma c102_unloadable argv cli file names n names' ap e t : make_config is_file load argv = Config cli file -> no_task cli ->
  templates glob (mkSources cli [] file) = Ok (Some names) -> names = n :: names' ->
  append_rules (mkSources cli [] file) = Ok ap -> concat_res (load_path directory imported) (default_dir :: ap) = Err e ->
  (exists st k, get_template_rules str_other [] cli file initial_state (decode (Some n)) = (st, Ok (Ready t k))) ->
  program argv = if caught e then Left 1 else Failed e.
Proof.
  intros E N T -> A L [st [k G]]. unfold main. rewrite (begin_lint argv cli file E N), T, A, L. cbn [map lint_files]. unfold lint_file. rewrite G. destruct (caught e); reflexivity.
Qed.
End Main.
