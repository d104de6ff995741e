(** From the command line to the findings (C105). *)
From Coq Require Import List String Ascii Bool Permutation ZArith.
From Verif.Model Require Import Loading.
From Verif.Model Require Import Base Node Locate Helpers Rules Runner Config Core Refs CommandLine Startup Standard.
From Verif.Spec Require Import Pipeline Options CommandLine Startup RuleSets Paths References Faults Shipped Selection.
From Verif.Proofs Require Import BaseFacts OptionProofs PipelineProofs RuleSetProofs RuleSetMain StandardProofs StandardRules StandardMain CommandLineProofs StartupProofs.
Import Verif.Model.Rules.
Import ListNotations.
Local Open Scope string_scope.

(** * One template *)
Lemma one_run str sp tr all cli fl st name t st' l : kept_state all st -> lint_one str sp tr all cli fl st name (DecOk t) = (st', Ok (Findings l)) ->
  truthy (erase t) = false /\ l = [] \/
  exists k targs rg man inc, truthy (erase t) = true /\ set_template_args (erase t) = Ok targs /\ regions (src cli fl targs) = Ok rg /\ descends all (k_all k) /\
    s_experimental (k_set k) = include_experimental (src cli fl targs) /\ ignore_checks (src cli fl targs) = Ok (s_ignore (k_set k)) /\
    include_checks (src cli fl targs) = Ok inc /\ (forall p, In p (s_include (k_set k)) <-> p = "W" \/ p = "E" \/ In p inc) /\
    mandatory_checks (src cli fl targs) = Ok man /\ s_mandatory (k_set k) = man /\
    snd (run_checks sp tr k rg man (mkCfn name (hd "us-east-1" rg) t)) = Findings l.
Proof.
  intros K H. unfold lint_one in H.
  destruct (get_template_rules str all cli fl st (DecOk t)) as [st1 r] eqn:E. destruct (get_kept _ _ _ _ _ _ _ _ K E) as [_ K2].
  assert (Hr : forall es, r <> Ok (Errors es)).
  { intros es ->. clear -E. unfold get_template_rules in E. destruct (ignore_bad cli fl st); [|discriminate]. destruct (set_template_args (erase t)); [|discriminate].
    cbv zeta in E. match type of E with match ?x with _ => _ end = _ => destruct x end; discriminate. }
  destruct r as [[es|t0 k]|e]; [destruct (Hr es eq_refl) | | discriminate].
  destruct (K2 t0 k eq_refl) as [D (targs & ig & inc & man & S1 & S2 & S3 & S4 & S5 & S6)].
  assert (t0 = t). { clear -E. unfold get_template_rules in E. destruct (ignore_bad cli fl st); [|discriminate]. destruct (set_template_args (erase t)); [|discriminate].
    cbv zeta in E. match type of E with match ?x with _ => _ end = _ => destruct x end; [|discriminate]. injection E as _ E _. congruence. } subst t0.
  destruct (truthy (erase t)) eqn:Ht; cbn [negb] in H; [right | left; injection H as _ <-; auto].
  rewrite S2 in H. destruct (regions (src cli fl targs)) as [rg|e] eqn:Rg; [|discriminate]. rewrite S5 in H.
  destruct (run_checks sp tr k rg man (mkCfn name (hd "us-east-1" rg) t)) as [k' o] eqn:R. injection H as _ ->.
  exists k, targs, rg, man, inc. rewrite S6. cbn [s_experimental s_ignore s_include s_mandatory]. rewrite R. cbn [snd].
  split; [reflexivity|]. split; [exact S1|]. split; [exact Rg|]. split; [exact D|].
  split; [reflexivity|]. split; [exact S3|]. split; [exact S4|].
  split; [intros p; rewrite add_default_includes_spec; tauto|]. auto.
Qed.
Lemma errors_part str all cli fl st es st' l : get_template_rules str all cli fl st (DecErr es) = (st', Ok (Errors l)) -> incl l es.
Proof.
  unfold get_template_rules. destruct (ignore_bad cli fl st) as [b|]; [|discriminate]. intros H. injection H as _ <-.
  destruct es as [|e1 [|e2 es']]; try apply incl_refl. destruct (b && _); [intros ? [] | apply incl_refl].
Qed.

(** * Values of options *)
Lemma falsy_value v : truthy v = false -> empty_value v.
Proof. intros H. destruct (truthy_iff v) as [_ K]. destruct v; cbn in H; try (left; reflexivity); unfold empty_value.
  - destruct b; [discriminate | auto].
  - apply negb_false_iff, Z.eqb_eq in H. subst. auto.
  - apply negb_false_iff in H. apply QArith_base.Qeq_bool_iff in H. right; right; right; left. eauto.
  - destruct s; [auto 10 | discriminate].
  - destruct l; [auto 10 | discriminate].
  - destruct d; [auto 10 | discriminate].
Qed.
Lemma strings_text vs : forall xs x, strings_of vs = Ok xs -> In x xs -> In (VStr x) vs.
Proof.
  induction vs as [|v vs IH]; intros xs x H Hi; [injection H as <-; destruct Hi|]. destruct v; try discriminate H. cbn in H.
  destruct (strings_of vs) as [ys|]; [|discriminate H]. injection H as <-. destruct Hi as [<-|Hi]; [now left | right; exact (IH ys x eq_refl Hi)].
Qed.
Lemma list_text v xs x : string_list v = Ok xs -> In x xs -> has_text v x.
Proof. intros H Hi. destruct v; try discriminate H; [injection H as <-; destruct Hi|]. exists l. split; [reflexivity | exact (strings_text l xs x H Hi)]. Qed.
Lemma texts_list l : string_list (texts_of l) = Ok l.
Proof. cbn. induction l as [|x l IH]; [reflexivity|]. cbn. now rewrite IH. Qed.
Lemma not_given v : ~ nonempty v -> empty_value v.
Proof. intros H. destruct (truthy v) eqn:E; [destruct H; apply truthy_iff; exact E | exact (falsy_value v E)]. Qed.
Lemma texts_from s name xs x : string_list (option_value s name) = Ok xs -> In x xs ->
  has_text (value_in (cli s) name) x \/
  empty_value (value_in (cli s) name) /\ In name in_template /\ has_text (value_in (tmpl s) name) x \/
  empty_value (value_in (cli s) name) /\ In name in_file /\ has_text (value_in (file s) name) x.
Proof.
  intros H Hi. pose proof (list_text _ _ _ H Hi) as T. pose proof (proj1 (c08_first s name _) eq_refl) as F.
  inversion F as [v E G|v N1 I1 E G|v N1 N2 I1 E G|v N1 N2 N3 E]; subst v.
  - left. now rewrite E.
  - right; left. split; [exact (not_given _ N1)|]. split; [exact I1|]. now rewrite E.
  - right; right. split; [exact (not_given _ N1)|]. split; [exact I1|]. now rewrite E.
  - left. now rewrite E.
Qed.
Lemma cli_first s name : nonempty (value_in (cli s) name) -> option_value s name = value_in (cli s) name.
Proof. intros H. apply c08_first. now apply from_cli. Qed.
Lemma metadata_texts t a name x : set_template_args t = Ok a -> has_text (value_in a name) x ->
  exists cs v, at_keys ["Metadata"; "cfn-lint"; "config"] t = Some (VDict cs) /\ In (name, v) cs /\ has_text v x.
Proof.
  intros H (vs & E & Hi). unfold value_in in E. destruct (assoc name a) as [v|] eqn:Ea; [|discriminate E]. subst v. apply assoc_In in Ea.
  unfold set_template_args in H. destruct t as [| | | | | |d]; try (injection H as <-; destruct Ea). cbn [at_keys vget_def bind] in *.
  destruct (assoc "Metadata" d) as [[| | | | | |m]|]; try discriminate H; cbn [at_keys vget_def bind] in *;
    [|injection H as <-; destruct Ea].
  destruct (assoc "cfn-lint" m) as [[| | | | | |l]|]; try discriminate H; cbn [at_keys vget_def bind] in *;
    [|injection H as <-; destruct Ea].
  destruct (assoc "config" l) as [[| | | | | |cs]|]; try discriminate H; cbn [at_keys vget_def bind] in *; injection H as <-; try destruct Ea.
  apply filter_In in Ea as [Ea _]. exists cs, (VList vs). split; [reflexivity|]. split; [exact Ea|]. exists vs. auto.
Qed.
Lemma split_joined c ps : ps <> [] -> Forall (free_of c) ps -> split_on c (join_str (String c "") ps) = ps.
Proof.
  intros N F. destruct F as [|x ps Fx F]; [now destruct N|]. clear N. revert x Fx. induction F as [|y ps Fy F IH]; intros x Fx; [exact (split_whole c x Fx)|].
  cbn [join_str]. cbn [join_str] in IH. change (String c "" ++ ?z) with (String c z). rewrite (split_free c x _ Fx). f_equal. exact (IH y Fy).
Qed.
Lemma comma_unique l n a b : comma_said l n a -> comma_said l n b -> a = b.
Proof.
  intros (pa & Fa & ->) (pb & Fb & ->). f_equal. revert pb Fb.
  induction Fa as [|x y l1 l2 (N & E & F) Fa IH]; intros pb Fb; inversion Fb as [|? z ? l3 (N' & E' & F') Fb']; subst; [reflexivity|].
  f_equal; [|now apply IH]. rewrite <- (split_joined "," y N F), <- (split_joined "," z N' F'). exact (f_equal (split_on ",") E').
Qed.

(** * All templates *)
Section Program.
Variables (is_file : spot -> bool) (load : spot -> res val) (update_specs update_documentation update_iam_policies : res unit) (isatty : bool)
  (glob : string -> list string) (str_other : val -> string) (default_dir : string) (directory : string -> option (list entry)) (imported : string -> Loading.module)
  (sp : spec) (tr : translator) (decode : option string -> decoded) (name_of : option string -> string) (prelude : sources -> string -> mval -> res (option Z))
  (emit : val -> val -> list finding -> res unit).
Let program := main is_file load update_specs update_documentation update_iam_policies isatty glob str_other default_dir directory imported sp tr decode name_of prelude emit.
Let begin := get_args_filenames is_file load update_specs update_documentation update_iam_policies isatty glob str_other default_dir directory imported.

Lemma files_each cli fl rs u names : (forall l, u <> Some (Linted l)) -> forall st acc r, kept_state rs st ->
  lint_files str_other sp tr decode name_of prelude cli fl rs u st names acc = Linted r ->
  exists ls, r = (acc ++ List.concat ls)%list /\ Forall2 (fun n l => (exists es, decode n = DecErr es /\ incl l es) \/
    exists t st0 st1, decode n = DecOk t /\ u = None /\ kept_state rs st0 /\ lint_one str_other sp tr rs cli fl st0 (name_of n) (DecOk t) = (st1, Ok (Findings l))) names ls.
Proof.
  intros Hu. induction names as [|n names IH]; intros st acc r Hk H; cbn [lint_files] in H.
  { injection H as <-. exists []. cbn. rewrite app_nil_r. auto. }
  unfold lint_file in H. destruct (get_template_rules str_other rs cli fl st (decode n)) as [st' [[l|t k]|e]] eqn:G; [| |discriminate H].
  - assert (K : kept_state rs st') by (apply (get_kept _ _ _ _ _ _ _ _ Hk G)). destruct (IH _ _ _ K H) as (ls & -> & F). exists (l :: ls). cbn [List.concat]. rewrite app_assoc. split; [reflexivity|].
    constructor; [|exact F]. left. destruct (decode n) as [t|es].
    { exfalso. clear -G. unfold get_template_rules in G. destruct (ignore_bad cli fl st); [|discriminate]. destruct (set_template_args (erase t)); [|discriminate].
      cbv zeta in G. match type of G with match ?x with _ => _ end = _ => destruct x end; discriminate. }
    exists es. split; [reflexivity | exact (errors_part _ _ _ _ _ _ _ _ G)].
  - destruct u as [f|]; [destruct f; [destruct (Hu found eq_refl) | discriminate H | discriminate H]|].
    match type of H with match match ?x with _ => _ end with _ => _ end = _ => destruct x as [[z|]|e]; [discriminate H | | discriminate H] end.
    destruct (lint_one str_other sp tr rs cli fl st (name_of n) (decode n)) as [st'' [[l|z]|e]] eqn:L; [|discriminate H|discriminate H].
    assert (K : kept_state rs st'') by exact (one_kept _ _ _ _ _ _ _ _ _ _ _ Hk L). destruct (IH _ _ _ K H) as (ls & -> & F). exists (l :: ls). cbn [List.concat]. rewrite app_assoc. split; [reflexivity|].
    constructor; [|exact F]. destruct (decode n) as [t0|es] eqn:D.
    + right. exists t0, st, st''. auto.
    + exfalso. clear -G. unfold get_template_rules in G. destruct (ignore_bad cli fl st); discriminate.
Qed.
Lemma config_parsed argv cli fl : make_config is_file load argv = Config cli fl -> exists ex, parse_args argv = Values cli ex.
Proof.
  unfold make_config. destruct (parse_args argv) as [z|e|ns ex]; try discriminate. destruct (load_config _ _ _) as [f|e]; [|destruct e; try discriminate; destruct (String.eqb _ _); discriminate].
  intros H. injection H as <- _. exists ex. reflexivity.
Qed.
Lemma begin_goes argv cli fl names : begin argv = Go cli fl names -> make_config is_file load argv = Config cli fl.
Proof.
  unfold begin, get_args_filenames. destruct (make_config is_file load argv) as [ns f| |]; try discriminate.
  assert (L : forall x, leave_after x <> Go cli fl names) by (intros [?|?]; discriminate).
  destruct (truthy (option_value (mkSources ns [] f) "update_specs")); [intros H; destruct (L _ H)|].
  destruct (truthy (option_value (mkSources ns [] f) "update_documentation")); [intros H; destruct (L _ H)|].
  destruct (truthy (option_value (mkSources ns [] f) "update_iam_policies")); [intros H; destruct (L _ H)|].
  destruct (truthy (option_value (mkSources ns [] f) "listrules")).
  { destruct (append_rules _) as [ap|]; [|discriminate]. destruct (ignore_checks _) as [ig|]; [|discriminate]. destruct (include_checks _) as [inc|]; [|discriminate].
    destruct (mandatory_checks _) as [man|]; [|discriminate]. destruct (rules_to_list _ _ _ _ _ _ _ _ _); discriminate. }
  destruct (templates glob _) as [[[|n l]|]|]; try (destruct isatty); try discriminate; intros H; injection H as <- <- _; reflexivity.
Qed.
Lemma program_runs argv r : program argv = Linted r ->
  exists cli fl ap rs names u ls, make_config is_file load argv = Config cli fl /\ begin argv = Go cli fl names /\ append_rules (mkSources cli [] fl) = Ok ap /\
    (u = None -> concat_res (load_path directory imported) (default_dir :: ap) = Ok rs) /\ (forall x, concat_res (load_path directory imported) (default_dir :: ap) = Ok x -> u = None) /\
    r = List.concat ls /\ Forall2 (fun n l => (exists es, decode n = DecErr es /\ incl l es) \/
      exists t st0 st1, decode n = DecOk t /\ u = (@None finish) /\ kept_state rs st0 /\ lint_one str_other sp tr rs cli fl st0 (name_of n) (DecOk t) = (st1, Ok (Findings l))) names ls.
Proof.
  unfold program, main. fold begin. destruct (begin argv) as [z|e|cli fl names] eqn:B; try discriminate. destruct (append_rules (mkSources cli [] fl)) as [ap|] eqn:A; [|discriminate].
  set (F := match concat_res (load_path directory imported) (default_dir :: ap) with
            | Ok rs => lint_files str_other sp tr decode name_of prelude cli fl rs None initial_state names []
            | Err e => lint_files str_other sp tr decode name_of prelude cli fl [] (Some (if caught e then Left 1 else Failed e)) initial_state names [] end).
  intros H. assert (E : F = Linted r) by (destruct F as [l|z|e]; try discriminate H; destruct (emit _ _ _); [exact H | discriminate H]). clear H.
  assert (K : forall rs, kept_state rs initial_state) by (intros rs k X; discriminate X). unfold F in E. clear F.
  destruct (concat_res (load_path directory imported) (default_dir :: ap)) as [rs|e] eqn:Lo.
  - destruct (files_each cli fl rs None names ltac:(discriminate) initial_state [] r (K rs) E) as (ls & -> & F2). exists cli, fl, ap, rs, names, None, ls.
    split; [exact (begin_goes _ _ _ _ B)|]. split; [reflexivity|]. split; [exact A|]. split; [intros _; exact Lo|]. split; [reflexivity|]. split; [reflexivity | exact F2].
  - destruct (files_each cli fl [] (Some (if caught e then Left 1 else Failed e)) names ltac:(destruct (caught e); discriminate) initial_state [] r (K []) E) as (ls & -> & F2).
    exists cli, fl, ap, [], names, (Some (if caught e then Left 1 else Failed e)), ls.
    split; [exact (begin_goes _ _ _ _ B)|]. split; [reflexivity|]. split; [exact A|]. split; [discriminate|]. split; [intros x X; rewrite Lo in X; discriminate X|]. split; [reflexivity | exact F2].
Qed.

(** * What a reported finding says about the options *)
Hypothesis decode_internal : forall n es fi, decode n = DecErr es -> In fi es -> In (f_rule fi) built_in_ids.
Hypothesis tr_internal : forall c fi, In fi (fst (tr c)) -> In (f_rule fi) built_in_ids.
Lemma program_sound argv r fi : program argv = Linted r -> In fi r -> ~ In (f_rule fi) built_in_ids ->
  exists cli fl ap rs n t targs rule ig inc man, make_config is_file load argv = Config cli fl /\
    append_rules (mkSources cli [] fl) = Ok ap /\ concat_res (load_path directory imported) (default_dir :: ap) = Ok rs /\
    decode n = DecOk t /\ set_template_args (erase t) = Ok targs /\ In rule rs /\ r_id rule = f_rule fi /\
    ignore_checks (src cli fl targs) = Ok ig /\ include_checks (src cli fl targs) = Ok inc /\ mandatory_checks (src cli fl targs) = Ok man /\
    selected (f_rule fi) (r_experimental rule) (include_experimental (src cli fl targs)) ig ("W" :: "E" :: inc) man.
Proof.
  intros H Hfi Nb. destruct (program_runs argv r H) as (cli & fl & ap & rs & names & u & ls & C & B & A & L & _ & -> & F).
  apply in_concat in Hfi as [l [Hl Hfi]].
  assert (X : exists n, (exists es, decode n = DecErr es /\ incl l es) \/
      exists t st0 st1, decode n = DecOk t /\ u = (@None finish) /\ kept_state rs st0 /\ lint_one str_other sp tr rs cli fl st0 (name_of n) (DecOk t) = (st1, Ok (Findings l))).
  { clear -F Hl. induction F as [|n l' names ls Q F IH]; [destruct Hl|]. destruct Hl as [->|Hl]; [exists n; exact Q | exact (IH Hl)]. }
  destruct X as [n [(es & D & I)|(t & st0 & st1 & D & U & K & O)]]; [destruct (Nb (decode_internal n es fi D (I fi Hfi)))|].
  destruct (one_run _ _ _ _ _ _ _ _ _ _ _ K O) as [[_ ->]|(k & targs & rg & man & inc & _ & S1 & S2 & D' & S3 & S4 & S5 & S6 & S7 & S8 & R)]; [destruct Hfi|].
  assert (Y : exists rule0, In rule0 (rules k) /\ r_id rule0 = f_rule fi).
  { destruct (run_checks_cases sp tr k rg man (mkCfn (name_of n) (hd "us-east-1" rg) t)) as [[E G]|[(G & W & T & E)|(G & T & E)]]; rewrite E in R; [discriminate| |];
      injection R as R; subst l.
    - destruct (is_rule_enabled (k_set k) "E0001" false); [destruct (Nb (tr_internal _ fi Hfi)) | destruct Hfi].
    - apply reports_told in Hfi as [[[q [Hq Eq]]|Hfi] _]; [exists q; auto|]. destruct Nb. rewrite Hfi. apply smem_iff. reflexivity. }
  destruct Y as (q & Hq & Eq). apply rules_spec in Hq as [Hq Sel]. destruct (proj2 D' q Hq) as (rule & Hr & (Ei & Ex & _)).
  exists cli, fl, ap, rs, n, t, targs, rule, (s_ignore (k_set k)), inc, man.
  split; [exact C|]. split; [exact A|]. split; [exact (L U)|]. split; [exact D|]. split; [exact S1|]. split; [exact Hr|]. split; [congruence|].
  split; [exact S4|]. split; [exact S5|]. split; [exact S7|].
  rewrite <- S3, <- S8, <- Eq. rewrite <- Ex. destruct Sel as (T1 & (p & P1 & P2) & T3). split; [exact T1|]. split; [|exact T3].
  exists p. split; [|exact P2]. apply S6 in P1. destruct P1 as [->|[->|P1]]; cbn [In]; auto.
Qed.

(** The command line as it was understood. *)
Lemma comma_value argv l names cli ex dest n : command argv l names -> Forall good_use l -> parse_args argv = Values cli ex -> In (dest, n) comma_options -> dest <> "registry_schemas" ->
  exists ps, comma_said l n ps /\ value_in cli dest = texts_of ps.
Proof.
  intros C G P H N. destruct (c101_documented _ _ _ C G) as (ns & P' & _ & _ & _ & K & _). rewrite P in P'. injection P' as <- _.
  destruct (K dest n H) as [(parts & F & E)|(_ & E & _)]; [|contradiction]. exists (List.concat parts). split; [exists parts; auto | exact E].
Qed.
Lemma texts_has ps x : has_text (texts_of ps) x <-> In x ps.
Proof.
  split.
  - intros (vs & E & Hi). injection E as <-. apply in_map_iff in Hi as [y [Ey Hy]]. injection Ey as ->. exact Hy.
  - intros H. exists (map VStr ps). split; [reflexivity | now apply in_map].
Qed.
Lemma texts_empty ps : empty_value (texts_of ps) -> ps = [].
Proof. intros [H|[H|[H|[[q [H _]]|[H|[H|H]]]]]]; try discriminate H. destruct ps; [reflexivity | discriminate H]. Qed.
Lemma texts_given ps x : In x ps -> nonempty (texts_of ps).
Proof. intros H K. apply texts_empty in K. subst. destruct H. Qed.

Lemma c105_ignored argv l names r fi ig p : program argv = Linted r -> command argv l names -> Forall good_use l ->
  comma_said l "--ignore-checks" ig -> In p ig -> p <> "" -> In fi r -> is_prefix p (f_rule fi) -> ~ In (f_rule fi) built_in_ids ->
  exists m, is_prefix m (f_rule fi) /\
    ((exists man, comma_said l "--mandatory-checks" man /\ In m man) \/
     comma_said l "--mandatory-checks" [] /\ exists cli file, make_config is_file load argv = Config cli file /\ has_text (value_in file "mandatory_checks") m).
Proof.
  intros H C G Hig Hp Hne Hfi Hpre Nb. destruct (program_sound argv r fi H Hfi Nb) as (cli & fl & ap & rs & n & t & targs & rule & ig' & inc & man & Cf & _ & _ & _ & _ & _ & _ & S1 & _ & S3 & Sel).
  destruct (config_parsed _ _ _ Cf) as [ex P].
  destruct (comma_value argv l names cli ex "ignore_checks" "--ignore-checks" C G P ltac:(cbn; tauto) ltac:(discriminate)) as (ps & E1 & E2).
  pose proof (comma_unique _ _ _ _ E1 Hig) as ->.
  assert (E : ig' = ig).
  { unfold ignore_checks in S1. rewrite cli_first in S1 by (cbn [Config.cli src]; rewrite E2; exact (texts_given ig p Hp)). cbn [Config.cli src] in S1. rewrite E2, texts_list in S1. now injection S1 as <-. }
  subst ig'. destruct Sel as (_ & _ & [(m & Hm & Hpm)|N]); [|destruct N; exists p; auto].
  exists m. split; [exact Hpm|].
  destruct (comma_value argv l names cli ex "mandatory_checks" "--mandatory-checks" C G P ltac:(cbn; tauto) ltac:(discriminate)) as (ms & M1 & M2).
  destruct (texts_from _ _ _ _ S3 Hm) as [T|[(_ & T & _)|(T1 & _ & T2)]]; cbn [Config.cli Config.file src] in *.
  - left. exists ms. split; [exact M1|]. rewrite M2 in T. now apply texts_has.
  - apply smem_iff in T. discriminate T.
  - right. rewrite M2 in T1. rewrite (texts_empty ms T1) in M1. split; [exact M1|]. exists cli, fl. auto.
Qed.
Lemma c105_included argv l names r fi : program argv = Linted r -> command argv l names -> Forall good_use l ->
  In fi r -> ~ In (f_rule fi) built_in_ids -> ~ is_prefix "W" (f_rule fi) -> ~ is_prefix "E" (f_rule fi) ->
  exists p, is_prefix p (f_rule fi) /\
    ((exists inc, comma_said l "--include-checks" inc /\ In p inc) \/
     comma_said l "--include-checks" [] /\
       ((exists n t cs v, decode n = DecOk t /\ at_keys ["Metadata"; "cfn-lint"; "config"] (erase t) = Some (VDict cs) /\ In ("include_checks", v) cs /\ has_text v p) \/
        exists cli file, make_config is_file load argv = Config cli file /\ has_text (value_in file "include_checks") p)).
Proof.
  intros H C G Hfi Nb NW NE. destruct (program_sound argv r fi H Hfi Nb) as (cli & fl & ap & rs & n & t & targs & rule & ig' & inc & man & Cf & _ & _ & D & St & _ & _ & _ & S2 & _ & Sel).
  destruct (config_parsed _ _ _ Cf) as [ex P]. destruct Sel as (_ & (p & Hp & Hpre) & _).
  destruct Hp as [<-|[<-|Hp]]; [contradiction | contradiction |].
  unfold include_checks in S2. destruct (string_list (option_value (src cli fl targs) "include_checks")) as [is|] eqn:E; [|discriminate S2]. cbn [bind] in S2. injection S2 as <-.
  destruct Hp as [<-|[<-|Hp]]; [contradiction | contradiction |]. exists p. split; [exact Hpre|].
  destruct (comma_value argv l names cli ex "include_checks" "--include-checks" C G P ltac:(cbn; tauto) ltac:(discriminate)) as (ms & M1 & M2).
  destruct (texts_from _ _ _ _ E Hp) as [T|[(T1 & _ & T2)|(T1 & _ & T2)]]; cbn [Config.cli Config.file Config.tmpl src] in *.
  - left. exists ms. split; [exact M1|]. rewrite M2 in T. now apply texts_has.
  - right. rewrite M2 in T1. rewrite (texts_empty ms T1) in M1. split; [exact M1|]. left. destruct (metadata_texts _ _ _ _ St T2) as (cs & v & X1 & X2 & X3). exists n, t, cs, v. auto.
  - right. rewrite M2 in T1. rewrite (texts_empty ms T1) in M1. split; [exact M1|]. right. exists cli, fl. auto.
Qed.
Lemma c105_experimental argv l names r fi cli file ap rs : program argv = Linted r -> command argv l names -> Forall good_use l ->
  make_config is_file load argv = Config cli file -> append_rules (mkSources cli [] file) = Ok ap -> concat_res (load_path directory imported) (default_dir :: ap) = Ok rs ->
  In fi r -> ~ In (f_rule fi) built_in_ids -> (forall q, In q rs -> r_id q = f_rule fi -> r_experimental q = true) ->
  under l "--include-experimental" <> [] \/ nonempty (value_in file "include_experimental").
Proof.
  intros H C G Hc Ha Hr Hfi Nb Hexp. destruct (program_sound argv r fi H Hfi Nb) as (cli' & fl & ap' & rs' & n & t & targs & rule & ig' & inc & man & Cf & A & L & D & St & Hin & Hid & _ & _ & _ & Sel).
  pose proof (eq_trans (eq_sym Hc) Cf) as Q. injection Q as <- <-. rewrite Ha in A. injection A as <-. rewrite Hr in L. injection L as <-.
  destruct (config_parsed _ _ _ Cf) as [ex P]. destruct Sel as (S & _ & _). rewrite (Hexp rule Hin Hid) in S. destruct S as [S|S]; [discriminate S|].
  destruct (c101_documented _ _ _ C G) as (ns & P' & K & _). rewrite P in P'. injection P' as <- _.
  destruct (K "include_experimental" "--include-experimental" ltac:(cbn; tauto)) as [[_ K1]|[K1 _]]; [left; exact K1|]. right.
  unfold include_experimental in S. apply truthy_iff in S. pose proof (proj1 (c08_first _ "include_experimental" _) eq_refl : first_of nonempty (src cli file targs) "include_experimental" _) as F.
  inversion F as [v E N|v N1 I1 E N|v N1 N2 I1 E N|v N1 N2 N3 E]; subst v; cbn [Config.cli Config.tmpl Config.file src] in *.
  - exfalso. apply N. rewrite <- E. change (value_in cli "include_experimental") with (lookup cli "include_experimental"). rewrite K1. right; left. reflexivity.
  - exfalso. rewrite <- E in S. apply S. rewrite (metadata_unused (erase t) targs "include_experimental" St); [left; reflexivity|].
    intros cs v _ _ [[X _]|[[X _]|[[X _]|[X _]]]]; try discriminate X. apply smem_iff in X. discriminate X.
  - rewrite E. exact S.
  - exfalso. apply S. rewrite <- E. change (value_in cli "include_experimental") with (lookup cli "include_experimental"). rewrite K1. right; left. reflexivity.
Qed.

(** * Rules nobody turned off *)
Lemma c105_reported argv l names r n t w ds id ig : program argv = Linted r -> command argv l names -> Forall good_use l ->
  (exists cli file ap rs, make_config is_file load argv = Config cli file /\ append_rules (mkSources cli [] file) = Ok ap /\
     concat_res (load_path directory imported) (default_dir :: ap) = Ok rs /\ with_shipped w rs /\
     (forall i, In i [id; "E0002"] -> unnamed i (value_in file "ignore_checks"))) ->
  (exists ns, begin argv = Go (fst ns) (fst (snd ns)) (snd (snd ns)) /\ In n (snd (snd ns))) ->
  decode n = DecOk t -> truthy (erase t) = true ->
  comma_said l "--ignore-checks" ig -> (forall i p, In i [id; "E0002"] -> In p ig -> p <> "" -> ~ is_prefix p i) ->
  (forall i cs v, In i [id; "E0002"] -> at_keys ["Metadata"; "cfn-lint"; "config"] (erase t) = Some (VDict cs) -> In ("ignore_checks", v) cs -> unnamed i v) ->
  is_prefix "W" id \/ is_prefix "E" id ->
  spec_ok sp -> (forall region, seen_as_is w (mkCfn (name_of n) region t) id) -> (exists m d, t = MDict m d) -> get_directives t = Ok ds ->
  exists k regions mandatory region lt, lints w sp tr k regions mandatory (mkCfn (name_of n) region t) ds id lt /\ incl lt r.
Proof.
  intros H C G (cli0 & fl0 & ap0 & rs0 & Hc & Ha & Hl & Hw & Hf) ([cli1 [fl1 names1]] & Hb & Hn) D Ht Hig Hno Hmeta HWE Hsp Hseen Hdict Hds. cbn [fst snd] in Hb, Hn.
  destruct (program_runs argv r H) as (cli & fl & ap & rs & names' & u & ls & Cf & B & A & L & LU & -> & F).
  pose proof (eq_trans (eq_sym Hc) Cf) as Q. injection Q as -> ->. pose proof (eq_trans (eq_sym Hb) B) as Q. injection Q as -> -> ->. rewrite Ha in A. injection A as ->.
  pose proof (LU rs0 Hl) as U. pose proof (eq_trans (eq_sym Hl) (L U)) as Q. injection Q as ->.
  assert (X : exists lt, In lt ls /\ exists st0 st1, kept_state rs st0 /\ lint_one str_other sp tr rs cli fl st0 (name_of n) (DecOk t) = (st1, Ok (Findings lt))).
  { clear -F Hn D. induction F as [|n' l' names ls Q F IH]; [destruct Hn|]. destruct Hn as [->|Hn].
    - exists l'. split; [now left|]. destruct Q as [(es & E & _)|(t' & st0 & st1 & E & _ & K & O)]; [congruence|]. rewrite D in E. injection E as <-. eauto.
    - destruct (IH Hn) as (lt & H1 & H2). exists lt. split; [now right | exact H2]. }
  destruct X as (lt & Hlt & st0 & st1 & K & O).
  destruct (one_run _ _ _ _ _ _ _ _ _ _ _ K O) as [[E _]|(k & targs & rg & man & inc & _ & S1 & S2 & D' & S3 & S4 & S5 & S6 & S7 & S8 & R)]; [congruence|].
  destruct (config_parsed _ _ _ Cf) as [ex P].
  destruct (comma_value argv l names cli ex "ignore_checks" "--ignore-checks" C G P ltac:(cbn; tauto) ltac:(discriminate)) as (ps & E1 & E2).
  pose proof (comma_unique _ _ _ _ E1 Hig) as ->.
  assert (Sel : forall i, In i [id; "E0002"] -> is_prefix "W" i \/ is_prefix "E" i ->
    selected i false (s_experimental (k_set k)) (s_ignore (k_set k)) (s_include (k_set k)) (s_mandatory (k_set k))).
  { intros i Hi Hwe. split; [now left|]. split.
    - destruct Hwe as [Hwe|Hwe]; [exists "W" | exists "E"]; (split; [apply S6; auto | exact Hwe]).
    - right. intros (p & P1 & P2 & P3). destruct (texts_from _ _ _ _ S4 P1) as [T|[(_ & _ & T)|(_ & _ & T)]]; cbn [Config.cli Config.file Config.tmpl src] in T.
      + rewrite E2 in T. apply (proj1 (texts_has _ _)) in T. exact (Hno i p Hi T P2 P3).
      + destruct (metadata_texts _ _ _ _ S1 T) as (cs & v & X1 & X2 & X3). exact (Hmeta i cs v Hi X1 X2 p X3 P2 P3).
      + exact (Hf i Hi p T P2 P3). }
  exists k, rg, man, (hd "us-east-1" rg), lt. split.
  - split; [exact (descends_with w _ _ D' Hw)|]. split; [exact Hsp|]. split; [apply (Sel "E0002"); [right; now left | right; exists "0002"; reflexivity]|].
    split; [apply (Sel id); [now left | exact HWE]|]. split; [apply Hseen|]. split; [exact Hdict|]. split; [exact Hds | exact R].
  - intros x Hx. apply in_concat. exists lt. auto.
Qed.

(** * An example of use: references to what does not exist *)
Lemma c105_dangling argv l names r n t w ig ms q s : program argv = Linted r -> command argv l names -> Forall good_use l ->
  (exists cli file ap rs, make_config is_file load argv = Config cli file /\ append_rules (mkSources cli [] file) = Ok ap /\
     concat_res (load_path directory imported) (default_dir :: ap) = Ok rs /\ with_shipped w rs /\
     (forall i, In i ["E1012"; "E0002"] -> unnamed i (value_in file "ignore_checks"))) ->
  (exists ns, begin argv = Go (fst ns) (fst (snd ns)) (snd (snd ns)) /\ In n (snd (snd ns))) ->
  decode n = DecOk t -> truthy (erase t) = true ->
  comma_said l "--ignore-checks" ig -> (forall i p, In i ["E1012"; "E0002"] -> In p ig -> p <> "" -> ~ is_prefix p i) ->
  at_keys ["Metadata"] (erase t) = None -> spec_ok sp -> (forall region, seen_as_is w (mkCfn (name_of n) region t) "E1012") -> (exists m d, t = MDict m d) -> get_directives t = Ok [] ->
  wf (erase t) -> plain_sections (erase t) -> at_path [PKey "Ref"] (erase t) = None -> ref_exist_match (erase t) (VDict []) = Ok ms ->
  at_path (q ++ [PKey "Ref"])%list (erase t) = Some (VStr s) -> (forall x rest, References.names (erase t) x \/ References.module (erase t) x -> s <> x ++ rest) ->
  exists fi, In fi r /\ f_rule fi = "E1012" /\ f_msg fi = "Ref " ++ s ++ " not found as a resource or parameter" /\ f_file fi = name_of n.
Proof.
  intros H C G Hc Hb D Ht Hig Hno Hm Hsp Hseen Hdict Hds Hwf Hpl Hr Hms Hq Hs.
  destruct (c105_reported argv l names r n t w [] "E1012" ig H C G Hc Hb D Ht Hig Hno) as (k & rg & man & region & lt & Hl & Hi); [|right; exists "1012"; reflexivity | exact Hsp | exact Hseen | exact Hdict | exact Hds |].
  { intros i cs v _ K. exfalso. clear -Hm K. cbn in Hm, K. destruct (erase t); try discriminate K. destruct (assoc "Metadata" d); [discriminate Hm | discriminate K]. }
  destruct (std_E1012 w sp tr k rg man _ [] lt ms Hl Hwf Hpl Hr Hms) as [T0 T].
  destruct (T q ("Ref " ++ s ++ " not found as a resource or parameter")) as (fi & (F1 & F2 & F3 & _) & [S|(u & Hu & Su)]); [exists s; auto | |].
  - destruct S as [(d & [] & _) _].
  - exists u. split; [exact (Hi u Hu)|]. destruct Su as (_ & _ & S1 & S2). destruct (T0 u Hu ltac:(congruence)) as (_ & q' & w' & _ & _ & _ & F & _). split; [congruence|]. split; [congruence | exact F].
Qed.
End Program.
