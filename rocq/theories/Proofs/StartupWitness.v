(** Configuration files and runs for C102. *)
From Coq Require Import List Arith Lia Bool ZArith QArith Ascii String.
From Verif.Model Require Import Base Node Locate Helpers Rules Runner Config Core Loading CommandLine Startup.
From Verif.Spec Require Import Options CommandLine Startup.
From Verif.Proofs Require Import BaseFacts OptionProofs LoadingProofs CommandLineProofs CommandLineWitness StartupProofs.
Import ListNotations.
Import Verif.Model.Rules.
Local Open Scope string_scope.
Local Open Scope nat_scope.

(** * A project with two files and a user with one *)
Definition some_files (p : spot) : bool :=
  match p with
  | Home n => String.eqb n ".cfnlintrc"
  | Here n => String.eqb n ".cfnlintrc" || String.eqb n ".cfnlintrc.yml"
  | At _ => false
  end.
Definition user_settings : val := VDict [("regions", texts_of ["eu-west-1"]); ("configure_rules", VDict [("E3012", VDict [("strict", VBool false)])])].
Definition project_settings : val := VDict [("regions", texts_of ["us-east-1"; "us-west-2"]); ("configure_rules", VDict [("E9000", VDict [("limit", VInt 3)])]); ("output_file", VStr "out.txt")].
Definition their_contents (p : spot) : res val :=
  match p with
  | Home _ => Ok user_settings
  | Here n => if String.eqb n ".cfnlintrc.yml" then Ok project_settings else Ok (VDict [("format", VStr "json")])
  | At _ => Err (EOther "IOError")
  end.
Lemma files_case : content some_files their_contents (Home ".cfnlintrc") user_settings /\ project_file some_files (Here ".cfnlintrc.yml") /\ content some_files their_contents (Here ".cfnlintrc.yml") project_settings /\
  sound_config user_settings /\ sound_config project_settings.
Proof.
  split; [apply read_content; reflexivity|]. split; [apply project_yml; reflexivity|]. split; [apply read_content; reflexivity|]. split; apply c102_valid; reflexivity.
Qed.
Lemma config_case : exists cli file, make_config some_files their_contents ["a.yaml"; "-e"] = Config cli file /\ lookup cli "include_experimental" = VBool true /\
  at_keys ["regions"] (VDict file) = Some (texts_of ["us-east-1"; "us-west-2"]) /\ at_keys ["configure_rules"; "E3012"; "strict"] (VDict file) = Some (VBool false) /\
  at_keys ["configure_rules"; "E9000"; "limit"] (VDict file) = Some (VInt 3).
Proof. vm_compute. eexists. eexists. repeat split. Qed.

(** * Settings that are refused *)
Lemma refused_setting k v : In k ["format"; "include_experimental"; "ignore_bad_template"] -> ~ sound_config (VDict [(k, v)]).
Proof. intros H K. apply c102_valid in K. destruct H as [<-|[<-|[<-|[]]]]; discriminate K. Qed.
Lemma documented_refused is_file load a b c isatty glob str_other default_dir directory imported sp tr decode name_of prelude emit argv cli ex k v q :
  In k ["format"; "include_experimental"; "ignore_bad_template"] -> parse_args argv = Values cli ex -> lookup cli "config_file" = VNull ->
  is_file (Home ".cfnlintrc") = false -> project_file is_file q -> is_file q = true -> load q = Ok (VDict [(k, v)]) ->
  main is_file load a b c isatty glob str_other default_dir directory imported sp tr decode name_of prelude emit argv = Left 1.
Proof.
  intros Hk E El Hh Hq Hf Hl. apply c102_refused.
  apply (proj2 (c102_config is_file load argv cli ex (VDict []) (VDict [(k, v)]) q E ltac:(rewrite El; left; reflexivity) ltac:(left; split; [exact Hh | reflexivity]) Hq
    ltac:(right; split; [exact Hf|]; exists (VDict [(k, v)]); split; [exact Hl|]; left; split; [apply truthy_iff; reflexivity | reflexivity]))).
  intros [_ K]. exact (refused_setting k v Hk K).
Qed.
(** * A configuration file that does not exist *)
Lemma missing_ignored is_file load n s : undashed n -> undashed s -> s <> "" -> is_file (At s) = false -> exists cli,
  make_config is_file load [n; "--config-file"; s] = Config cli [] /\ lookup cli "templates" = texts_of [n].
Proof.
  intros Hn Hs Hne Hf. assert (H : command [n; "--config-file"; s] [(an_option "--config-file", [s])] [n]).
  { change [n; "--config-file"; s] with ([] ++ [n] ++ (["--config-file"; s] ++ []))%list. change [(an_option "--config-file", [s])] with ([] ++ ([(an_option "--config-file", [s])] ++ []))%list.
    eapply names_among; [apply say_nothing | exact Hn | constructor |]. eapply say_more; [|apply say_nothing]. apply by_name; [apply whole_name; apply (in_options "--config-file"); reflexivity | apply one_value; [reflexivity | exact Hs]]. }
  destruct (command_updates _ _ _ H ltac:(constructor; [exact I | constructor])) as (cli & E & S & T). exists cli.
  assert (Ho : In (an_option "--config-file") options) by (apply (in_options "--config-file"); reflexivity). specialize (S _ Ho). change (o_dest (an_option "--config-file")) with "config_file" in S.
  cbn in S. injection S as S. destruct (c102_custom is_file load _ cli [] s (VDict []) E (eq_sym S) Hne ltac:(left; split; [exact Hf | reflexivity])) as [A _].
  destruct (A ltac:(apply c102_valid; reflexivity)) as (file & K & [= <-]). split; [exact K | exact T].
Qed.
(** * Exceptions that become success *)
(** [-a ""] makes importlib raise ValueError. *)
Lemma dropped_exception t k str_other : set_template_args (erase t) = Ok [] -> coll_new str_other [] [] ["W"; "E"] [] false [] = Ok k ->
  forall is_file load a b c isatty glob default_dir directory imported sp tr decode name_of prelude emit rs,
  (forall p, is_file p = false) -> (forall p, glob p = []) -> decode (Some "a.yaml") = DecOk t -> load_path directory imported default_dir = Ok rs ->
  let f := main is_file load a b c isatty glob str_other default_dir directory imported sp tr decode name_of prelude emit ["-t"; "a.yaml"; "-a"; ""] in
  f = Failed EValue /\ command_status f = 1%Z /\ module_status f = 0%Z.
Proof.
  intros Ht Hk is_file load a b c isatty glob default_dir directory imported sp tr decode name_of prelude emit rs Hf Hg Hd Hl f.
  assert (E : f = Failed EValue); [|rewrite E; now repeat split]. unfold f. clear f.
  assert (P : exists cli, parse_args ["-t"; "a.yaml"; "-a"; ""] = Values cli [] /\ cli = match parse_args ["-t"; "a.yaml"; "-a"; ""] with Values c _ => c | _ => [] end) by (eexists; split; reflexivity).
  destruct P as [cli [P Ec]]. vm_compute in Ec.
  assert (M : make_config is_file load ["-t"; "a.yaml"; "-a"; ""] = Config cli []).
  { unfold make_config. rewrite P, argument_cli. assert (V : lookup cli "config_file" = VNull) by (rewrite Ec; reflexivity). rewrite V. unfold load_config, find_config. cbn [truthy]. rewrite !Hf. reflexivity. }
  rewrite (c102_unloadable is_file load a b c isatty glob str_other default_dir directory imported sp tr decode name_of prelude emit _ cli [] ["a.yaml"] "a.yaml" [] [""] EValue t M); [reflexivity | | | reflexivity | | | ].
  - rewrite Ec. repeat constructor.
  - unfold templates. rewrite Ec. cbn. unfold expand_or_self. rewrite Hg. reflexivity.
  - rewrite Ec. reflexivity.
  - cbn [concat_res]. rewrite Hl. cbn [bind load_path]. unfold load_path. cbn [String.eqb]. reflexivity.
  - rewrite Hd. unfold get_template_rules, ignore_bad. rewrite Ht. cbn [initial_state st_targs st_rules]. unfold src. rewrite Ec. cbn -[coll_new]. rewrite Hk. eexists. eexists. reflexivity.
Qed.
Lemma dropped_case : set_template_args (VDict [("Resources", VDict [])]) = Ok [] /\ exists k, coll_new (fun _ => "") [] [] ["W"; "E"] [] false [] = Ok k.
Proof. split; [reflexivity | eexists; reflexivity]. Qed.
(** * A run *)
Lemma run_case : exists cli, make_config (fun _ => false) (fun _ => Err EKey) ["b.yaml"; "a.yaml"; "-e"] = Config cli [] /\
  Forall (fun n => lookup cli n = VBool false) ["update_specs"; "update_documentation"; "update_iam_policies"; "listrules"] /\
  templates (fun _ => []) (mkSources cli [] []) = Ok (Some ["a.yaml"; "b.yaml"]) /\ append_rules (mkSources cli [] []) = Ok [].
Proof. vm_compute. eexists. repeat split. repeat constructor. Qed.
(** All templates are ignored: there is nothing to check, and no word about it. *)
Lemma ignored_case : exists cli, make_config (fun _ => false) (fun _ => Err EKey) ["a.yaml"; "--ignore-templates"; "a.yaml"] = Config cli [] /\ templates (fun _ => []) (mkSources cli [] []) = Ok (Some []).
Proof. vm_compute. eexists. repeat split. Qed.
