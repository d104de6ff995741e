(** Command lines for C101. *)
From Coq Require Import List Arith Lia Bool ZArith Ascii String.
From Verif.Model Require Import Base Config CommandLine.
From Verif.Spec Require Import Options CommandLine.
From Verif.Proofs Require Import BaseFacts OptionProofs CommandLineProofs.
Import ListNotations.
Local Open Scope string_scope.
Local Open Scope nat_scope.

Definition an_option (n : string) : opt := match assoc n option_strings with Some o => o | None => mkOpt [] "" Switch end.
Ltac plain_text := intros ? ?; discriminate.
(** cfn-lint a.yaml b.yaml --include-e -bi E3012 W2001,W2002 --form=json -x E3012:strict=true -rus-east-1 *)
Definition a_line : list string := ["a.yaml"; "b.yaml"; "--include-e"; "-bi"; "E3012"; "W2001,W2002"; "--form=json"; "-x"; "E3012:strict=true"; "-rus-east-1"].
Definition its_groups : list (opt * list string) :=
  [(an_option "-e", []); (an_option "-b", []); (an_option "-i", ["E3012"; "W2001,W2002"]); (an_option "-f", ["json"]); (an_option "-x", ["E3012:strict=true"]); (an_option "-r", ["us-east-1"])].
Lemma in_options n o : assoc n option_strings = Some o -> In o options /\ In n (o_names o).
Proof. apply assoc_strings. Qed.
Lemma by_letter c : (exists o, assoc (String dash (String c "")) option_strings = Some o) -> letter_of c (an_option (String dash (String c ""))).
Proof. intros [o E]. unfold an_option. rewrite E. exact (in_options _ _ E). Qed.
Definition one_prefix (p : string) : bool := match filter (fun no => starts_with p (fst no)) option_strings with [_] => true | _ => false end.
Lemma by_prefix p rest o x : one_prefix p = true -> assoc (p ++ rest) option_strings = Some o -> p = "--" ++ x -> x <> "" -> long_name o p.
Proof.
  intros F A E Hx. destruct (in_options _ _ A) as [Ho Hn]. apply (cut_name o p rest Ho); [now exists x | exact Hn |]. intros o' n r Ho' Hn' En. unfold one_prefix in F.
  assert (J1 : In (p ++ rest, o) (filter (fun no => starts_with p (fst no)) option_strings)) by (apply filter_In; split; [exact (proj2 (proj2 (proj2 (proj2 (proj2 (found _ _ Ho Hn)))))) | apply starts_app]).
  assert (J2 : In (n, o') (filter (fun no => starts_with p (fst no)) option_strings)) by (apply filter_In; split; [exact (proj2 (proj2 (proj2 (proj2 (proj2 (found _ _ Ho' Hn')))))) | cbn [fst]; rewrite En; apply starts_app]).
  destruct (filter _ _) as [|a [|]]; try discriminate. destruct J1 as [-> | []]. destruct J2 as [[= -> _] | []]. reflexivity.
Qed.
Lemma line_said : command a_line its_groups ["a.yaml"; "b.yaml"].
Proof.
  change a_line with ([] ++ ["a.yaml"; "b.yaml"] ++ (["--include-e"] ++ (["-bi"; "E3012"; "W2001,W2002"] ++ ([("--form" ++ "=" ++ "json")%string] ++ (["-x"; "E3012:strict=true"] ++ (["-rus-east-1"] ++ []))))))%list.
  change its_groups with ([] ++ ([(an_option "-e", [])] ++ ([(an_option "-b", []); (an_option "-i", ["E3012"; "W2001,W2002"])] ++ ([(an_option "-f", ["json"])] ++ ([(an_option "-x", ["E3012:strict=true"])] ++ ([(an_option "-r", ["us-east-1"])] ++ []))))))%list.
  eapply names_among; [apply say_nothing | plain_text | constructor; [plain_text | constructor] |].
  eapply say_more; [|eapply say_more; [|eapply say_more; [|eapply say_more; [|eapply say_more; [|apply say_nothing]]]]].
  - apply by_name; [apply (by_prefix _ "xperimental" _ "include-e"); [reflexivity | reflexivity | reflexivity | discriminate] | constructor; reflexivity].
  - apply (by_letters "bi"). apply switch_first; [apply by_letter; eexists; reflexivity | reflexivity |]. apply last_letter; [apply by_letter; eexists; reflexivity|].
    apply some_values; [reflexivity | plain_text | constructor; [plain_text | constructor]].
  - apply with_equals; [apply (by_prefix _ "at" _ "form"); [reflexivity | reflexivity | reflexivity | discriminate] | discriminate | discriminate].
  - apply by_name; [apply whole_name; apply (in_options "-x"); reflexivity | apply some_values; [reflexivity | plain_text | constructor]].
  - apply (by_letters "rus-east-1"). apply with_value; [apply by_letter; eexists; reflexivity | discriminate | discriminate | discriminate | plain_text].
Qed.
Lemma line_good : Forall good_use its_groups.
Proof.
  repeat (constructor; [exact I || (constructor; [right; right; left; reflexivity | constructor]) || idtac|]); try constructor.
  exists [[("E3012", "strict", "true")]]. split; [|reflexivity]. constructor; [|constructor]. split; [discriminate|]. constructor; [|constructor]. cbn. repeat split; discriminate.
Qed.
Lemma line_case : exists ns, parse_args a_line = Values ns [] /\ lookup ns "templates" = texts_of ["a.yaml"; "b.yaml"] /\ lookup ns "ignore_checks" = texts_of ["E3012"; "W2001"; "W2002"] /\
  lookup ns "include_experimental" = VBool true /\ lookup ns "format" = VStr "json" /\ lookup ns "regions" = texts_of ["us-east-1"] /\ lookup ns "debug" = VBool false /\
  lookup ns "configure_rules" = VDict [("E3012", VDict [("strict", VStr "true")])].
Proof. vm_compute. eexists. repeat split. Qed.

(** * Where the program does something else *)
Lemma one_token s : undashed s -> parse_optional s = Some (Plain s) /\ String.eqb s "--" = false.
Proof. intros H. destruct (undashed_plain s H) as [E N]. split; [exact E | now apply String.eqb_neq]. Qed.
(** A template named behind an option with several values is not checked. *)
Lemma swallowed r n : undashed r -> undashed n -> exists ns, parse_args ["-i"; r; n] = Values ns [] /\ lookup ns "templates" = texts_of [] /\
  lookup ns "ignore_checks" = texts_of (split_on "," r ++ split_on "," n).
Proof.
  intros Hr Hn. assert (H : command ["-i"; r; n] [(an_option "-i", [r; n])] []).
  { change ["-i"; r; n] with (["-i"; r; n] ++ [])%list. change [(an_option "-i", [r; n])] with ([(an_option "-i", [r; n])] ++ [])%list. eapply only_options. eapply say_more; [|apply say_nothing].
    apply by_name; [apply whole_name; apply (in_options "-i"); reflexivity | apply some_values; [reflexivity | exact Hr | constructor; [exact Hn | constructor]]]. }
  destruct (command_updates _ _ _ H ltac:(constructor; [exact I | constructor])) as (ns & E & S & T). exists ns. split; [exact E|]. split; [exact T|].
  assert (Ho : In (an_option "-i") options) by (apply (in_options "-i"); reflexivity). specialize (S _ Ho). cbn [said filter fst snd map] in S.
  change (o_dest (an_option "-i")) with "ignore_checks" in S. cbn [updates update] in S. change (lookup defaults "ignore_checks") with (VList []) in S. unfold update in S. change (o_deed (an_option "-i")) with AddSplit in S. cbn iota in S.
  injection S as S. rewrite <- S. cbn [items_of app flat_map]. unfold comma_separated_arg. rewrite app_nil_r. reflexivity.
Qed.
(** Names of templates at a second place are dropped. *)
Lemma second_place n m : undashed n -> undashed m -> exists ns, parse_args [n; "-b"; m] = Values ns [m] /\ lookup ns "templates" = texts_of [n].
Proof.
  intros Hn Hm. destruct (one_token n Hn) as [En Dn]. destruct (one_token m Hm) as [Em Dm]. unfold parse_args. cbn [tokens]. rewrite Dn, En.
  change (String.eqb "-b" "--") with false. cbn iota. change (parse_optional "-b") with (Some (Option (Some (an_option "-b")) "-b" "-b" None)). cbn iota. rewrite Dm, Em.
  cbn [List.length parse_loop existsb is_option orb span negb]. unfold take_names. cbn [map text_of remove_first]. rewrite Dn.
  eexists. split; [reflexivity|]. reflexivity.
Qed.
(** A name that is no option's is passed over, with what was meant as its value taken for a template. *)
Lemma mistyped u n : (forall o m r, In o options -> In m (o_names o) -> m <> "--" ++ u ++ r) -> free_of "=" u -> free_of " " u -> undashed n ->
  exists ns, parse_args ["--" ++ u; n] = Values ns ["--" ++ u] /\ lookup ns "templates" = texts_of [n].
Proof.
  intros N F1 F2 Hn. destruct (one_token n Hn) as [En Dn].
  assert (A : assoc ("--" ++ u) option_strings = None).
  { destruct (assoc _ _) as [o|] eqn:E; [|reflexivity]. exfalso. destruct (in_options _ _ E) as [Ho Hm]. apply (N o _ "" Ho Hm). now rewrite append_nil_r. }
  assert (NF : forall c s, free_of c s -> has_char c s = false).
  { intros c s. induction s as [|a s IH]; [reflexivity|]. cbn [free_of has_char]. intros [H1 H2]. rewrite (IH H2), orb_false_r. unfold char_eqb. now apply Ascii.eqb_neq. }
  assert (Q : split_first equals ("--" ++ u) = None) by (apply split_first_none; exact (NF _ _ F1)).
  assert (F : filter (fun no => starts_with ("--" ++ u) (fst no)) option_strings = []).
  { destruct (filter _ _) as [|[m o] l] eqn:E; [reflexivity|]. exfalso. assert (J : In (m, o) (filter (fun no => starts_with ("--" ++ u) (fst no)) option_strings)) by (rewrite E; now left).
    apply filter_In in J as [J1 J2]. destruct (in_strings _ _ J1) as [Ho Hm]. destruct (starts_split _ _ J2) as [r Er]. apply (N o m r Ho Hm). exact Er. }
  assert (U : u <> "") by (intros ->; apply (N (an_option "-h") "--help" "help"); [apply (in_options "-h"); reflexivity | right; left; reflexivity | reflexivity]).
  assert (G : negative_number ("--" ++ u) = false).
  { cbn [append negative_number]. unfold digits. cbn [String.eqb negb all_digits andb]. change (digit "-") with false. cbn [andb orb]. cbn [split_first]. change (Ascii.eqb "-" ".") with false. cbn iota.
    destruct (split_first "." u) as [[a b]|]; reflexivity. }
  assert (P : parse_optional ("--" ++ u) = Some (Option None ("--" ++ u) ("--" ++ u) None)).
  { cbn [append] in *. cbn [parse_optional]. change (negb (Ascii.eqb "-" dash)) with false. cbn iota. rewrite A, Q. cbn [String.eqb]. unfold option_tuples. change (Ascii.eqb "-" dash) with true. cbn iota. rewrite Q, F. cbn [map]. rewrite G.
    pose proof (NF _ _ F2) as X. cbn [has_char]. change (char_eqb "-" " ") with false. cbn [orb]. now rewrite X. }
  assert (D : String.eqb ("--" ++ u) "--" = false) by (apply String.eqb_neq; destruct u; [now destruct U | discriminate]).
  unfold parse_args. cbn [tokens]. rewrite D, P, Dn, En. cbn [List.length parse_loop existsb is_option orb app]. unfold take_names. cbn [map text_of remove_first]. rewrite Dn. eexists. split; [reflexivity|]. reflexivity.
Qed.
Lemma mistyped_case : (forall o m r, In o options -> In m (o_names o) -> m <> "--" ++ "ignore-rules" ++ r) /\ free_of "=" "ignore-rules" /\ free_of " " "ignore-rules" /\ undashed "E3012".
Proof.
  split; [|split; [cbn; repeat split; discriminate | split; [cbn; repeat split; discriminate | plain_text]]]. intros o m r Ho Hm E.
  assert (F : filter (fun no => starts_with "--ignore-rules" (fst no)) option_strings = []) by reflexivity.
  assert (J : In (m, o) (filter (fun no => starts_with "--ignore-rules" (fst no)) option_strings)) by (apply filter_In; split; [exact (proj2 (proj2 (proj2 (proj2 (proj2 (found _ _ Ho Hm)))))) | cbn [fst]; rewrite E; apply (starts_app "--ignore-rules")]).
  rewrite F in J. destruct J.
Qed.
(** Two command lines on which the parser itself ends in an exception. *)
Lemma parser_crashes : parse_args ["-b="] = Crash EIndex /\ parse_args ["--config-file=--"] = Crash EValue.
Proof. split; reflexivity. Qed.
Lemma ambiguous_case : parse_args ["a.yaml"; "--include"; "I"] = Stop 32 /\ parse_args ["a.yaml"; "--include-c"; "I"] <> Stop 32.
Proof. split; [reflexivity | discriminate]. Qed.
Lemma stop_case : command ["-f"; "text"; "a.yaml"] ([] ++ (an_option "-f", ["text"]) :: []) ["a.yaml"] /\ parse_args ["-f"; "text"; "a.yaml"] = Stop 32.
Proof.
  split; [|reflexivity]. change ["-f"; "text"; "a.yaml"] with ((["-f"; "text"] ++ []) ++ ["a.yaml"] ++ [])%list.
  change ([] ++ (an_option "-f", ["text"]) :: [])%list with (([(an_option "-f", ["text"])] ++ []) ++ [])%list.
  eapply names_among; [| plain_text | constructor | apply say_nothing]. change false with (match @nil string with [] => match arity_of (an_option "-f") with SomeValues => true | _ => false end | _ => false end).
  eapply say_more; [|apply say_nothing]. apply by_name; [apply whole_name; apply (in_options "-f"); reflexivity | apply one_value; [reflexivity | plain_text]].
Qed.
(** Settings that cannot be read end the program with the status of a template without findings. *)
Lemma unreadable_settings n s : undashed n -> undashed s -> free_of ":" s -> parse_args [n; "-x"; s] = Stop 0.
Proof.
  intros Hn Hs F. apply (c101_unreadable _ [] (an_option "-x", [s]) [] [n]); [|constructor | reflexivity | exists s; split; [now left | exact F]].
  change [n; "-x"; s] with ([] ++ [n] ++ (["-x"; s] ++ []))%list. change ([] ++ (an_option "-x", [s]) :: [])%list with ([] ++ ([(an_option "-x", [s])] ++ []))%list.
  eapply names_among; [apply say_nothing | exact Hn | constructor |]. eapply say_more; [|apply say_nothing]. apply by_name; [apply whole_name; apply (in_options "-x"); reflexivity | apply some_values; [reflexivity | exact Hs | constructor]].
Qed.
Lemma documented_case : under its_groups "--ignore-checks" = [["E3012"; "W2001,W2002"]] /\ under its_groups "-b" = [[]] /\ under its_groups "--debug" = [] /\ under its_groups "--format" = [["json"]].
Proof. repeat split. Qed.
