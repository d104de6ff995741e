(** C103 Overriding the specifications. *)
From Coq Require Import List String Ascii ZArith.
Import ListNotations.
From Verif.Model Require Import Base Node Locate Helpers Rules Runner Config Core Startup Overriding.
From Verif.Spec Require Import Paths Options Patterns Overriding.
From Verif.Proofs Require Import OverridingProofs OverridingWitness.
Import Verif.Model.Rules.
Local Open Scope string_scope.

(** Every region has what the document says, and what its specification says where the document is silent, of the resource types that pass the patterns. *)
Theorem specifications_overridden : forall read, forall file doc inc exc s,
  read file = Read (VDict doc) -> wf (VDict doc) -> fitting doc inc exc s ->
  exists s', override_specs read file s = Now s' /\ Forall2 (fun a b => fst a = fst b /\ overrides inc exc (VDict (without_lists doc)) (snd a) (snd b)) s s'.
Proof. exact c103_effect. Qed.
Print Assumptions specifications_overridden.

Example specifications_overridden_case : wf (VDict new_doc) /\ fitting new_doc [] ["AWS::EC2::*"] old_specs.
Proof. exact new_fits. Qed.

Example specifications_overridden_values : override_specs read_new "spec.json" old_specs =
  Now [("us-east-1", VDict [("ResourceTypes", VDict [("AWS::S3::Bucket", VDict [("Documentation", VStr "mine")])]); ("PropertyTypes", VDict [])]);
       ("eu-west-1", VDict [("ResourceTypes", VDict [("AWS::S3::Bucket", VDict [("Documentation", VStr "mine")])])])].
Proof. exact new_specs. Qed.

(** Overriding once more, for the next template, changes nothing. *)
Theorem overridden_again : forall read, forall file s s',
  (forall v, read file = Read v -> wf v) -> override_specs read file s = Now s' -> override_specs read file s' = Now s'.
Proof. exact c103_again. Qed.
Print Assumptions overridden_again.

(** A run with --override-spec is, for every way of checking templates, the same as a run without it on the overridden specifications: no template is checked against others. *)
Theorem overridden_run : forall read str_other all_rules cli_args file_args decode check, forall f s s',
  option_value (mkSources cli_args [] file_args) "override_spec" = VStr f -> f <> "" -> (forall v, read f = Read v -> wf v) -> override_specs read f s = Now s' ->
  forall names st, lint_with str_other all_rules cli_args file_args decode (override_step read) check s st names [] = lint_with str_other all_rules cli_args file_args decode (fun _ x => Now x) check s' st names [].
Proof. exact c103_run. Qed.
Print Assumptions overridden_run.

(** In particular it is a run of lint_all, the subject of the other properties, with the overridden specification for the walk over properties. *)
Theorem overridden_lint : forall read str_other all_rules cli_args file_args decode name_of spec_of tr f s s' names,
  option_value (mkSources cli_args [] file_args) "override_spec" = VStr f -> f <> "" -> (forall v, read f = Read v -> wf v) -> override_specs read f s = Now s' ->
  lint_with str_other all_rules cli_args file_args decode (override_step read) (check_with cli_args file_args spec_of tr name_of) s initial_state names [] =
  match snd (lint_all str_other (spec_of s') tr all_rules cli_args file_args initial_state (map (fun n => (name_of n, decode n)) names) []) with
  | Ok (Findings l) => Linted l | Ok (Exit z) => Left z | Err e => Failed e
  end.
Proof. exact c103_lints. Qed.
Print Assumptions overridden_lint.

(** A run whose command line and configuration files do not name a file is a run of lint_all with the specifications as they are, whatever the templates themselves say about overriding. *)
Theorem not_overridden_lint : forall read str_other all_rules cli_args file_args decode name_of spec_of tr s names,
  (forall v, assoc "override_spec" cli_args = Some v -> v = VNull \/ v = VStr "") -> (forall v, assoc "override_spec" file_args = Some v -> v = VNull \/ v = VStr "") ->
  lint_with str_other all_rules cli_args file_args decode (override_step read) (check_with cli_args file_args spec_of tr name_of) s initial_state names [] =
  match snd (lint_all str_other (spec_of s) tr all_rules cli_args file_args initial_state (map (fun n => (name_of n, decode n)) names) []) with
  | Ok (Findings l) => Linted l | Ok (Exit z) => Left z | Err e => Failed e
  end.
Proof. exact c103_plain. Qed.
Print Assumptions not_overridden_lint.

Example not_overridden_lint_case : forall v, assoc "override_spec" [("regions", VList [VStr "us-east-1"]); ("override_spec", VNull)] = Some v -> v = VNull \/ v = VStr "".
Proof. intros v H. injection H as <-. now left. Qed.

(** A file that is missing, a folder, not permitted to be read or not JSON ends the program with status 1 before the first template is checked. *)
Theorem unreadable_override_ends : forall read str_other all_rules cli_args file_args decode check, forall f s n names st acc,
  option_value (mkSources cli_args [] file_args) "override_spec" = VStr f -> f <> "" -> (exists e, In e [2; 21; 13]%Z /\ read f = IOErr e) \/ read f = Raised EValue ->
  checked str_other all_rules cli_args file_args st (decode n) -> lint_with str_other all_rules cli_args file_args decode (override_step read) check s st (n :: names) acc = Left 1.
Proof. exact c103_stops. Qed.
Print Assumptions unreadable_override_ends.

(** After every other error of the operating system the templates are checked as if the option were not given. *)
Theorem unreadable_override_refuted : forall read str_other all_rules cli_args file_args decode check, forall f s e names st acc,
  option_value (mkSources cli_args [] file_args) "override_spec" = VStr f -> f <> "" -> read f = IOErr e -> ~ In e [2; 21; 13]%Z ->
  lint_with str_other all_rules cli_args file_args decode (override_step read) check s st names acc = lint_with str_other all_rules cli_args file_args decode (fun _ x => Now x) check s st names acc.
Proof. exact c103_silent. Qed.
Print Assumptions unreadable_override_refuted.

(** A pattern that is not in a list is taken for the list of its characters: all types pass if there is a star in it, otherwise none. *)
Theorem text_pattern_refuted : forall p types t d,
  p <> "" -> (forall n v, In (n, v) types -> 2 <= String.length n) ->
  assoc "ResourceTypes" d = Some (VDict types) ->
  exists out, set_region [("IncludeResourceTypes", VStr p)] (VDict d) = Ok out /\
    (at_keys ["ResourceTypes"; t] out <> None <-> has_char "*" p = true /\ at_keys ["ResourceTypes"; t] (VDict d) <> None).
Proof. exact text_pattern. Qed.
Print Assumptions text_pattern_refuted.

(** A document that is a list ends the program in an exception. *)
Theorem list_document_refuted : forall read f l s,
  read f = Read (VList l) -> l <> [] -> s <> [] -> exists e, override_specs read f s = Throws e.
Proof. exact other_document. Qed.
Print Assumptions list_document_refuted.
