(** C08 Configuration precedence. *)
From Verif.Model Require Import Base Helpers Config.
From Verif.Spec Require Import Options Files.
From Verif.Proofs Require Import OptionProofs FilesProofs.

(** Every option has the first non-empty value among command line, template Metadata and configuration file, the last
    two only for options that may be set there; otherwise the command line's (empty) default.  Missing: an empty value
    (false, an empty list) given explicitly in a more specific place is passed over, see the refutation. *)
Theorem option_value_precedence_partial : forall s name v, option_value s name = v <-> first_of nonempty s name v.
Proof. exact c08_first. Qed.

(** Taking every value that is present into account, the claim is false: [ignore_bad_template: false] in a template does
    not override [true] in the configuration file. *)
Theorem option_value_precedence_refuted : exists s name v, first_of present s name v /\ option_value s name <> v.
Proof. exact c08_refuted. Qed.

(** What the Metadata of a template contributes: a value of the right kind is taken ... *)
Theorem metadata_value_taken : forall t a name v,
  set_template_args t = Ok a -> at_keys (metadata_path name) t = Some v -> right_kind name v -> value_in a name = v.
Proof. exact metadata_used. Qed.
(** ... and nothing else is. *)
Theorem metadata_value_ignored : forall t a name,
  set_template_args t = Ok a ->
  (forall cs v, at_keys ["Metadata"; "cfn-lint"; "config"] t = Some (VDict cs) -> In (name, v) cs -> ~ right_kind name v) ->
  value_in a name = VNull.
Proof. exact metadata_unused. Qed.

(** Experimental rules are an option of the template level (config.py:507-510) but cannot be switched on there. *)
Theorem metadata_include_experimental_refuted : exists t a,
  at_keys (metadata_path "include_experimental") t = Some (VBool true) /\ In "include_experimental"%string in_template /\
  set_template_args t = Ok a /\ include_experimental (mkSources [] a []) = false.
Proof. exact c08_experimental. Qed.

(** Regions: the default is us-east-1, ALL_REGIONS anywhere in the list stands for all of them. *)
Theorem regions_value : forall s, (~ given (option_value s "regions") -> regions s = Ok ["us-east-1"%string]) /\
  (forall l, option_value s "regions" = VList (map VStr l) -> l <> [] ->
     (In "ALL_REGIONS"%string l -> regions s = Ok REGIONS) /\ (~ In "ALL_REGIONS"%string l -> regions s = Ok l)).
Proof. exact c08_regions. Qed.
(** Warnings and errors are always included. *)
Theorem include_checks_value : forall s l,
  option_value s "include_checks" = VList (map VStr l) -> include_checks s = Ok ("W" :: "E" :: l)%string.
Proof. exact c08_include_checks. Qed.
Example regions_example : regions (mkSources [] [("regions", VList [VStr "eu-west-1"; VStr "ALL_REGIONS"])] []) = Ok REGIONS /\
  regions (mkSources [] [] []) = Ok ["us-east-1"]%string.
Proof. exact c08_regions_example. Qed.

Example precedence_example :
  let s := mkSources [("format", VNull)] [("regions", VList [VStr "us-west-2"])]
                     [("regions", VList [VStr "eu-west-1"]); ("format", VStr "json")] in
  first_of nonempty s "regions" (VList [VStr "us-west-2"]) /\ first_of nonempty s "format" (VStr "json").
Proof. split; apply c08_first; reflexivity. Qed.

Print Assumptions option_value_precedence_partial.
Print Assumptions option_value_precedence_refuted.
Print Assumptions metadata_value_taken.
Print Assumptions metadata_value_ignored.
Print Assumptions metadata_include_experimental_refuted.
Print Assumptions regions_value.
Print Assumptions include_checks_value.
