(** Configuration files and what they contribute (C102). *)
From Coq Require Import ZArith QArith Ascii.
From Verif.Model Require Import Base Config CommandLine Startup.
From Verif.Spec Require Import Options CommandLine.
Local Open Scope string_scope.

(** A name without a line feed, except as its last character. *)
Definition one_line (k : string) : Prop := forall a b, k = a ++ String "010" b -> b = "".
(** Values a setting of a rule may have. *)
Definition scalar (v : val) : Prop := (exists s, v = VStr s) \/ (exists z, v = VInt z) \/ (exists b, v = VBool b) \/ (exists q z, v = VFloat q /\ Qeq q (inject_Z z)).
(** What a configuration file may say. *)
Inductive permitted : string -> val -> Prop :=
| texts_permitted k l :
    In k ["append_rules"; "ignore_checks"; "include_checks"; "mandatory_checks"; "regions"; "templates"; "ignore_templates"; "registry_schemas"] ->
    permitted k (texts_of l)
| text_permitted k s : In k ["override_spec"; "output_file"] -> permitted k (VStr s)
| settings_permitted rs :
    (forall r y, In (r, y) rs -> one_line r /\ exists os, y = VDict os /\ forall n z, In (n, z) os -> one_line n -> scalar z) ->
    permitted "configure_rules" (VDict rs).
Definition sound_config (v : val) : Prop := exists d, v = VDict d /\ forall k x, In (k, x) d -> permitted k x.

Section Files.
Variable is_file : spot -> bool.
Variable load : spot -> res val.
(** What a file says: nothing if it does not exist or is empty. *)
Definition content (p : spot) (v : val) : Prop :=
  is_file p = false /\ v = VDict [] \/ is_file p = true /\ exists w, load p = Ok w /\ (nonempty w /\ v = w \/ empty_value w /\ v = VDict []).
(** The file of the project: the first that exists. *)
Inductive project_file : spot -> Prop :=
| project_yaml : is_file (Here ".cfnlintrc.yaml") = true -> project_file (Here ".cfnlintrc.yaml")
| project_yml : is_file (Here ".cfnlintrc.yaml") = false -> is_file (Here ".cfnlintrc.yml") = true -> project_file (Here ".cfnlintrc.yml")
| project_plain : is_file (Here ".cfnlintrc.yaml") = false -> is_file (Here ".cfnlintrc.yml") = false -> project_file (Here ".cfnlintrc").
End Files.
(** Every value of the project's file, and of the user's where the project's file does not say something else. *)
Definition merged_from (user project : val) (file : args) : Prop :=
  forall ks v, is_leaf v ->
    (at_keys ks (VDict file) = Some v <-> at_keys ks project = Some v \/ at_keys ks project = None /\ ~ cut_off ks project /\ at_keys ks user = Some v).
