(** Where option values come from (C08), merging configuration files (C09), rule settings on the command line (C10). *)
From Coq Require Import List String Ascii Bool.
From Verif.Model Require Import Base Config.
Import ListNotations.
Open Scope string_scope.
Open Scope list_scope.

(** The value under a chain of keys of a document. *)
Fixpoint at_keys (ks : list string) (v : val) : option val :=
  match ks with
  | [] => Some v
  | k :: rest => match v with
                 | VDict d => match assoc k d with Some x => at_keys rest x | None => None end
                 | _ => None
                 end
  end.
Definition is_leaf (v : val) : Prop := forall d, v <> VDict d.
(** The document says something other than an object at a chain of keys leading to [ks], so it has its own word there. *)
Definition cut_off (ks : list string) (v : val) : Prop :=
  exists before after w, ks = before ++ after /\ at_keys before v = Some w /\ is_leaf w.

(** Options a template's Metadata may set, and options a configuration file may set (docs: README, "Configuration"). *)
Definition in_template : list string :=
  ["ignore_checks"; "include_checks"; "include_experimental"; "regions"; "ignore_bad_template"; "configure_rules"].
Definition in_file : list string :=
  in_template ++ ["mandatory_checks"; "format"; "templates"; "ignore_templates"; "append_rules"; "override_spec";
                  "output_file"; "registry_schemas"].

(** [first_of s name v]: reading the sources from the most to the least specific, [v] is the first value given, where
    [given] says what counts as given; the command line default if there is none. *)
Definition value_in (a : args) (name : string) : val := match assoc name a with Some v => v | None => VNull end.
Inductive first_of (given : val -> Prop) (s : sources) (name : string) : val -> Prop :=
| from_cli v : value_in (cli s) name = v -> given v -> first_of given s name v
| from_template v : ~ given (value_in (cli s) name) -> In name in_template ->
    value_in (tmpl s) name = v -> given v -> first_of given s name v
| from_file v : ~ given (value_in (cli s) name) -> ~ (In name in_template /\ given (value_in (tmpl s) name)) ->
    In name in_file -> value_in (file s) name = v -> given v -> first_of given s name v
| from_default v : ~ given (value_in (cli s) name) -> ~ (In name in_template /\ given (value_in (tmpl s) name)) ->
    ~ (In name in_file /\ given (value_in (file s) name)) -> value_in (cli s) name = v -> first_of given s name v.

(** Null, false, zero, the empty text and empty collections. *)
Definition empty_value (v : val) : Prop :=
  v = VNull \/ v = VBool false \/ v = VInt 0 \/ (exists q, v = VFloat q /\ Qeq q 0) \/ v = VStr "" \/ v = VList [] \/ v = VDict [].
Definition nonempty (v : val) : Prop := ~ empty_value v.
Definition present (v : val) : Prop := v <> VNull.

(** One setting: rule, option name, value; and its text form. *)
Definition setting := (string * string * string)%type.
Definition render_setting (s : setting) : string := let '(r, n, v) := s in (r ++ ":" ++ n ++ "=" ++ v)%string.
Fixpoint render_settings (l : list setting) : string :=
  match l with
  | [] => ""
  | [s] => render_setting s
  | s :: rest => (render_setting s ++ "," ++ render_settings rest)%string
  end.
Fixpoint free_of (c : ascii) (s : string) : Prop :=
  match s with EmptyString => True | String a s' => a <> c /\ free_of c s' end.
Definition plain_text (s : string) : Prop := free_of "," s /\ free_of ":" s /\ free_of "=" s.
Definition plain_setting (s : setting) : Prop :=
  let '(r, n, v) := s in plain_text r /\ plain_text n /\ plain_text v.
(** The value the last setting for [rule] and [name] gives. *)
Fixpoint last_value (rule name : string) (l : list setting) : option string :=
  match l with
  | [] => None
  | (r, n, v) :: rest =>
      match last_value rule name rest with
      | Some w => Some w
      | None => if String.eqb rule r && String.eqb name n then Some v else None
      end
  end.
Definition recorded (rs : rule_configs) (rule name : string) : option string :=
  match assoc rule rs with Some o => assoc name o | None => None end.

(** The kind of value an option must have in a template's Metadata. *)
Definition right_kind (name : string) (v : val) : Prop :=
  (In name ["ignore_checks"; "regions"; "append_rules"; "include_checks"] /\ exists l, v = VList l) \/
  (name = "override_spec" /\ exists s, v = VStr s) \/
  (name = "ignore_bad_template" /\ exists b, v = VBool b) \/
  (name = "configure_rules" /\ exists d, v = VDict d).
Definition metadata_path (name : string) : list string := ["Metadata"; "cfn-lint"; "config"; name].
