(** Runs in which a shipped rule has settings or is experimental (C99). *)
From Coq Require Import List String Ascii QArith.
Import ListNotations.
From Verif.Model Require Import Base Locate Helpers Rules Runner Config Core JsonDump PropertyRules Standard.
From Verif.Spec Require Import Pipeline Resolved Groups SameJson Paths Shipped.
Local Open Scope string_scope.

(** A run of the linter with the shipped rules on a template, in which the rule [id] is selected and has the settings [cfg]. *)
Definition lints_with (w : world) (sp : spec) (tr : translator) (k : collection) (regions mandatory : list string) (c : cfn)
  (ds : list directive) (id : string) (experimental : bool) (cfg : list (string * val)) (l : list finding) : Prop :=
  with_shipped w (k_all k) /\ spec_ok sp /\ e0002_selected (k_set k) /\
  selected id experimental (s_experimental (k_set k)) (s_ignore (k_set k)) (s_include (k_set k)) (s_mandatory (k_set k)) /\
  (forall r, In r (k_all k) -> r_id r = id -> r_config r = cfg) /\
  seen_as_is w c id /\ (exists m d, c_tmpl c = MDict m d) /\ get_directives (c_tmpl c) = Ok ds /\
  snd (run_checks sp tr k regions mandatory c) = Findings l.

(** Values of properties whose items can be compared: lists whose items the digest tells apart, and objects in which no condition decides. *)
Definition comparable (sha1 : string -> string) (float_text : Q -> string) (x : val) : Prop :=
  match x with
  | VList l => no_collision sha1 (map (dumps float_text) l)
  | VDict d => plain_object d /\ VDict d <> no_value /\ forall n, ~ members_look_at d n
  | _ => True
  end.

(** [names_target f v target]: the argument [v] of [f] names [target]. *)
Inductive names_target : string -> val -> string -> Prop :=
| nt_ref : forall t, t <> "Fn::If" -> names_target "Ref" (VStr t) t
| nt_list : forall t rest, t <> "" -> names_target "Fn::GetAtt" (VList (VStr t :: rest)) t
| nt_text : forall t s, t <> "" -> ~ In "."%char (list_ascii_of_string t) -> s <> "Fn::If" -> s = t \/ (exists rest, s = t ++ "." ++ rest) -> names_target "Fn::GetAtt" (VStr s) t.
Definition call_word (f : string) : string := if String.eqb f "Ref" then "Ref" else "GetAtt".
(** Ref and Fn::GetAtt name something, at places that go through well-formed Fn::If only. *)
Definition plain_references (t : val) : Prop :=
  forall f p v, In f ["Ref"; "Fn::GetAtt"] -> at_path (p ++ [PKey f])%list t = Some v -> place t (p ++ [PKey f])%list /\ exists n, names_target f v n.
