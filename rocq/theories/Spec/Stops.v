(** What in a template or in the options can stop the program (C111). *)
From Coq Require Import List String.
From Verif.Model Require Import Base Locate Helpers Rules Config.
Import ListNotations.
Local Open Scope string_scope.

(** The metadata of the template, and the settings for the linter in it, are objects if they are given. *)
Definition metadata_shaped (t : val) : Prop :=
  forall d m, t = VDict d -> assoc "Metadata" d = Some m -> exists ms, m = VDict ms /\ forall x, assoc "cfn-lint" ms = Some x -> exists s, x = VDict s.
(** The configuration that the metadata of the template gives. *)
Definition configuration (t : val) (cs : list (string * val)) : Prop :=
  exists d ms s, t = VDict d /\ assoc "Metadata" d = Some (VDict ms) /\ assoc "cfn-lint" ms = Some (VDict s) /\ assoc "config" s = Some (VDict cs).

(** The options that are lists of names. *)
Definition list_options : list string := ["ignore_checks"; "include_checks"; "mandatory_checks"; "regions"].
(** Given options are sound: lists are lists of texts, regions are known, and where a rule wants an integer it gets one. *)
Definition lists_of_texts (a : list (string * val)) : Prop := forall name l, In name list_options -> In (name, VList l) a -> exists ss, l = map VStr ss.
Definition known_regions_only (a : list (string * val)) : Prop := forall ss, In ("regions", VList (map VStr ss)) a -> In "ALL_REGIONS" ss \/ forall r, In r ss -> In r REGIONS.
Definition integers_given (all : list rule) (a : list (string * val)) : Prop := forall cs r set key default v,
  In ("configure_rules", VDict cs) a -> In r all -> In (r_id r, VDict set) cs -> In (key, v) set -> assoc key (r_definition r) = Some (CInteger, default) ->
  (exists z, v = VInt z) \/ exists b, v = VBool b.
Definition sound_options (all : list rule) (a : list (string * val)) : Prop := lists_of_texts a /\ known_regions_only a /\ integers_given all a.
(** Nothing but a list is given where a list is wanted (what a template gives otherwise is not looked at). *)
Definition only_lists (a : list (string * val)) : Prop := forall name v, In name list_options -> In (name, v) a -> v = VNull \/ exists l, v = VList l.

(** A file that cannot be read, or a template that gives sound settings, if any. *)
Definition calm (all : list rule) (t : val) : Prop := metadata_shaped t /\ forall cs, configuration t cs -> sound_options all cs.
