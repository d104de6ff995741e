(** The rules the linter ships with (C93). *)
From Coq Require Import ZArith.
From Verif.Model Require Import Base Locate Helpers Rules Runner Config Core Standard.
From Verif.Spec Require Import Pipeline Paths Branches Walk.
Local Open Scope string_scope.

(** The ids listed in docs/rules.md. *)
Definition documented_ids : list string :=
  ["E0000"; "E0001"; "E0002"; "E1001"; "E1002"; "E1003"; "E1004"; "E1010"; "E1011"; "E1012"; "E1015"; "E1016"; "E1017"; "E1018";
   "E1019"; "E1020"; "E1021"; "E1022"; "E1023"; "E1024"; "E1026"; "E1027"; "E1028"; "E1029"; "E2001"; "E2002"; "E2003"; "E2010";
   "E2011"; "E2012"; "E2014"; "E2015"; "E2503"; "E2504"; "E2506"; "E2507"; "E2520"; "E2521"; "E2522"; "E2523"; "E2529"; "E2531";
   "E2532"; "E2540"; "E2541"; "E3000"; "E3001"; "E3002"; "E3003"; "E3004"; "E3005"; "E3006"; "E3007"; "E3008"; "E3010"; "E3011";
   "E3012"; "E3013"; "E3016"; "E3017"; "E3018"; "E3020"; "E3021"; "E3022"; "E3025"; "E3026"; "E3027"; "E3030"; "E3031"; "E3032";
   "E3033"; "E3034"; "E3035"; "E3036"; "E3037"; "E3038"; "E3039"; "E3041"; "E3042"; "E3050"; "E3502"; "E3503"; "E4001"; "E5001";
   "E6001"; "E6002"; "E6003"; "E6004"; "E6005"; "E6010"; "E6011"; "E6012"; "E7001"; "E7002"; "E7003"; "E7010"; "E7011"; "E7012";
   "E8001"; "E8002"; "E8003"; "E8004"; "E8005"; "E8006"; "I1002"; "I1003"; "I1022"; "I2010"; "I2011"; "I2012"; "I3010"; "I3011";
   "I3012"; "I3037"; "I6010"; "I6011"; "I6012"; "I7010"; "I7011"; "I7012"; "W1001"; "W1011"; "W1019"; "W1020"; "W2001"; "W2030";
   "W2031"; "W2501"; "W2506"; "W2510"; "W2511"; "W2531"; "W3002"; "W3005"; "W3010"; "W3011"; "W3037"; "W4001"; "W4002"; "W6001"; "W7001";
   "W8001"].
(** The ids of the checks outside the rule files: templates that cannot be read, failed transforms, and crashes of rules
    (rules/__init__.py). *)
Definition built_in_ids : list string := ["E0000"; "E0001"; "E0002"].
(** The rules docs/rules.md marks as experimental, and the settings it lists. *)
Definition experimental_ids : list string := ["W3037"].
Definition documented_settings (id : string) : list (string * (cfgtype * val)) :=
  if String.eqb id "E1029" then [("custom_excludes", (CString, VStr ""))]
  else if String.eqb id "E3012" then [("strict", (CBoolean, VBool true))]
  else [].

(** [r] is the rule [r0] after some history of configuration and initialisation: the same checks on the same types, possibly with
    other values of its settings. *)
Definition same_checks (r0 r : rule) : Prop :=
  r_id r = r_id r0 /\ r_experimental r = r_experimental r0 /\ r_definition r = r_definition r0 /\ r_init r = r_init r0 /\
  r_match r = r_match r0 /\ r_match_props r = r_match_props r0 /\ r_match_subs r = r_match_subs r0 /\
  (forall t, In t (r_types r0) -> In t (r_types r)) /\ (forall t, In t (r_subtypes r0) -> In t (r_subtypes r)) /\
  (forall t, In t (r_types r) -> In t (r_types r0) \/ exists c, In t (fst (r_init r0 c))) /\
  (forall t, In t (r_subtypes r) -> In t (r_subtypes r0) \/ exists c, In t (snd (r_init r0 c))).
(** The shipped rules are among the rules, and no other rule uses one of their ids. *)
Definition with_shipped (w : world) (all : list rule) : Prop :=
  (forall r0, In r0 (shipped w) -> exists r, In r all /\ same_checks r0 r) /\
  (forall r0 r, In r0 (shipped w) -> In r all -> r_id r = r_id r0 -> same_checks r0 r).
(** There are no other rules. *)
Definition only_shipped (w : world) (all : list rule) : Prop := forall r, In r all -> exists r0, In r0 (shipped w) /\ same_checks r0 r.

(** The rules see the template [c], and no Globals besides it.  Three rules look at what was written before a transform: for them, the
    template has not been transformed. *)
Definition seen_as_is (w : world) (c : cfn) (id : string) : Prop :=
  wants_transform (template c) = false /\ (In id ["W1020"; "W2001"; "W7001"] -> w_before w c = template c) /\ w_globals w c = VDict [].

(** The finding [fi] is placed at the deepest element of the path [q] that the template has a position for. *)
Definition placed (c : cfn) (q : path) (fi : finding) : Prop :=
  (exists n m, position (c_tmpl c) q n m /\ (forall n' m', position (c_tmpl c) q n' m' -> n' <= n) /\
     f_line fi = (sl m + 1)%Z /\ f_col fi = (sc m + 1)%Z /\ f_line_end fi = (el m + 1)%Z /\ f_col_end fi = (ec m + 1)%Z) \/
  ((forall n m, ~ position (c_tmpl c) q n m) /\
     f_line fi = 1%Z /\ f_col fi = 1%Z /\ f_line_end fi = 1%Z /\ f_col_end fi = 1%Z).
Definition finding_of (c : cfn) (id : string) (q : path) (words : string) (fi : finding) : Prop :=
  f_rule fi = id /\ f_msg fi = words /\ f_file fi = c_file c /\ placed c q fi.

(** The report [l] tells, under the id [id], exactly of the faults in [P], except those suppressed in the template; and one
    finding stands for several that have the same text and place. *)
Definition tells_exactly (c : cfn) (mandatory : list string) (ds : list directive) (l : list finding) (id : string)
  (P : path -> string -> Prop) : Prop :=
  (forall fi, In fi l -> f_rule fi = id -> ~ suppressed mandatory ds fi /\ exists q words, P q words /\ finding_of c id q words fi) /\
  (forall q words, P q words -> exists fi, finding_of c id q words fi /\
     (suppressed mandatory ds fi \/ exists u, In u l /\ same_finding fi u)).

(** A run of the linter with the shipped rules on a template, in which the rule [id] is selected. *)
Definition lints (w : world) (sp : spec) (tr : translator) (k : collection) (regions mandatory : list string) (c : cfn)
  (ds : list directive) (id : string) (l : list finding) : Prop :=
  with_shipped w (k_all k) /\ spec_ok sp /\ e0002_selected (k_set k) /\
  selected id false (s_experimental (k_set k)) (s_ignore (k_set k)) (s_include (k_set k)) (s_mandatory (k_set k)) /\
  seen_as_is w c id /\ (exists m d, c_tmpl c = MDict m d) /\ get_directives (c_tmpl c) = Ok ds /\
  snd (run_checks sp tr k regions mandatory c) = Findings l.

(** The types of resources and of nested objects a rule looks at. *)
Definition types_seen (r : rule) (c : cfn) (t : string) : Prop := In t (r_types r) \/ In t (fst (r_init r c)).
Definition subtypes_seen (r : rule) (c : cfn) (t : string) : Prop := In t (r_subtypes r) \/ In t (snd (r_init r c)).
(** The checks of a rule do not look at its settings. *)
Definition unconfigured (r : rule) : Prop :=
  (forall f s c, r_match r = Some f -> f s c = f [] c) /\
  (forall f s c v t p, r_match_props r = Some f -> f s c v t p = f [] c v t p) /\
  (forall f s c v t p, r_match_subs r = Some f -> f s c v t p = f [] c v t p).
(** What the checks of a rule raise on a template: the check of the template as a whole, those of the properties of resources
    and those of the objects nested in them (see Spec/Walk.v). *)
Definition raised (sp : spec) (c : cfn) (r : rule) (m : rulematch) : Prop :=
  (exists f ms, r_match r = Some f /\ f [] c = Ok ms /\ In m ms) \/
  (exists name rt attrs pd f ms, resource_of (template c) name rt attrs /\ assoc "Properties" attrs = Some (VDict pd) /\ types_seen r c rt /\
     r_match_props r = Some f /\ f [] c (VDict pd) rt [PKey "Resources"; PKey name; PKey "Properties"] = Ok ms /\ In m ms) \/
  (exists name rt attrs pd n v q f ms, resource_of (template c) name rt attrs /\ assoc "Properties" attrs = Some (VDict pd) /\
     resource_nested sp rt (VDict pd) [PKey "Resources"; PKey name; PKey "Properties"] n v q /\ ~ is_if v /\ subtypes_seen r c n /\
     r_match_subs r = Some f /\ f [] c v n q = Ok ms /\ In m ms).

(** The properties of the resources of a template, with the type and the place of the resource; and the objects nested in them,
    with the type the specification gives them. *)
Definition properties_of (t : val) (rt : string) (pd : list (string * val)) (p : path) : Prop :=
  exists name attrs, resource_of t name rt attrs /\ assoc "Properties" attrs = Some (VDict pd) /\
    p = [PKey "Resources"; PKey name; PKey "Properties"].
Definition nested_of (sp : spec) (t : val) (n : string) (v : val) (q : path) : Prop :=
  exists rt pd p, properties_of t rt pd p /\ resource_nested sp rt (VDict pd) p n v q /\ ~ is_if v.
(** An object that is looked at with an entry of a table: the properties of a resource whose type is in the table [rts], or an
    object nested in them whose type is in [pts]. *)
Definition object_with {A} (sp : spec) (rts pts : list (string * A)) (t : val) (n : string) (d : list (string * val)) (p : path) (a : A) : Prop :=
  (properties_of t n d p /\ assoc n rts = Some a) \/ (nested_of sp t n (VDict d) p /\ assoc n pts = Some a).
(** What is in the place of such a nested object is an object. *)
Definition objects_nested {A} (sp : spec) (pts : list (string * A)) (t : val) : Prop :=
  forall n v q, nested_of sp t n v q -> In n (keys pts) -> exists d, v = VDict d.
