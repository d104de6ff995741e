(** C24 Logical names are alphanumeric. *)
From Verif.Model Require Import Base Limits.
From Verif.Spec Require Import Limited.
From Verif.Proofs Require Import LimitProofs.

(** A name in a section is reported exactly when it is not alphanumeric.  Missing for the full property: names that end in
    a line feed (refuted below). *)
Theorem bad_names_are_reported_partial : forall template s ms, section template s ms ->
  (forall n x, In (n, x) ms -> forall t, n <> (t ++ String "010" "")%string) ->
  exists rs, alphanumeric_name template s = Ok rs /\
  forall m, In m rs <-> exists n x, In (n, x) ms /\ ~ alphanumeric n /\
    m = mkRM [PKey s; PKey n] (singular s ++ " " ++ n ++ " has invalid name.  Name has to be alphanumeric.")%string.
Proof. exact c24_all. Qed.
Print Assumptions bad_names_are_reported_partial.

Theorem absent_sections_are_not_reported : forall template d s,
  template = VDict d -> assoc s d = None -> alphanumeric_name template s = Ok [].
Proof. exact c24_absent. Qed.
Print Assumptions absent_sections_are_not_reported.

(** The same for the second-level keys of mappings. *)
Theorem bad_mapping_keys_are_reported_partial : forall template ms, section template "Mappings" ms ->
  (forall n m k x a y, In (n, VDict m) ms -> In (k, VDict x) m -> In (a, y) x -> forall t, a <> (t ++ String "010" "")%string) ->
  exists rs, key_name_match template = Ok rs /\
  forall r, In r rs <-> exists n m k x a y, In (n, VDict m) ms /\ In (k, VDict x) m /\ In (a, y) x /\ ~ alphanumeric a /\
    r = mkRM [PKey "Mappings"; PKey n; PKey k; PKey a] ("Mapping key (" ++ a ++ ") has invalid name. Name has to be alphanumeric.")%string.
Proof. exact c24_keys. Qed.
Print Assumptions bad_mapping_keys_are_reported_partial.

(** A name that ends in a line feed is not reported. *)
Theorem bad_names_are_reported_refuted : exists template n x ms,
  section template "Resources" ms /\ In (n, x) ms /\ ~ alphanumeric n /\ alphanumeric_name template "Resources" = Ok [].
Proof. exact c24_newline. Qed.
Print Assumptions bad_names_are_reported_refuted.

Example crowded_resources_are_reported : alphanumeric_name crowded "Resources"
  = Ok [mkRM [PKey "Resources"; PKey "Bad-Name"] "Resource Bad-Name has invalid name.  Name has to be alphanumeric."].
Proof. exact (proj1 (proj2 crowded_names)). Qed.
Example crowded_keys_are_reported : key_name_match crowded
  = Ok [mkRM [PKey "Mappings"; PKey "Map_1"; PKey "east"; PKey "a-b"] "Mapping key (a-b) has invalid name. Name has to be alphanumeric."].
Proof. exact (proj2 (proj2 (proj2 crowded_names))). Qed.
