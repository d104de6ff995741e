(** What get_resource_properties finds, and what E2504, E3013 and E3042 say (C75). *)
From Coq Require Import List String Ascii ZArith.
From Verif.Model Require Import Base Helpers Rules.
From Verif.Spec Require Import Branches References Walk Values Permissions.
Import ListNotations.
Local Open Scope string_scope.

(** [reached ks v p w q]: following the names [ks] from the value [v] at [p], through the items of lists, one can come to [w] at [q]. *)
Inductive reached : list string -> val -> path -> val -> path -> Prop :=
| re_here : forall v p, reached [] v p v p
| re_member : forall k ks d p x w q, assoc k d = Some x -> reached ks x (p ++ [PKey k])%list w q -> reached (k :: ks) (VDict d) p w q
| re_item : forall k ks l p i d w q, nth_error l i = Some (VDict d) -> ~ is_if (VDict d) ->
    reached (k :: ks) (VDict d) (p ++ [PIdx i])%list w q -> reached (k :: ks) (VList l) p w q
| re_branch : forall k ks l p i x y r w q, nth_error l i = Some x -> is_if x -> alternative x (p ++ [PIdx i])%list y r ->
    reached (k :: ks) y r w q -> reached (k :: ks) (VList l) p w q.
(** [part_of v w]: [w] is a part of [v], in some branch of the conditions among the items of lists. *)
Inductive part_of (v : val) : val -> Prop :=
| pt_self : part_of v v
| pt_item : forall l x, part_of v (VList l) -> In x l -> ~ is_if x -> part_of v x
| pt_branch : forall l x p y r, part_of v (VList l) -> In x l -> is_if x -> alternative x p y r -> part_of v y
| pt_member : forall d k x, part_of v (VDict d) -> In (k, x) d -> k <> "Fn::If" -> part_of v x.
(** No item of a list is an object with just one member, unless it is a condition or no value. *)
Definition roomy (v : val) : Prop := forall l k x, part_of v (VList l) -> In (VDict [(k, x)]) l -> k = "Fn::If" \/ VDict [(k, x)] = VDict [("Ref", VStr "AWS::NoValue")].
(** [property_at t rt key x q]: a resource of type [rt] has the property [key], which is [x] at [q]. *)
Definition property_at (t : val) (rt key : string) (x : val) (q : path) : Prop :=
  exists name attrs pd, resource_of t name rt attrs /\ assoc "Properties" attrs = Some (VDict pd) /\ assoc key pd = Some x /\
    q = [PKey "Resources"; PKey name; PKey "Properties"; PKey key].
(** The properties of resources of type [rt] are no lists. *)
Definition unlisted (t : val) (rt : string) : Prop := forall name attrs l, resource_of t name rt attrs -> assoc "Properties" attrs <> Some (VList l).

(** * Block devices *)
Definition device_types : list string := ["AWS::EC2::Instance"; "AWS::AutoScaling::LaunchConfiguration"].
(** The names ephemeral0 to ephemeral23. *)
Definition ephemeral_name (s : string) : Prop := exists n, n < 24 /\ (s = "ephemeral" ++ str_of_Z (Z.of_nat n) \/ s = "ephemeral" ++ str_of_Z (Z.of_nat n) ++ String newline_char "").
Definition left_out (key : string) (d : list (string * val)) : Prop := assoc key d = None \/ assoc key d = Some VNull.
Inductive device_fault (d : list (string * val)) (p : path) : path -> string -> Prop :=
| df_name : forall s, assoc "VirtualName" d = Some (VStr s) -> s <> "" -> ~ ephemeral_name s ->
    device_fault d p (p ++ [PKey "VirtualName"])%list "Property VirtualName should be of type ephemeral(n) for "
| df_missing : forall e x r, left_out "VirtualName" d \/ assoc "VirtualName" d = Some (VStr "") -> assoc "Ebs" d = Some (VDict e) ->
    assoc "VolumeType" e = Some x -> single x [] (VStr "io1") r -> left_out "Iops" e ->
    device_fault d p (p ++ [PKey "Ebs"; PKey "VolumeType"])%list "VolumeType io1 requires Iops to be specified for "
| df_unwanted : forall e x s r, left_out "VirtualName" d \/ assoc "VirtualName" d = Some (VStr "") -> assoc "Ebs" d = Some (VDict e) ->
    assoc "VolumeType" e = Some x -> single x [] (VStr s) r -> s <> "io1" -> s <> "" -> ~ left_out "Iops" e ->
    device_fault d p (p ++ [PKey "Ebs"; PKey "Iops"])%list ("Iops shouldn't be defined for type " ++ s ++ " for ").
(** Block devices that are objects with texts for names, and volumes no branch of whose types and rates is null. *)
Definition devices_shaped (t : val) : Prop :=
  forall rt l q, In rt device_types -> property_at t rt "BlockDeviceMappings" (VList l) q ->
    forall x, In x l -> exists d, x = VDict d /\ (left_out "VirtualName" d \/ exists s, assoc "VirtualName" d = Some (VStr s)) /\
      forall e key y r, assoc "Ebs" d = Some (VDict e) -> In key ["VolumeType"; "Iops"] -> assoc key e = Some y -> y = VNull \/ ~ alternative y [] VNull r.

(** * Aliases *)
Definition low_letter (a : ascii) : Prop := digit_letter a \/ exists n, 97 <= n <= 122 /\ a = ascii_of_nat n.
(** Small letters, digits and hyphens, of which the last is no hyphen. *)
Definition ending (s : string) : Prop :=
  (forall a, In a (list_ascii_of_string s) -> low_letter a \/ a = "-"%char) /\ exists before a, s = before ++ String a "" /\ low_letter a.
(** A label that is not the last: it may begin with a star. *)
Definition label (s : string) : Prop :=
  String.length s <= 63 /\ exists a rest, s = String a rest /\ (low_letter a \/ a = "*"%char) /\ (rest = "" \/ ending rest).
(** The last label has two characters or more. *)
Definition last_label (s : string) : Prop :=
  String.length s <= 63 /\ exists a rest, s = String a rest /\ low_letter a /\ ending rest.
Definition domain_name (s : string) : Prop :=
  exists l z, l <> [] /\ (forall x, In x l -> label x) /\ last_label z /\ (s = String.concat "." (l ++ [z]) \/ s = String.concat "." (l ++ [z]) ++ String newline_char "").
(** A star that is a label, but not the first. *)
Definition late_star (s : string) : Prop := (exists before, s = before ++ ".*") \/ (exists before after, s = before ++ ".*." ++ after).
Inductive alias_fault (s : string) : string -> Prop :=
| af_star : late_star s -> alias_fault s ("Invalid use of wildcards: " ++ s)
| af_name : ~ domain_name s -> alias_fault s ("Invalid alias found: " ++ s).
(** Distributions with an object for a configuration and a list of aliases, or a call, in it, without braces in the texts. *)
Definition aliases_shaped (t : val) : Prop :=
  forall x q, property_at t "AWS::CloudFront::Distribution" "DistributionConfig" x q -> exists d, x = VDict d /\
    forall a, assoc "Aliases" d = Some a -> a = VNull \/ is_call a \/ exists l, a = VList l /\ forall s, In (VStr s) l -> ~ In s FUNCTIONS /\ without "{" s /\ without "}" s.

(** * Containers *)
(** Containers that are objects in which Essential is a switch or a call. *)
Definition containers_shaped (t : val) : Prop :=
  forall x q, property_at t "AWS::ECS::TaskDefinition" "ContainerDefinitions" x q -> is_call x \/
    exists l, x = VList l /\ forall y, In y l -> exists d, y = VDict d /\ forall e, assoc "Essential" d = Some e -> is_call e \/ exists b, e = VBool b.
(** None of the containers can be essential: each says that it is not. *)
Definition none_essential (l : list val) : Prop := forall y d, In y l -> y = VDict d -> assoc "Essential" d = Some (VBool false).
