(** The records of Route 53, and what E3020 says about them (C77). *)
From Coq Require Import List String Ascii ZArith.
From Verif.Model Require Import Base Helpers Relationship.
From Verif.Spec Require Import Paths Branches References Walk Values Permissions Resolved Nested.
Import ListNotations.
Local Open Scope string_scope.

(** * Texts *)
(** [P] holds of the text, or of what comes before a line feed at its end. *)
Definition lined (P : string -> Prop) (s : string) : Prop := P s \/ exists t, s = t ++ String newline_char "" /\ P t.
Definition digit_of (n : nat) : ascii := ascii_of_nat (48 + n).
(** A number in digits, leading zeros allowed. *)
Inductive number : string -> Z -> Prop :=
| nu_one : forall n, n < 10 -> number (String (digit_of n) "") (Z.of_nat n)
| nu_more : forall s z n, number s z -> n < 10 -> number (s ++ String (digit_of n) "") (10 * z + Z.of_nat n).
Definition every (P : ascii -> Prop) (s : string) : Prop := forall a, In a (list_ascii_of_string s) -> P a.
Definition small_number (s : string) : Prop := exists z, number s z /\ (z <= 255)%Z /\ String.length s <= 3.
(** Four numbers up to 255 of at most three digits. *)
Definition ipv4_text (s : string) : Prop := exists a b c d, s = a ++ "." ++ b ++ "." ++ c ++ "." ++ d /\ small_number a /\ small_number b /\ small_number c /\ small_number d.
(** Any characters that can be seen. *)
Definition host_text (s : string) : Prop := s <> "" /\ every (fun a => 33 <= nat_of_ascii a <= 126) s.
Definition validation_text (s : string) : Prop := exists t, without newline_char t /\ (s = t ++ ".acm-validations.aws" \/ s = t ++ ".acm-validations.aws.").
Definition letter_or_digit (a : ascii) : Prop := let n := nat_of_ascii a in 48 <= n <= 57 \/ 65 <= n <= 90 \/ 97 <= n <= 122.
Definition quote : string := """".
Definition quotable (s : string) : Prop := without """" s /\ 1 <= String.length s <= 255.
(** Quoted texts of 1 to 255 characters, with any number of spaces between them. *)
Inductive quoted : string -> Prop :=
| qu_one : forall s, quotable s -> quoted (quote ++ s ++ quote)
| qu_more : forall s gap rest, quotable s -> every (fun a => a = " "%char) gap -> quoted rest -> quoted (quote ++ s ++ quote ++ gap ++ rest).

(** * Faults *)
(** The settings of a CAA record. *)
Definition three_settings (s a b c : string) : Prop := s = a ++ " " ++ b ++ " " ++ c /\ without " " a /\ without " " b.
Inductive caa_fault (s : string) : string -> Prop :=
| cf_one : without " " s -> caa_fault s "CAA record must contain 3 settings (flags tag ""value""), record contains 1 settings."
| cf_two : forall a b, s = a ++ " " ++ b -> without " " a -> without " " b -> caa_fault s "CAA record must contain 3 settings (flags tag ""value""), record contains 2 settings."
| cf_flag : forall a b c, three_settings s a b c -> (forall z, ~ number a z) -> caa_fault s ("CAA record flag setting (" ++ a ++ ") should be of type Integer.")
| cf_other_flag : forall a b c z, three_settings s a b c -> number a z -> z <> 0%Z -> z <> 128%Z -> caa_fault s ("Invalid CAA record flag setting (" ++ a ++ ") given, must be 0 or 128.")
| cf_tag : forall a b c, three_settings s a b c -> ~ lined (every letter_or_digit) b -> caa_fault s ("Invalid CAA record tag setting " ++ b ++ ". Value has to be alphanumeric.")
| cf_value : forall a b c, three_settings s a b c -> (forall t, c <> quote ++ t) \/ (forall t, c <> t ++ quote) ->
    caa_fault s "CAA record value setting has to be enclosed in double quotation marks ("").".
(** The parts of an MX record. *)
Inductive mx_fault (s : string) : string -> Prop :=
| mf_count : forall l, l <> [] -> (forall x, In x l -> without " " x) -> s = String.concat " " l -> List.length l <> 2 ->
    mx_fault s ("MX record must contain 2 settings (priority domainname), record contains " ++ str_of_Z (Z.of_nat (List.length l)) ++ " settings.")
| mf_priority : forall a b, s = a ++ " " ++ b -> without " " a -> without " " b -> (forall z, ~ number a z) -> mx_fault s ("MX record priority setting (" ++ a ++ ") should be of type Integer.")
| mf_large : forall a b z, s = a ++ " " ++ b -> without " " a -> without " " b -> number a z -> (65535 < z)%Z ->
    mx_fault s ("Invalid MX record priority setting (" ++ a ++ ") given, must be between 0 and 65535.")
(** A bad name is reported in the words for a bad priority. *)
| mf_name_priority : forall a b, s = a ++ " " ++ b -> without " " a -> without " " b -> (forall z, ~ number a z) -> ~ lined host_text b ->
    mx_fault s ("MX record priority setting (" ++ b ++ ") should be of type Integer.")
| mf_name_large : forall a b z, s = a ++ " " ++ b -> without " " a -> without " " b -> number a z -> (65535 < z)%Z -> ~ lined host_text b ->
    mx_fault s ("Invalid MX record priority setting (" ++ b ++ ") given, must be between 0 and 65535.").
(** What is wrong with the text [s] at [q] as a record of type [ty]. *)
Inductive record_fault (ipv6 : string -> bool) (q : path) : string -> string -> string -> Prop :=
| rf_a : forall s, ~ lined ipv4_text s -> record_fault ipv6 q "A" s ("A record (" ++ s ++ ") is not a valid IPv4 address")
| rf_aaaa : forall s, ipv6 s = false -> record_fault ipv6 q "AAAA" s ("AAAA record (" ++ s ++ ") is not a valid IPv6 address")
| rf_ns : forall s, ~ lined host_text s -> record_fault ipv6 q "NS" s ("NS record (" ++ s ++ ") is not a valid domain name")
| rf_ptr : forall s, ~ lined host_text s -> record_fault ipv6 q "PTR" s ("PTR record (" ++ s ++ ") is not a valid domain name")
| rf_cname : forall s, ~ lined host_text s -> ~ lined validation_text s -> record_fault ipv6 q "CNAME" s ("CNAME record (" ++ s ++ ") does not contain a valid domain name")
| rf_caa : forall s words, caa_fault s words -> record_fault ipv6 q "CAA" s words
| rf_mx : forall s words, mx_fault s words -> record_fault ipv6 q "MX" s words
| rf_txt : forall s, ~ lined quoted s -> record_fault ipv6 q "TXT" s ("TXT record is not structured as one or more items up to 255 characters enclosed in double quotation marks at " ++ path_text q).

(** * Record sets *)
Inductive record_set (t : val) : list (string * val) -> path -> Prop :=
| rs_resource : forall name attrs d, resource_of t name "AWS::Route53::RecordSet" attrs -> assoc "Properties" attrs = Some (VDict d) ->
    record_set t d [PKey "Resources"; PKey name; PKey "Properties"]
| rs_group : forall name attrs pd l i d, resource_of t name "AWS::Route53::RecordSetGroup" attrs -> assoc "Properties" attrs = Some (VDict pd) ->
    assoc "RecordSets" pd = Some (VList l) -> nth_error l i = Some (VDict d) ->
    record_set t d [PKey "Resources"; PKey name; PKey "Properties"; PKey "RecordSets"; PIdx i].
(** The record sets of type [ty] that are no aliases and have records. *)
Definition records_of (d : list (string * val)) (ty : string) (x : val) : Prop :=
  assoc "Type" d = Some (VStr ty) /\ (assoc "AliasTarget" d = None \/ exists y, assoc "AliasTarget" d = Some y /\ truthy y = false) /\ assoc "ResourceRecords" d = Some x /\ truthy x = true.
Definition records_shaped (t : val) : Prop :=
  (forall name attrs, resource_of t name "AWS::Route53::RecordSet" attrs -> assoc "Properties" attrs = None \/ exists d, assoc "Properties" attrs = Some (VDict d)) /\
  (forall name attrs, resource_of t name "AWS::Route53::RecordSetGroup" attrs -> assoc "Properties" attrs = None \/ exists d, assoc "Properties" attrs = Some (VDict d) /\
     forall l x, assoc "RecordSets" d = Some (VList l) -> In x l -> exists y, x = VDict y) /\
  (forall d p ty x, record_set t d p -> records_of d ty x ->
     (forall q, ~ alternative x (p ++ [PKey "ResourceRecords"])%list VNull q) /\
     (ty = "CNAME" \/ ty = "TXT" -> forall w r, single x (p ++ [PKey "ResourceRecords"])%list w r -> (exists s, w = VStr s) \/ exists e, w = VDict e) /\
     (ty = "MX" -> forall s r a b, single x (p ++ [PKey "ResourceRecords"])%list (VStr s) r -> s = a ++ " " ++ b -> without " " a -> without " " b -> lined host_text b \/ forall z, number a z -> (65535 < z)%Z)).
(** The records of a CNAME are a list or a call, and rest on no condition. *)
Definition unconditional_names (t globals : val) : Prop :=
  forall d p x, record_set t d p -> records_of d "CNAME" x -> plain_path p /\ at_path (p ++ [PKey "ResourceRecords"])%list globals = None /\ tidy x /\ (forall n, ~ rests_on x n) /\
    ((exists l, x = VList l) \/ exists k y, x = VDict [(k, y)] /\ x <> no_value).
