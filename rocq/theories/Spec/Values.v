(** The values of properties: those the specification allows, their types, and what they may refer to (C57-C62). *)
From Coq Require Import List String ZArith.
From Verif.Model Require Import Base Helpers PropertyRules ValueRules.
From Verif.Spec Require Import Branches.
Import ListNotations.
Local Open Scope string_scope.

(** A call of an intrinsic function: an object with one member, which has the name of a function. *)
Definition call_of (w : val) (fn : string) (arg : val) : Prop := w = VDict [(fn, arg)] /\ In fn FUNCTIONS.
Definition is_call (w : val) : Prop := exists fn arg, call_of w fn arg.
(** [property_of v p prop x q]: an object that [v], at [p], can become is at [q] and has the property [prop] with value [x]. *)
Definition property_of (v : val) (p : path) (prop : string) (x : val) (q : path) : Prop :=
  exists d, branch v p (VDict d) q /\ assoc prop d = Some x.
(** No choice of branches makes a property of it null. *)
Definition no_null_property (v : val) (p : path) : Prop :=
  forall prop x q r, property_of v p prop x q -> ~ alternative x (q ++ [PKey prop])%list VNull r.
(** The specification [ps] of a property names, under [key], a value type with the restrictions [vr]. *)
Definition restricts (vs : list (string * vrule)) (key : string) (ps : pspec) (vr : vrule) : Prop :=
  exists t, assoc key (ps_value ps) = Some t /\ assoc t vs = Some vr.
(** The beginning of a dynamic reference is somewhere in the text. *)
Definition mentions_resolve (s : string) : Prop := exists before after, s = before ++ "{{resolve:" ++ after.

(** A scalar value other than null. *)
Definition has_text (v : val) : Prop := is_null v = false /\ is_list v = false /\ is_dict v = false.

(** * Primitive types *)
Section Types.
Variable int_ok float_ok : string -> bool.
Variable strict : bool.
Definition basic_types : list string := ["String"; "Boolean"; "Double"; "Integer"; "Long"].
(** The values of a primitive type.  Without [strict], also what can be converted. *)
Inductive of_type : string -> val -> Prop :=
| ot_string : forall s, of_type "String" (VStr s)
| ot_boolean : forall b, of_type "Boolean" (VBool b)
| ot_integer : forall z, of_type "Integer" (VInt z)
| ot_integer_bool : forall b, of_type "Integer" (VBool b)
| ot_long : forall z, of_type "Long" (VInt z)
| ot_long_bool : forall b, of_type "Long" (VBool b)
| ot_double_int : forall z, of_type "Double" (VInt z)
| ot_double_bool : forall b, of_type "Double" (VBool b)
| ot_double : forall q, of_type "Double" (VFloat q)
| ot_other : forall t v, ~ In t basic_types -> is_list v = false -> of_type t v
| ot_any_string : forall v, strict = false -> of_type "String" v
| ot_boolean_text : forall s, strict = false -> In s ["True"; "true"; "False"; "false"] -> of_type "Boolean" (VStr s)
| ot_integer_text : forall s, strict = false -> int_ok s = true -> of_type "Integer" (VStr s)
| ot_integer_float : forall q, strict = false -> of_type "Integer" (VFloat q)
| ot_long_text : forall s, strict = false -> int_ok s = true -> of_type "Long" (VStr s)
| ot_double_text : forall s, strict = false -> float_ok s = true -> of_type "Double" (VStr s).
End Types.
(** The primitive type of a property, or of its items. *)
Definition has_primitive (ps : pspec) (t : string) : Prop :=
  t <> "" /\ (ps_primitive ps = Some t \/ (ps_primitive ps = None \/ ps_primitive ps = Some "") /\ ps_primitive_item ps = Some t).
(** The places where the specification is lax: the parameters of nested stacks and the variables of functions. *)
Definition lax_place (type prop : string) : Prop :=
  (type = "AWS::CloudFormation::Stack" /\ prop = "Parameters") \/ (type = "AWS::Lambda::Function.Environment" /\ prop = "Variables").
Definition strict_at (strict : bool) (type prop : string) (b : bool) : Prop := b = true <-> (strict = true /\ ~ lax_place type prop).
(** The primitive values in a value of a property: itself if it is no object, or the members of a map. *)
Inductive primitive_in (ps : pspec) : val -> path -> val -> path -> Prop :=
| pi_value : forall w r, ps_type ps <> Some "Map" -> is_dict w = false -> primitive_in ps w r w r
| pi_member : forall d r k y, ps_type ps = Some "Map" -> ~ is_call (VDict d) -> In (k, y) d -> is_dict y = false -> primitive_in ps (VDict d) r y (r ++ [PKey k])%list.

(** * Dynamic references *)
Definition newline_char : ascii := "010".
Definition single_line (s line : string) : Prop :=
  (s = line \/ s = line ++ String newline_char "") /\ ~ In newline_char (list_ascii_of_string line).
Definition name_letter (a : ascii) : Prop :=
  (exists n, (48 <= n <= 57 \/ 65 <= n <= 90 \/ 97 <= n <= 122) /\ a = ascii_of_nat n) \/ In a ["_"; "."; "-"; "/"]%char.
Definition digit_letter (a : ascii) : Prop := exists n, 48 <= n <= 57 /\ a = ascii_of_nat n.
Definition nonempty_of (P : ascii -> Prop) (s : string) : Prop := s <> "" /\ forall a, In a (list_ascii_of_string s) -> P a.
(** A text of one line that contains a reference to a version of a parameter of the service [service]. *)
Definition versioned_reference (service s : string) : Prop :=
  exists line before name version after, single_line s line /\
    line = before ++ "{{resolve:" ++ service ++ ":" ++ name ++ ":" ++ version ++ "}}" ++ after /\
    nonempty_of name_letter name /\ nonempty_of digit_letter version.
(** A text of one line that contains any reference. *)
Definition dynamic_reference (s : string) : Prop :=
  exists line before what after, single_line s line /\ line = before ++ "{{resolve:" ++ what ++ "}}" ++ after /\ what <> "".
(** The properties that take secure references. *)
Definition secure_places : list (string * string) :=
  [("AWS::DirectoryService::MicrosoftAD", "Password"); ("AWS::DirectoryService::SimpleAD", "Password");
   ("AWS::ElastiCache::ReplicationGroup", "AuthToken"); ("AWS::IAM::User.LoginProfile", "Password");
   ("AWS::KinesisFirehose::DeliveryStream.RedshiftDestinationConfiguration", "Password"); ("AWS::OpsWorks::App.Source", "Password");
   ("AWS::OpsWorks::Stack.RdsDbInstance", "DbPassword"); ("AWS::OpsWorks::Stack.Source", "Password");
   ("AWS::RDS::DBCluster", "MasterUserPassword"); ("AWS::RDS::DBInstance", "MasterUserPassword");
   ("AWS::Redshift::Cluster", "MasterUserPassword")].
(** The texts in a value of a property: itself, the members of a map, or the text of a Fn::Sub. *)
Inductive text_in (ps : pspec) : val -> path -> string -> path -> Prop :=
| ti_value : forall s r, ps_type ps <> Some "Map" -> text_in ps (VStr s) r s r
| ti_member : forall d r k s, ps_type ps = Some "Map" -> ~ is_call (VDict d) -> In (k, VStr s) d -> text_in ps (VDict d) r s (r ++ [PKey k])%list
| ti_sub : forall s r, text_in ps (VDict [("Fn::Sub", VStr s)]) r s (r ++ [PKey "Fn::Sub"])%list
| ti_sub_list : forall s l r, text_in ps (VDict [("Fn::Sub", VList (VStr s :: l))]) r s (r ++ [PKey "Fn::Sub"; PIdx 0])%list.
