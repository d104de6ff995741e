(** Parameters behind properties, and outputs that are imported (C69). *)
From Coq Require Import List String.
From Verif.Model Require Import Base Helpers PropertyRules ValueRules.
From Verif.Spec Require Import Branches Attributes References Values.
Import ListNotations.
Local Open Scope string_scope.

(** What is at [r], in a resource, is there under every condition: neither it nor the resource depends on one. *)
Definition unconditioned (template : val) (r : path) : Prop :=
  ~ In (PKey "Fn::If") r /\
  exists n o rest, r = PKey "Resources" :: PKey n :: rest /\ defined_in "Resources" template n o /\ ~ In "Condition" (keys o).
(** A value of a property with the specification [ps] is, unconditionally, a Ref to [n]. *)
Definition refers (template : val) (props : list (string * val)) (specs : pspecs) (p : path) (ps : pspec) (n : string) : Prop :=
  exists prop x q r, property_of (VDict props) p prop x q /\ assoc prop specs = Some ps /\
    single x (q ++ [PKey prop])%list (VDict [("Ref", VStr n)]) r /\ unconditioned template r.
(** Such references name something. *)
Definition refs_are_names (props : list (string * val)) (p : path) : Prop :=
  forall prop x q r y, property_of (VDict props) p prop x q -> single x (q ++ [PKey prop])%list (VDict [("Ref", y)]) r -> exists n, y = VStr n.
(** A parameter that takes one value, given when the template is used. *)
Definition takes_one (template : val) (n : string) (o : list (string * val)) : Prop :=
  defined_in "Parameters" template n o /\
  exists t, assoc "Type" o = Some (VStr t) /\ ~ begins "List<" t /\ ~ begins "AWS::SSM::Parameter::Value<" t /\ t <> "CommaDelimitedList".
Definition allowed_lists (template : val) : Prop :=
  forall n o v, defined_in "Parameters" template n o -> assoc "AllowedValues" o = Some v -> exists l, v = VList l.
(** A value that the definition [o] of the parameter [n] allows, or its default, is not one that is [fine].  Defaults that are
    empty are not judged. *)
Inductive unfit (fine : val -> Prop) (n : string) (o : list (string * val)) : string -> path -> val -> Prop :=
| un_allowed : forall l j v, assoc "AllowedValues" o = Some (VList l) -> nth_error l j = Some v -> ~ fine v ->
    unfit fine n o "allowed" [PKey "Parameters"; PKey n; PKey "AllowedValues"; PIdx j] v
| un_default : forall v, assoc "Default" o = Some v -> truthy v = true -> ~ fine v ->
    unfit fine n o "Default" [PKey "Parameters"; PKey n; PKey "Default"] v.

(** The parameter is not bounded: it has no allowed values, and lacks one of the bounds, or the bound is 0 or empty. *)
Definition given (o : list (string * val)) (k : string) : Prop := exists v, assoc k o = Some v /\ truthy v = true.
Definition unbounded (template : val) (n : string) : Prop :=
  exists o, defined_in "Parameters" template n o /\ ~ given o "AllowedValues" /\ ~ (given o "MinValue" /\ given o "MaxValue").

(** The value of an output is imported, or contains an import in what it imports. *)
Definition imported_output (p : path) (n : pelem) : Prop :=
  exists rest, p = PKey "Outputs" :: n :: PKey "Value" :: PKey "Fn::ImportValue" :: rest.
