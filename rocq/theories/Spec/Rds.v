(** Which classes a database instance can have. *)
From Coq Require Import List.
From Verif.Model Require Import Base.
From Verif.Spec Require Import Paths Branches Required Walk.
Import ListNotations.
Local Open Scope string_scope.

Section Rds.
Variable table : list (string * list (string * list (string * list string))).
Variable regions : list string.
(** [offers license engine region classes]: the table knows the classes. *)
Definition offers (license engine region : string) (classes : list string) : Prop :=
  exists engines rs, assoc license table = Some engines /\ assoc engine engines = Some rs /\ assoc region rs = Some classes.
Definition has_engine (license engine : string) : Prop := exists engines rs, assoc license table = Some engines /\ assoc engine engines = Some rs.
(** [licensed d engine l]: the license of the instance [d], given or by default. *)
Inductive licensed (d : list (string * val)) (engine : string) : string -> Prop :=
| li_given l : assoc "LicenseModel" d = Some (VStr l) -> l <> "" -> licensed d engine l
| li_included : (forall v, assoc "LicenseModel" d = Some v -> truthy v = false) -> has_engine "license-included" engine -> licensed d engine "license-included"
| li_own : (forall v, assoc "LicenseModel" d = Some v -> truthy v = false) -> ~ has_engine "license-included" engine -> has_engine "bring-your-own-license" engine ->
    licensed d engine "bring-your-own-license"
| li_public : (forall v, assoc "LicenseModel" d = Some v -> truthy v = false) -> ~ has_engine "license-included" engine -> ~ has_engine "bring-your-own-license" engine ->
    licensed d engine "general-public-license".
(** [class_fault d words]: a class that a region of the run does not offer. *)
Inductive class_fault (d : list (string * val)) : string -> Prop :=
| cf engine class license region classes :
    assoc "Engine" d = Some (VStr engine) -> assoc "DBInstanceClass" d = Some (VStr class) -> licensed d engine license ->
    In region regions -> offers license engine region classes -> ~ In class classes ->
    class_fault d ("DBInstanceClass """ ++ class ++ """ is not compatible with engine type """ ++ engine ++ """ and LicenseModel """ ++ license ++
                   """ in region """ ++ region ++ """. Use instance types [" ++ String.concat ", " classes ++ "]").
(** [db_instance t name d q]: the properties of the instance [name], under some conditions, are [d] at [q]. *)
Definition db_instance (t : val) (name : string) (d : list (string * val)) (q : path) : Prop :=
  exists attrs pd, resource_of t name "AWS::RDS::DBInstance" attrs /\ assoc "Properties" attrs = Some (VDict pd) /\
    branch (VDict pd) [PKey "Resources"; PKey name; PKey "Properties"] (VDict d) q.
(** All instances have properties, which are objects under all conditions, and the table has both licenses. *)
Definition instances_shaped (t : val) : Prop :=
  assoc "license-included" table <> None /\ assoc "bring-your-own-license" table <> None /\
  forall name attrs, resource_of t name "AWS::RDS::DBInstance" attrs ->
    exists pd, assoc "Properties" attrs = Some (VDict pd) /\
      forall p w q, branch (VDict pd) p w q -> exists d, w = VDict d.
End Rds.
