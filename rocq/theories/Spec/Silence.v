(** Rules that one malformed member of a section keeps from reporting anything (C104). *)
From Verif.Model Require Import Base Locate Helpers Rules.
From Verif.Spec Require Import Paths.
Local Open Scope string_scope.

(** A member of a section that is a text or a list where an object is wanted. *)
Definition no_object (v : val) : Prop := (exists s, v = VStr s) \/ (exists l, v = VList l).
Definition malformed (template : val) (section : string) : Prop :=
  exists n v, at_path [PKey section; PKey n] template = Some v /\ no_object v.
(** The report has a finding of the rule [id]. *)
Definition reports_of (l : list finding) (id : string) : Prop := exists fi, In fi l /\ f_rule fi = id.

(** The rules that need every member of a section to be an object. *)
Definition needing : list (string * list string) :=
  [("Parameters", ["E2001"; "E2002"; "E2012"; "E2015"; "I2012"; "W4002"]);
   ("Resources", ["E1012"; "E3004"; "E8003"; "W2506"]);
   ("Outputs", ["E6001"; "E6005"; "E6012"; "I6012"]);
   ("Mappings", ["E7012"; "I7012"])].

(** The template [t'] is [t] with one more member in a section. *)
Definition one_more (t t' : val) (section n : string) (v : val) : Prop :=
  exists o d, t = VDict o /\ assoc section o = Some (VDict d) /\ assoc n d = None /\ t' = VDict (set_assoc section (VDict (d ++ [(n, v)])) o).
