(** Text that spells true (C36). *)
From Coq Require Import List String Ascii.
Local Open Scope char_scope.

Definition spells_true (s : string) : Prop :=
  exists t r u e, s = String t (String r (String u (String e EmptyString))) /\
    (t = "t" \/ t = "T") /\ (r = "r" \/ r = "R") /\ (u = "u" \/ u = "U") /\ (e = "e" \/ e = "E").
