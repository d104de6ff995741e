(** C23 Limits. *)
From Verif.Model Require Import Base Helpers Rules Limits.
From Verif.Spec Require Import Limited.
From Verif.Proofs Require Import LimitProofs.

(** The rules E7010..E1003 report exactly the quantities above their limit and the rules I7010..I1003 exactly those above
    90% of it. *)
Theorem limits_are_reported_exactly_partial : forall template size, documented template ->
  forall number, In number ["7010"; "7011"; "7012"; "6010"; "6011"; "6012"; "2010"; "2011"; "2012"; "3010"; "3011"; "1002"; "1003"] ->
  exists es is, limit_rule template Exceeds size number = Some (Ok es) /\ limit_rule template Approaches size number = Some (Ok is) /\
  (forall m, In m es <-> exists q, limited template size number q /\ exceeds q /\ m = mkRM (q_where q)
     (q_what q ++ " (" ++ str_of_Z (q_size q) ++ q_unit q ++ ") exceeds the limit (" ++ str_of_Z (q_limit q) ++ q_unit q ++ ")")%string) /\
  (forall m, In m is <-> exists q, limited template size number q /\ approaches q /\ m = mkRM (q_where q)
     (q_what q ++ " (" ++ str_of_Z (q_size q) ++ q_unit q ++ ") is approaching the limit (" ++ str_of_Z (q_limit q) ++ q_unit q ++ ")")%string).
Proof. exact c23_all. Qed.
Print Assumptions limits_are_reported_exactly_partial.

Theorem never_both : forall q, ~ (exceeds q /\ approaches q).
Proof. exact c23_exclusive. Qed.
Print Assumptions never_both.

(** Missing above: templates that lack the documented shape, for which a rule may end with an exception. *)
Theorem limits_are_reported_exactly_refuted : exists template,
  (documented template -> False) /\ limit_rule template Exceeds None "7012" = Some (Err ETemplateAttribute).
Proof. exact c23_size_shapes. Qed.
Print Assumptions limits_are_reported_exactly_refuted.

Example crowded_meets_the_hypotheses : documented crowded.
Proof. exact crowded_documented. Qed.
Example crowded_is_reported : limit_rule crowded Exceeds (Some 950000%Z) "3011"
  = Some (Ok [mkRM [PKey "Resources"; PKey (copies 256 "r")] "The length of Resource name (256) exceeds the limit (255)"]).
Proof. exact (proj1 crowded_reports). Qed.
