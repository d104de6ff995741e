(** C38 DependsOn. *)
From Verif.Model Require Import Base Rules Search Conditions Resolve Relationship Policies.
From Verif.Spec Require Import Paths Resolved References Limited ConditionUse ParameterUse Faults Booleans Protect.
From Verif.Proofs Require Import PolicyProofs.
Import Verif.Model.Rules.
Local Open Scope string_scope.

(** Entries that name no resource of the template.  This is for resources without a Condition.  Missing for the full property: empty values (refuted below); the next theorem covers conditions. *)
Theorem depends_on_is_checked_partial : forall order c template, wf template -> depends_given template -> plain_conditions template ->
  (forall n o, resource template n o -> n <> "Fn::If" /\ assoc "Condition" o = None) ->
  exists ms, depends_on_match order c template = Ok ms /\
  forall m, In m ms <-> exists n v, depends_entry template n (rm_path m) v /\ depends_fault template (rm_path m) v (rm_msg m).
Proof. exact c38_plain. Qed.
Print Assumptions depends_on_is_checked_partial.

(** With conditions there is also a report for each case found in which the named resource does not exist (C33). *)
Theorem conditional_depends_on_is_checked_partial : forall order c template, wf template -> depends_given template ->
  (forall n p s, depends_entry template n p (VStr s) -> (exists o, resource template s o) -> exists scs, is_resource_available order c template p s = Ok scs) ->
  exists ms, depends_on_match order c template = Ok ms /\
  forall m, In m ms <-> exists n p v, depends_entry template n p v /\
    (depends_fault template p v (rm_msg m) /\ rm_path m = p \/
     exists s scs sc, v = VStr s /\ (exists o, resource template s o) /\ is_resource_available order c template p s = Ok scs /\ In sc scs /\ sc <> [] /\
       m = mkRM p ("DependsOn " ++ s ++ " may not exist when condition " ++ scenario_text (sort_scenario sc) ++ " at " ++ shown p)).
Proof. exact c38_depends. Qed.
Print Assumptions conditional_depends_on_is_checked_partial.

(** Redundant entries.  Missing for the full property: Fn::GetAtt in its text form and empty Fn::GetAtt (refuted below). *)
Theorem obsolete_depends_on_is_checked_partial : forall show template globals, wf template -> wf globals -> depends_given template ->
  (forall n p v, depends_entry template n p v -> exists s, v = VStr s) ->
  (forall p v, occurs "Fn::GetAtt" template globals p v -> exists s rest, v = VList (VStr s :: rest)) ->
  exists ms, obsolete_match show template globals = Ok ms /\
  forall m, In m ms <-> exists n p s why q, depends_entry template n p (VStr s) /\ refers template globals n s why q /\
    m = mkRM p ("Obsolete DependsOn on resource (" ++ s ++ "), dependency already enforced by a """ ++ why ++ """ at " ++ shown q).
Proof. exact c38_obsolete. Qed.
Print Assumptions obsolete_depends_on_is_checked_partial.

(** An empty name is not reported. *)
Theorem depends_on_is_checked_refuted : exists template n p v, wf template /\ depends_entry template n p v /\ (exists msg, depends_fault template p v msg) /\ forall order c, depends_on_match order c template = Ok [].
Proof. exact c38_empty. Qed.
Print Assumptions depends_on_is_checked_refuted.

(** A redundant entry goes unreported when the reference is a Fn::GetAtt in text form. *)
Theorem obsolete_text_form_refuted : exists template n p, wf template /\ depends_entry template n p (VStr "Table") /\
  (exists q, occurs "Fn::GetAtt" template (VDict []) q (VStr "Table.Arn") /\ below n q) /\ forall show, obsolete_match show template (VDict []) = Ok [].
Proof. exact c38_text_form. Qed.
Print Assumptions obsolete_text_form_refuted.

(** Of such a text the first letter is taken for the name. *)
Theorem obsolete_first_letter_refuted : exists template m, wf template /\ (forall q v, occurs "Fn::GetAtt" template (VDict []) q v -> v = VStr "Table.Arn") /\
  (forall q v, ~ occurs "Ref" template (VDict []) q v) /\ forall show, obsolete_match show template (VDict []) = Ok [m].
Proof. exact c38_first_letter. Qed.
Print Assumptions obsolete_first_letter_refuted.

(** An empty Fn::GetAtt ends the check with an IndexError. *)
Theorem obsolete_check_crash_refuted : exists template, wf template /\ forall show, obsolete_match show template (VDict []) = Err EIndex.
Proof. exact c38_crash. Qed.
Print Assumptions obsolete_check_crash_refuted.

Example market_meets_the_hypotheses : wf market /\ depends_given market /\ plain_conditions market /\
  (forall n o, resource market n o -> n <> "Fn::If" /\ assoc "Condition" o = None) /\
  (forall n p v, depends_entry market n p v -> exists s, v = VStr s) /\
  (forall p v, occurs "Fn::GetAtt" market (VDict []) p v -> exists s rest, v = VList (VStr s :: rest)).
Proof. exact (conj market_wf (conj market_depends (conj market_plain (conj market_unconditional (conj market_texts market_getatt_first))))). Qed.
Example market_is_reported : forall order c, depends_on_match order c market = Ok
  [mkRM [PKey "Resources"; PKey "Table"; PKey "DependsOn"; PIdx 1] "DependsOn should reference other resources at Resources/Table/DependsOn/1"].
Proof. exact market_depends_report. Qed.
Example market_obsolete : forall show, obsolete_match show market (VDict []) = Ok
  [mkRM [PKey "Resources"; PKey "Table"; PKey "DependsOn"; PIdx 0] "Obsolete DependsOn on resource (Bucket), dependency already enforced by a ""Ref"" at Resources/Table/Properties/Name/Ref";
   mkRM [PKey "Resources"; PKey "Volume"; PKey "DependsOn"] "Obsolete DependsOn on resource (Table), dependency already enforced by a ""Fn:GetAtt"" at Resources/Volume/Properties/Id/Fn::GetAtt"].
Proof. exact market_obsolete_report. Qed.
