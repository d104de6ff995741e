(** What the properties in a template whose report is empty are like (C108). *)
From Coq Require Import List String ZArith.
From Verif.Model Require Import Base Locate Helpers Rules Conditions Resolve PropertyRules ValueRules.
From Verif.Spec Require Import Branches Walk Required Resolved Groups Sizes Values Shipped ShippedChecks.
Import Verif.Model.Rules.
Import ListNotations.
Local Open Scope string_scope.

(** The rules about missing properties, groups of properties, values and sizes. *)
Definition filling_rules : list string := ["E3003"; "E2520"; "E2521"; "E2522"; "E2523"; "E3030"; "E3031"; "E3032"; "E3033"; "E3034"].

Section Filled.
Variable sp : spec.
Variable t : val.                        (* the template *)

Section Objects.
Variable rs : rspec.
(** An object of the template that the specification describes. *)
Let described := object_with sp (rs_resource_types rs) (rs_property_types rs) t.

(** Whatever branches are chosen, there is no required property missing. *)
Definition nothing_missing : Prop :=
  (forall n d p specs name ps v q, described n d p specs -> In (name, ps) specs -> ps_required ps = true -> branch (VDict d) p v q ->
     has_members v /\ ~ lacks v name) /\
  ((exists name rt attrs s, resource_of t name rt attrs /\ custom_type rs rt /\ assoc "Properties" attrs = Some (VStr s)) \/
   forall rt d p name v q, properties_of t rt d p -> custom_type rs rt -> requires (rs_resource_types rs) "AWS::CloudFormation::CustomResource" name ->
     branch (VDict d) p v q -> has_members v /\ ~ lacks v name).

(** Values of properties for which the specification lists the values are among them, or are computed, or mention a dynamic reference. *)
Definition values_allowed (vs : list (string * vrule)) (text : val -> string) : Prop :=
  forall n d p specs prop x r ps vr v q, described n d p specs -> all_objects (VDict d) p -> no_null_property (VDict d) p ->
    property_of (VDict d) p prop x r -> assoc prop specs = Some ps -> restricts vs "ValueType" ps vr -> vr_allowed vr <> [] ->
    single x (r ++ [PKey prop])%list v q -> ~ is_call v -> ~ mentions_resolve (text v) -> In (text v) (vr_allowed vr).
Definition values_match (vs : list (string * vrule)) (text : val -> string) (matches : string -> string -> bool) : Prop :=
  forall n d p specs prop x r ps vr v q, described n d p specs -> all_objects (VDict d) p -> no_null_property (VDict d) p ->
    property_of (VDict d) p prop x r -> assoc prop specs = Some ps -> restricts vs "ValueType" ps vr -> vr_pattern vr <> "" ->
    single x (r ++ [PKey prop])%list v q -> Values.has_text v -> ~ mentions_resolve (text v) -> matches (vr_pattern vr) (text v) = true.

(** Lists, texts and numbers are within their bounds; bounds of texts that are 0 are not looked at. *)
Definition lists_fit : Prop :=
  forall n d p specs e q prop ps lo hi l, described n d p specs -> all_objects (VDict d) p ->
    (forall e q, branch (VDict d) p (VDict e) q -> plain_object e /\ VDict e <> no_value /\ forall n, ~ members_look_at e n) ->
    branch (VDict d) p (VDict e) q -> assoc prop specs = Some ps -> list_bounds rs ps lo hi -> assoc prop e = Some (VList l) ->
    within lo hi (List.length l).
Definition texts_fit : Prop :=
  forall n d p specs prop ps x lo hi s q, described n d p specs -> ~ is_if (VDict d) -> VDict d <> NoValue -> no_null_member d p ->
    assoc prop d = Some x -> assoc prop specs = Some ps -> string_bounds rs ps lo hi -> lo <> 0%Z -> hi <> 0%Z ->
    single x (p ++ [PKey prop])%list (VStr s) q -> within lo hi (String.length s).
Definition numbers_fit (reads : string -> option (option QArith_base.Q)) : Prop :=
  forall n d p specs prop ps x lo hi v q, described n d p specs -> ~ is_if (VDict d) -> VDict d <> NoValue -> no_null_member d p ->
    assoc prop d = Some x -> assoc prop specs = Some ps -> number_bounds rs ps lo hi ->
    single x (p ++ [PKey prop])%list v q -> ~ out_of_range reads (fst lo) (fst hi) v.
End Objects.

(** Properties that exclude each other, that come together, and groups of which at least or exactly one is given: the tables list
    them for types of resources and of nested objects.  The objects are ones that do not depend on conditions. *)
Definition none_excluded (rts pts : list (string * list (string * list string))) : Prop :=
  forall n d p table d' k e, object_with sp rts pts t n d p table -> plain_object d -> VDict d <> no_value -> (forall n, ~ members_look_at d n) ->
    pruned d d' -> lists table k e -> ~ (In k (keys d') /\ In e (keys d')).
Definition none_alone (rts pts : list (string * list (string * list string))) : Prop :=
  forall n d p table d' k e, object_with sp rts pts t n d p table -> plain_object d -> VDict d <> no_value -> (forall n, ~ members_look_at d n) ->
    pruned d d' -> lists table k e -> In k (keys d') -> In e (keys d').
Definition each_group_given (rts pts : list (string * list (list string))) : Prop :=
  forall n d p groups e q group, object_with sp rts pts t n d p groups -> groups_fit d p groups -> branch (VDict d) p (VDict e) q ->
    In group groups -> exists k, In k group /\ In k (keys e).
Definition each_group_once (rts pts : list (string * list (list string))) : Prop :=
  forall n d p groups e q group, object_with sp rts pts t n d p groups -> groups_fit d p groups -> branch (VDict d) p (VDict e) q ->
    In group groups -> exactly_one group (keys e).
End Filled.
