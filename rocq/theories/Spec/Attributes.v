(** The attributes of resources (C32, C52, C53). *)
From Coq Require Import List String.
From Verif.Model Require Import Base Helpers Functions.
From Verif.Spec Require Import Paths References ParameterUse ConditionUse FunctionArguments.
Import ListNotations.
Local Open Scope string_scope.

Definition begins (p s : string) : Prop := exists rest, s = p ++ rest.
Definition ends (p s : string) : Prop := exists first, s = first ++ p.
Definition dotless (s : string) : Prop := ~ In "."%char (list_ascii_of_string s).

Definition resource_type (template : val) (r t : string) : Prop :=
  exists o, defined_in "Resources" template r o /\ assoc "Type" o = Some (VStr t).
(** Types whose attributes are not known: nested stacks, whose outputs are texts, and others, whose attributes can be anything. *)
Definition stack_type (t : string) : Prop := begins "AWS::CloudFormation::Stack" t.
Definition custom_type (t : string) : Prop :=
  begins "Custom::" t \/ begins "AWS::Serverless::" t \/ begins "AWS::CloudFormation::CustomResource" t \/ ends "::MODULE" t.

Section Types.
(** The resource types of the specification, with their attributes if they have any. *)
Variable types : list (string * option (list (string * attspec))).
(** An attribute in the specification. *)
Definition listed (t a : string) (s : attspec) : Prop := exists atts, assoc t types = Some (Some atts) /\ assoc a atts = Some s.
(** The attributes of a type are distinct, none is called [*], and none has a name of which another one is a part: a specification
    does not list both [A] and [A.B]. *)
Definition plain_types : Prop := forall t atts, assoc t types = Some (Some atts) ->
  NoDup (map fst atts) /\ ~ In "*" (map fst atts) /\ forall a b, dotless a -> In a (map fst atts) -> ~ In (a ++ "." ++ b) (map fst atts).

(** [t] has the attribute [a]: any one will do for types that are not known (but the text should not begin with a star and a dot),
    others list it, or list a map that [a] is a key of. *)
Definition has_attribute (t a : string) : Prop :=
  ((stack_type t \/ custom_type t) /\ ~ begins "*." a) \/
  (~ stack_type t /\ ~ custom_type t /\
   ((exists s, listed t a s) \/ exists m k s, a = m ++ "." ++ k /\ dotless m /\ listed t m s /\ att_type s = Some "Map")).
Definition has_attributes (t : string) : Prop :=
  stack_type t \/ custom_type t \/ exists atts, assoc t types = Some (Some atts).

(** * Fn::GetAtt *)
(** The resource and the attribute of a Fn::GetAtt; the attribute can be a Ref. *)
Inductive getatt_reads : val -> val -> option string -> Prop :=
| gr_text : forall r a, dotless r -> r ++ a <> "" -> getatt_reads (VStr (r ++ "." ++ a)) (VStr r) (Some a)
| gr_list : forall r l, l <> [] -> getatt_reads (VList (r :: map VStr l)) r (Some (join_str "." l))
| gr_ref : forall r x rest, getatt_reads (VList (r :: VDict [("Ref", x)] :: rest)) r None.
(** Names that are empty are not looked at.  A name that is no name of a resource with attributes has to begin with the name of a
    module. *)
Definition getatt_ok (template : val) (v : val) : Prop :=
  exists r attr, getatt_reads v r attr /\
    (truthy r = false \/
     exists n, r = VStr n /\
       ((exists t, resource_type template n t /\ has_attributes t /\ forall a, attr = Some a -> has_attribute t a) \/
        ((forall t, resource_type template n t -> ~ has_attributes t) /\ module_output template n))).

(** * Fn::Join *)
(** The resource and the attribute that are looked at. *)
Inductive getatt_first : val -> string -> Prop :=
| gf_text : forall r a, dotless r -> getatt_first (VStr (r ++ "." ++ a)) r
| gf_name : forall r, dotless r -> getatt_first (VStr r) r
| gf_list : forall r rest, getatt_first (VList (VStr r :: rest)) r.
Inductive getatt_second : val -> string -> Prop :=
| gs_text : forall r a, dotless r -> getatt_second (VStr (r ++ "." ++ a)) a
| gs_list : forall r a rest, getatt_second (VList (r :: VStr a :: rest)) a.
Definition list_attribute (template x : val) : Prop :=
  exists r a t s, getatt_first x r /\ getatt_second x a /\ resource_type template r t /\ ~ stack_type t /\ ~ custom_type t /\ listed t a s /\ att_type s = Some "List".
Definition unknown_attribute (template x : val) : Prop :=
  exists r t, getatt_first x r /\ resource_type template r t /\ ~ stack_type t /\ custom_type t.
Definition list_ref (template x : val) : Prop :=
  exists n, x = VStr n /\ (list_parameter template n \/ n = "AWS::NotificationARNs").
(** What can be joined, and one of the things that are joined. *)
Definition joined (template : val) (v : val) : Prop :=
  calls ["Fn::Cidr"; "Fn::FindInMap"; "Fn::GetAZs"; "Fn::If"; "Fn::Select"; "Fn::Split"] v \/
  (exists x, v = VDict [("Ref", x)] /\ list_ref template x) \/
  (exists x, v = VDict [("Fn::GetAtt", x)] /\ (list_attribute template x \/ unknown_attribute template x)).
Definition join_part (template : val) (v : val) : Prop :=
  text v \/ calls ["Fn::Base64"; "Fn::FindInMap"; "Fn::If"; "Fn::ImportValue"; "Fn::Join"; "Fn::Select"; "Fn::Sub"] v \/
  (exists x, v = VDict [("Ref", x)] /\ ~ list_ref template x) \/
  (exists x, v = VDict [("Fn::GetAtt", x)] /\ ~ list_attribute template x).
Definition join_ok (template : val) (v : val) : Prop :=
  exists d l, v = VList [VStr d; l] /\ (joined template l \/ exists ps, l = VList ps /\ Forall (join_part template) ps).

(** * Fn::Sub *)
(** An attribute that can stand in a text: it is no list. *)
Definition text_attribute (t a : string) : Prop :=
  stack_type t \/ custom_type t \/
  ((exists s, listed t a s /\ att_type s <> Some "List") \/ exists m k s, a = m ++ "." ++ k /\ dotless m /\ listed t m s /\ att_type s = Some "Map").
(** A variable that can stand in the text of a Fn::Sub: a pseudo parameter, a resource, a variable of the Fn::Sub itself, a parameter
    that is no list, or an attribute of a resource. *)
Inductive sub_variable (template : val) (own : list (string * val)) : string -> Prop :=
| sv_pseudo : forall n, In n ["AWS::AccountId"; "AWS::NotificationARNs"; "AWS::NoValue"; "AWS::Partition"; "AWS::Region"; "AWS::StackId"; "AWS::StackName"; "AWS::URLSuffix"] ->
    sub_variable template own n
| sv_resource : forall n o, defined_in "Resources" template n o -> sub_variable template own n
| sv_own : forall n, In n (map fst own) -> sub_variable template own n
| sv_parameter : forall n o, defined_in "Parameters" template n o -> ~ list_parameter template n -> sub_variable template own n
| sv_attribute : forall r a t, dotless r -> resource_type template r t -> text_attribute t a -> sub_variable template own (r ++ "." ++ a).

(** [variable_in n s]: the text [s] has the placeholder of the variable [n], which may be surrounded by white space. *)
Definition bare (n : string) : Prop :=
  forall a m, (n = String a m \/ n = m ++ String a "") -> ~ white (String a "").
Definition variable_in (n s : string) : Prop :=
  exists before w1 w2 rest, s = before ++ "${" ++ (w1 ++ n ++ w2) ++ "}" ++ rest /\ white w1 /\ white w2 /\ bare n /\
    w1 ++ n ++ w2 <> "" /\ ~ begins "!" (w1 ++ n ++ w2) /\
    forall a, In a (list_ascii_of_string (w1 ++ n ++ w2)) -> a <> "$"%char /\ a <> "}"%char /\ a <> "010"%char.
(** The names in a Fn::GetAtt, as one text. *)
Inductive getatt_text : val -> string -> Prop :=
| gt_text : forall s, getatt_text (VStr s) s
| gt_list : forall l, getatt_text (VList (map VStr l)) (join_str "." l).
Definition sub_call (k : string) : Prop :=
  In k ["Fn::Base64"; "Fn::FindInMap"; "Fn::GetAZs"; "Fn::GetAtt"; "Fn::If"; "Fn::ImportValue"; "Fn::Join"; "Fn::Select"; "Fn::Sub"; "Ref"].
(** What is wrong with the argument of a Fn::Sub, and where. *)
Inductive sub_fault (template : val) (p : path) : val -> path -> Prop :=
| su_shape : forall v, ~ text v -> (forall s ps, v <> VList [s; ps]) -> (forall x, v <> VDict [("Fn::Transform", x)]) -> sub_fault template p v []
| su_text : forall s n, variable_in n s -> ~ sub_variable template [] n -> sub_fault template p (VStr s) []
| su_first : forall s ps, ~ text s -> sub_fault template p (VList [s; ps]) [PIdx 0]
| su_second : forall s ps, ~ object ps -> sub_fault template p (VList [s; ps]) [PIdx 1]
| su_variable : forall s d n, variable_in n s -> ~ sub_variable template d n -> sub_fault template p (VList [VStr s; VDict d]) [PIdx 0]
| su_list : forall s d n l, In (n, VList l) d -> sub_fault template p (VList [s; VDict d]) [PKey n]
| su_object : forall s d n o, In (n, VDict o) d -> (forall k x, sub_call k -> o <> [(k, x)]) -> sub_fault template p (VList [s; VDict d]) [PKey n]
| su_ref : forall s d n x, In (n, VDict [("Ref", x)]) d -> ~ (exists m, x = VStr m /\ sub_variable template [] m) -> sub_fault template p (VList [s; VDict d]) []
| su_getatt : forall s d n x m, In (n, VDict [("Fn::GetAtt", x)]) d -> getatt_text x m -> ~ sub_variable template [] m -> sub_fault template p (VList [s; VDict d]) [].
End Types.

(** The text of each Fn::Sub has no placeholder that is empty, or not closed. *)
Definition closed_subs (template globals : val) : Prop := forall p v s, occurs "Fn::Sub" template globals p v -> sub_text v s -> closed s.
(** The names of parameters have no dots. *)
Definition dotless_parameters (template : val) : Prop := forall n o, defined_in "Parameters" template n o -> dotless n.

(** A variable of a Fn::Sub that its text does not use. *)
Inductive sub_unused (p : path) : val -> path -> Prop :=
| ss_unused : forall s d n, In n (map fst d) -> ~ variable_in n s -> sub_unused p (VList [VStr s; VDict d]) [PIdx 1].
(** A Fn::Sub whose text uses no variable. *)
Inductive sub_unneeded (p : path) : val -> path -> Prop :=
| sd_text : forall s, (forall n, ~ variable_in n s) -> sub_unneeded p (VStr s) []
| sd_list : forall s x, (forall n, ~ variable_in n s) -> sub_unneeded p (VList [VStr s; x]) [PIdx 0].
(** A Ref to a resource, somewhere in the Conditions. *)
Definition resource_in_conditions (template : val) (p : path) (v : val) (r : path) : Prop :=
  r = [] /\ exists n o rest, v = VStr n /\ defined_in "Resources" template n o /\ p = PKey "Conditions" :: rest.
