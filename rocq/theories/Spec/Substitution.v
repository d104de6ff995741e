(** What E1029 reports: variables in texts that nothing substitutes (C67). *)
From Coq Require Import List String Ascii.
From Verif.Model Require Import Base Rules Relationship.
From Verif.Spec Require Import Paths.
Import ListNotations.
Local Open Scope string_scope.

(** A variable: a dollar sign and a name in braces.  Names have letters, digits, underscores, colons and dots. *)
Definition name_letters : string := "ABCDEFGHIJKLMNOPQRSTUVWXYZabcdefghijklmnopqrstuvwxyz0123456789_:.".
Definition variable_name (n : string) : Prop :=
  n <> "" /\ forall a, In a (list_ascii_of_string n) -> In a (list_ascii_of_string name_letters).
Definition has_variable (text n : string) : Prop :=
  variable_name n /\ exists before after, text = before ++ "${" ++ n ++ "}" ++ after.

(** Texts of these keys are no CloudFormation texts, or are substituted. *)
Definition free_text : list string :=
  ["UserData"; "ZipFile"; "Condition"; "AWS::CloudFormation::Init"; "CloudWatchAlarmDefinition"; "TopicRulePayload"; "BuildSpec";
   "RequestMappingTemplate"; "LogFormat"; "TemplateBody"; "ResponseMappingTemplate"; "RouteSelectionExpression"].
(** Variables that policies may use for resources. *)
Definition policy_variables : list string :=
  ["aws:CurrentTime"; "aws:EpochTime"; "aws:TokenIssueTime"; "aws:principaltype"; "aws:SecureTransport"; "aws:SourceIp"; "aws:UserAgent";
   "aws:userid"; "aws:username"; "ec2:SourceInstanceARN"; "iot:Connection.Thing.ThingName"; "iot:Connection.Thing.ThingTypeName";
   "iot:Connection.Thing.IsAttached"; "iot:ClientId"; "transfer:HomeBucket"; "transfer:HomeDirectory"; "transfer:HomeFolder";
   "transfer:UserName"; "redshift:DbUser"].
(** Below these keys the variables of an API's stage may be used. *)
Definition api_keys : list string := ["Uri"; "Body"; "ConnectionId"].

Definition below (k : string) (p : path) : Prop := In (PKey k) p.
(** [first_definition p a b]: the first 'DefinitionString' of [p] is behind [a] and before [b]. *)
Definition first_definition (p a b : path) : Prop :=
  p = (a ++ PKey "DefinitionString" :: b)%list /\ ~ below "DefinitionString" a.
(** The text is the definition of a state machine, and the state machine says what the variable stands for. *)
Definition defined_beside (template : val) (p : path) (n : string) : Prop :=
  exists a b x, first_definition p a b /\ at_path (a ++ [PKey "DefinitionSubstitutions"; PKey n])%list template = Some x /\ truthy x = true.

(** The variable [n] in a text at [p] is substituted, or may stay. *)
Inductive excused (template : val) (p : path) (n : string) : Prop :=
| ex_sub : below "Fn::Sub" p -> excused template p n
| ex_parameters : forall r, p = PKey "Parameters" :: r -> excused template p n
| ex_free : forall k, In k free_text -> below k p -> excused template p n
| ex_policy : below "Resource" p \/ below "NotResource" p -> In n policy_variables -> excused template p n
| ex_stage : forall k r, In k api_keys -> below k p -> n = "stageVariables." ++ r -> excused template p n
| ex_definition : defined_beside template p n -> excused template p n.

(** Texts of the template; those of its section Globals are seen twice, the second time as if that section were the template. *)
Definition text_seen (template : val) (p : path) (s : string) : Prop :=
  at_path p template = Some (VStr s) \/ at_path (PKey "Globals" :: p) template = Some (VStr s).

(** The place that is reported: that of the text, except in definitions of state machines. *)
Inductive reported_at : path -> path -> Prop :=
| ra_same : forall p, ~ below "DefinitionString" p -> reported_at p p
| ra_definition : forall p a b, first_definition p a b -> reported_at p (a ++ PKey "DefinitionSubstitutions" :: b)%list.

(** State machines that the rule can read: the objects with a definition are reached without passing through a list, and what they
    substitute is given as an object. *)
Definition readable_definitions (template : val) : Prop :=
  forall a o x, at_path a template = Some (VDict o) -> assoc "DefinitionString" o = Some x ->
    (forall e, In e a -> exists k, e = PKey k) /\
    forall y, assoc "DefinitionSubstitutions" o = Some y -> exists m, y = VDict m.

(** No definition of a state machine has variables. *)
Definition plain_definitions (template : val) : Prop :=
  forall p s n, at_path p template = Some (VStr s) -> has_variable s n -> ~ below "DefinitionString" p.

(** The user's own pattern [r] (none if it is empty) spares the variable. *)
Definition spared (matches : string -> string -> bool) (r n : string) : Prop := r <> "" /\ matches r ("${" ++ n ++ "}") = true.
(** The finding about a variable. *)
Definition unsubstituted_at (q : path) (n : string) : rulematch :=
  mkRM q ("Found an embedded parameter """ ++ ("${" ++ n ++ "}") ++ """ outside of an ""Fn::Sub"" at " ++ path_text q).
