(** The objects and lists that the specification expects in a resource (C65). *)
From Coq Require Import List String.
From Verif.Model Require Import Base Relationship PropertyTree.
From Verif.Spec Require Import Branches References Attributes.
Import ListNotations.
Local Open Scope string_scope.

(** Somewhere in the text. *)
Definition mentions (part s : string) : Prop := exists before after, s = before ++ part ++ after.

(** * Single values *)
(** What a value can become when branches of conditions are chosen, without end: every object on the way counts. *)
Inductive chosen : val -> path -> val -> path -> Prop :=
| cs_here : forall v p, chosen v p v p
| cs_then : forall c a b p w q, chosen a (p ++ [PKey "Fn::If"; PIdx 1])%list w q -> chosen (If_of (VList [c; a; b])) p w q
| cs_else : forall c a b p w q, chosen b (p ++ [PKey "Fn::If"; PIdx 2])%list w q -> chosen (If_of (VList [c; a; b])) p w q.
Definition functions_for_values : list string :=
  ["Fn::Base64"; "Fn::GetAtt"; "Fn::GetAZs"; "Fn::ImportValue"; "Fn::Join"; "Fn::Split"; "Fn::FindInMap"; "Fn::Select"; "Ref";
   "Fn::If"; "Fn::Contains"; "Fn::Sub"; "Fn::Cidr"; "Fn::Transform"].
(** [single_fault t v p words]: [v], at [p], cannot stand for a value of the primitive type [t]. *)
Inductive single_fault (t : string) : val -> path -> string -> Prop :=
| vf_list : forall l p, single_fault t (VList l) p ("Property should be of type " ++ t ++ " not List at " ++ path_text p)
| vf_arns : forall p, single_fault t (VDict [("Ref", VStr "AWS::NotificationARNs")]) p ("Property should be of type " ++ t ++ " not List at " ++ path_text p)
| vf_function : forall k x p, t <> "Json" -> ~ In k functions_for_values ->
    single_fault t (VDict [(k, x)]) p ("Property " ++ path_text p ++ " has an illegal function " ++ k)
| vf_object : forall d p, t <> "Json" -> List.length d <> 1 ->
    single_fault t (VDict d) p ("Property is an object instead of " ++ t ++ " at " ++ path_text p).
(** The same for the value that choices of branches lead to; objects that can be JSON are not looked into. *)
Definition primitive_fault (t : string) (v : val) (p q : path) (words : string) : Prop :=
  exists w, (if String.eqb t "Json" then w = v /\ q = p else chosen v p w q) /\ single_fault t w q words.

Section Resource.
Variable resource_types property_types : list (string * ospec).
Variable intrinsic_types : list (string * list string).
Variable template : val.
(** The type and the name of the resource. *)
Variable parent resource : string.

(** The description of what is expected: the properties of the resource ([root]) or a property type, which belongs to the type of
    the resource or, like Tag, to none. *)
Definition described (root : bool) (t : string) (os : ospec) : Prop :=
  if root then assoc parent resource_types = Some os
  else assoc (parent ++ "." ++ t) property_types = Some os \/ (~ In (parent ++ "." ++ t) (keys property_types) /\ assoc t property_types = Some os).

(** * Lists of objects *)
(** The resource that a Fn::GetAtt names: the text up to the first dot, or the first item. *)
Inductive owner : val -> string -> Prop :=
| ow_list : forall n rest, owner (VList (VStr n :: rest)) n
| ow_text : forall n, dotless n -> owner (VStr n) n
| ow_dots : forall n a, dotless n -> owner (VStr (n ++ "." ++ a)) n.
(** The arguments of conditions inside conditions.  The path is that of the rule, which leaves out the inner Fn::If. *)
Inductive nested_if : val -> path -> val -> path -> Prop :=
| ni_here : forall x p, nested_if x p x p
| ni_then : forall c x b p y q, nested_if x (p ++ [PIdx 1])%list y q -> nested_if (VList [c; If_of x; b]) p y q
| ni_else : forall c a x p y q, nested_if x (p ++ [PIdx 2])%list y q -> nested_if (VList [c; a; If_of x]) p y q.
(** The branches of the argument of a condition.  A text of three characters passes for an argument. *)
Inductive chooses : val -> nat -> val -> Prop :=
| ch_then : forall c a b, chooses (VList [c; a; b]) 1 a
| ch_else : forall c a b, chooses (VList [c; a; b]) 2 b
| ch_text : forall s i, String.length s = 3 -> i = 1 \/ i = 2 -> chooses (VStr s) i (VStr (substring i 1 s)).
Inductive not_three : val -> Prop :=
| nt_list : forall l, List.length l <> 3 -> not_three (VList l)
| nt_text : forall s, String.length s <> 3 -> not_three (VStr s)
| nt_object : forall d, List.length d <> 3 -> not_three (VDict d).
(** [list_fault prop x p q words]: [x], at [p], is no list of objects; reported at [q]. *)
Inductive list_fault (prop : string) : val -> path -> path -> string -> Prop :=
| lf_scalar : forall x p, is_list x = false -> is_dict x = false ->
    list_fault prop x p p ("Property " ++ prop ++ " should be of type List for resource " ++ resource)
| lf_object : forall d p, (forall f x, d = [(f, x)] -> ~ In f ["Fn::If"; "Fn::FindInMap"; "Fn::GetAtt"]) -> VDict d <> NoValue ->
    list_fault prop (VDict d) p p ("Property is an object instead of List at " ++ path_text p)
| lf_getatt : forall x n t p, owner x n -> n <> "" -> resource_type template n t -> ~ begins "Custom::" t -> t <> "AWS::CloudFormation::CustomResource" ->
    list_fault prop (VDict [("Fn::GetAtt", x)]) p p ("Property is an object instead of List at " ++ path_text p)
| lf_arguments : forall x p y q, nested_if x (p ++ [PKey "Fn::If"])%list y q -> not_three y ->
    list_fault prop (If_of x) p q ("Invalid !If condition specified at " ++ path_text q)
| lf_branch : forall x p y q i w, nested_if x (p ++ [PKey "Fn::If"])%list y q -> chooses y i w ->
    is_list w = false -> w <> NoValue -> (forall f z, w = VDict [(f, z)] -> ~ In f ["Fn::If"; "Fn::GetAtt"]) ->
    list_fault prop (If_of x) p (q ++ [PIdx i])%list ("Property " ++ prop ++ " should be of type List for resource " ++ resource ++ " at " ++ path_text (q ++ [PIdx i])%list)
| lf_branch_getatt : forall x p y q i z n t, nested_if x (p ++ [PKey "Fn::If"])%list y q -> chooses y i (VDict [("Fn::GetAtt", z)]) ->
    owner z n -> n <> "" -> resource_type template n t -> ~ begins "Custom::" t ->
    list_fault prop (If_of x) p (q ++ [PIdx i])%list ("Property " ++ prop ++ " should be of type List for resource " ++ resource ++ " at " ++ path_text (q ++ [PIdx i])%list).
(** [gives_list x p l q]: the value [x] at [p] is the list [l], or a condition with the list [l] as a branch. *)
Inductive gives_list : val -> path -> list val -> path -> Prop :=
| gl_list : forall l p, gives_list (VList l) p l p
| gl_branch : forall x p y q i l, nested_if x (p ++ [PKey "Fn::If"])%list y q -> chooses y i (VList l) -> gives_list (If_of x) p l (q ++ [PIdx i])%list.

(** * Lists of single values *)
Definition parameter_named (s : string) (x : val) : Prop :=
  exists d ps, template = VDict d /\ assoc "Parameters" d = Some (VDict ps) /\ assoc s ps = Some x.
Definition list_type (t : string) : Prop := mentions "List<" t \/ mentions "<List" t \/ t = "CommaDelimitedList".
Inductive values_fault (prop prim : string) : val -> path -> path -> string -> Prop :=
| vsf_item : forall l i y p q words, nth_error l i = Some y -> primitive_fault prim y (p ++ [PIdx i])%list q words -> values_fault prop prim (VList l) p q words
| vsf_scalar : forall x p, is_list x = false -> is_dict x = false ->
    values_fault prop prim x p p ("Property " ++ prop ++ " should be of type List for resource " ++ resource)
| vsf_ref : forall d r p, assoc "Ref" d = Some r -> r <> VStr "AWS::NotificationARNs" -> (forall s x, r = VStr s -> ~ parameter_named s x) ->
    values_fault prop prim (VDict d) p p ("Property " ++ prop ++ " should be of type List for resource " ++ resource)
| vsf_parameter : forall d s o t p, assoc "Ref" d = Some (VStr s) -> s <> "AWS::NotificationARNs" -> parameter_named s (VDict o) ->
    assoc "Type" o = Some (VStr t) -> t <> "" -> ~ list_type t ->
    values_fault prop prim (VDict d) p p ("Property " ++ prop ++ " should be of type List or Parameter should be a list for resource " ++ resource)
| vsf_function : forall k x p, k <> "Ref" -> assoc k intrinsic_types = Some ["Singular"] ->
    values_fault prop prim (VDict [(k, x)]) p p ("Property " ++ prop ++ " is using " ++ k ++ " when a List is needed for resource " ++ resource).

(** * Objects *)
(** Code that packaging tools may give as a text. *)
Inductive packaged_code (t : string) : Prop :=
| pkg_api : parent = "AWS::ApiGateway::RestApi" -> t = "S3Location" -> packaged_code t
| pkg_function : parent = "AWS::Lambda::Function" -> t = "Code" -> packaged_code t
| pkg_layer : parent = "AWS::Lambda::LayerVersion" -> t = "Content" -> packaged_code t
| pkg_version : parent = "AWS::ElasticBeanstalk::ApplicationVersion" -> t = "SourceBundle" -> packaged_code t
| pkg_machine : parent = "AWS::StepFunctions::StateMachine" -> t = "S3Location" -> packaged_code t.
(** A Fn::Select of a map, which may give an object. *)
Definition selects_from_map (v : val) : Prop := exists i m, v = VDict [("Fn::Select", VList [i; VDict [("Fn::FindInMap", m)]])].
(** An object that stands for no value; any part of the word Ref will do. *)
Definition no_value_like (v : val) : Prop := exists k, mentions k "Ref" /\ v = VDict [(k, VStr "AWS::NoValue")].

(** [expects (root, t, v, p) (root', t', v', p')]: as the first is expected, so is the second: a property or the item of a list. *)
Definition place : Type := bool * string * val * path.
Inductive expects : place -> place -> Prop :=
| ex_list : forall root t os item l p i x, described root t os -> os_props os = [] -> os_type os = Some "List" -> os_item os = Some item ->
    nth_error l i = Some x -> expects (root, t, VList l, p) (root, item, x, (p ++ [PIdx i])%list)
| ex_property : forall root t os d p prop ms t' x, described root t os -> In (prop, x) d -> assoc prop (os_props os) = Some ms ->
    ms_type ms = Some t' -> t' <> "List" -> t' <> "Map" -> expects (root, t, VDict d, p) (false, t', x, (p ++ [PKey prop])%list)
| ex_item : forall root t os d p prop ms item x l q i y, described root t os -> In (prop, x) d -> assoc prop (os_props os) = Some ms ->
    ms_type ms = Some "List" -> ms_primitive_item ms = None -> ms_item ms = Some item -> gives_list x (p ++ [PKey prop])%list l q -> nth_error l i = Some y ->
    expects (root, t, VDict d, p) (false, item, y, (q ++ [PIdx i])%list)
| ex_if : forall root t os x p w q, described root t os -> os_props os <> [] -> assoc "Fn::If" (os_props os) = None ->
    alternative (If_of x) p w q -> is_dict w = true -> expects (root, t, If_of x, p) (root, t, w, q)
| ex_if_items : forall root t os x p l q i y, described root t os -> os_props os <> [] -> assoc "Fn::If" (os_props os) = None ->
    alternative (If_of x) p (VList l) q -> nth_error l i = Some y -> expects (root, t, If_of x, p) (root, t, y, (q ++ [PIdx i])%list).
Inductive reaches : place -> place -> Prop :=
| re_here : forall a, reaches a a
| re_step : forall a b c, expects a b -> reaches b c -> reaches a c.
(** [fault (root, t, v, p) q words]: what stands at [p] is not what is expected; reported at [q]. *)
Inductive fault : place -> path -> string -> Prop :=
| ft_no_object : forall root t os v p, described root t os -> os_props os <> [] -> is_dict v = false -> v <> VStr "AWS::NoValue" ->
    (forall s, v = VStr s -> ~ packaged_code t) -> fault (root, t, v, p) p ("Expecting an object at " ++ path_text p)
| ft_unknown : forall root t os d p prop x, described root t os -> os_props os <> [] -> In (prop, x) d -> assoc prop (os_props os) = None ->
    ~ is_if (VDict d) -> ~ selects_from_map (VDict d) -> ~ no_value_like (VDict d) -> os_additional os = false ->
    fault (root, t, VDict d, p) (p ++ [PKey prop])%list ("Invalid Property " ++ path_text (p ++ [PKey prop])%list)
| ft_list : forall root t os d p prop x ms q words, described root t os -> In (prop, x) d -> assoc prop (os_props os) = Some ms ->
    ms_type ms = Some "List" -> ms_primitive_item ms = None -> list_fault prop x (p ++ [PKey prop])%list q words -> fault (root, t, VDict d, p) q words
| ft_values : forall root t os d p prop x ms prim q words, described root t os -> In (prop, x) d -> assoc prop (os_props os) = Some ms ->
    ms_type ms = Some "List" -> ms_primitive_item ms = Some prim -> values_fault prop prim x (p ++ [PKey prop])%list q words -> fault (root, t, VDict d, p) q words
| ft_value : forall root t os d p prop x ms prim q words, described root t os -> In (prop, x) d -> assoc prop (os_props os) = Some ms ->
    ms_type ms = None -> ms_primitive ms = Some prim -> primitive_fault prim x (p ++ [PKey prop])%list q words -> fault (root, t, VDict d, p) q words.
End Resource.

(** The type by which a resource is judged: custom resources without a description are all of the same type. *)
Definition judged_as (resource_types : list (string * ospec)) (rt rt' : string) : Prop :=
  (rt' = rt /\ (begins "Custom::" rt -> In rt (keys resource_types))) \/
  (rt' = "AWS::CloudFormation::CustomResource" /\ begins "Custom::" rt /\ ~ In rt (keys resource_types)).
(** A resource with properties, of a type that is described. *)
Definition described_resource (resource_types : list (string * ospec)) (template : val) (name rt : string) (props : val) : Prop :=
  exists o rt', defined_in "Resources" template name o /\ assoc "Type" o = Some (VStr rt') /\ assoc "Properties" o = Some props /\
    judged_as resource_types rt' rt /\ In rt (keys resource_types).
(** The types of parameters are texts. *)
Definition text_types (template : val) : Prop :=
  forall name x, parameter_named template name x -> exists o t, x = VDict o /\ assoc "Type" o = Some (VStr t).

(** * What can be judged *)
(** [inside v w]: [w] is [v] or somewhere in it. *)
Inductive inside : val -> val -> Prop :=
| in_here : forall v, inside v v
| in_item : forall l x w, In x l -> inside x w -> inside (VList l) w
| in_member : forall d k x w, In (k, x) d -> inside x w -> inside (VDict d) w.
Definition judgeable (template v : val) : Prop :=
  (forall x, inside v (If_of x) -> exists l, x = VList l) /\
  (forall x, inside v (VDict [("Fn::GetAtt", x)]) -> exists n t, owner x n /\ resource_type template n t).
(** The types that a description mentions are described, for resources of type [parent]. *)
Inductive mentions_type (os : ospec) : string -> Prop :=
| mt_property : forall prop ms t, assoc prop (os_props os) = Some ms -> ms_type ms = Some t -> t <> "List" -> t <> "Map" -> mentions_type os t
| mt_item : forall prop ms t, assoc prop (os_props os) = Some ms -> ms_type ms = Some "List" -> ms_primitive_item ms = None -> ms_item ms = Some t -> mentions_type os t
| mt_list : forall t, os_props os = [] -> os_type os = Some "List" -> os_item os = Some t -> mentions_type os t.
(** The types that are used for resources of type [parent]. *)
Inductive used (resource_types property_types : list (string * ospec)) (parent : string) : bool -> string -> Prop :=
| us_resource : forall t, used resource_types property_types parent true t
| us_mentioned : forall root t os t', used resource_types property_types parent root t -> described resource_types property_types parent root t os -> mentions_type os t' ->
    used resource_types property_types parent false t'.
Definition complete (resource_types property_types : list (string * ospec)) (parent : string) : Prop :=
  forall root t os, used resource_types property_types parent root t -> described resource_types property_types parent root t os ->
    (forall t', mentions_type os t' -> exists os', described resource_types property_types parent false t' os') /\
    (forall prop ms, assoc prop (os_props os) = Some ms -> ms_type ms = Some "List" -> ms_primitive_item ms = None -> ms_item ms <> None) /\
    (os_props os = [] -> os_type os = Some "List" -> os_item os <> None).
