(** What a property may refer to (C61). *)
From Coq Require Import List String.
From Verif.Model Require Import Base Helpers Relationship PropertyRules ValueRules.
From Verif.Spec Require Import Branches References Attributes Values.
Import ListNotations.
Local Open Scope string_scope.

(** Which of the restrictions of the specification applies to the value [w], which a choice of branches puts at [r]: that of the list
    if it is the value of the whole property, that of an item otherwise. *)
Definition whole_list (ps : pspec) (x : val) (p : path) (w : val) (r : path) : Prop := ps_type ps = Some "List" /\ alternative x p w r.
Definition restriction (vs : list (string * vrule)) (ps : pspec) (x : val) (p : path) (w : val) (r : path) (vr : vrule) : Prop :=
  (whole_list ps x p w r /\ restricts vs "ListValueType" ps vr) \/ (~ whole_list ps x p w r /\ restricts vs "ValueType" ps vr).

(** The types of the parameters of the given kinds. *)
Definition types_of_kinds (kinds : list (string * list string)) (l : list string) : list string :=
  flat_map (fun k => match assoc k kinds with Some ts => ts | None => [] end) l.
(** What is wrong with a Ref to [name], in words. *)
Inductive ref_fault (template : val) (kinds : list (string * list string)) (sp : refspec) (prop name : string) (at_ : path) : string -> Prop :=
| rft_no_parameters : forall o, defined_in "Parameters" template name o -> rf_parameters sp = [] ->
    ref_fault template kinds sp prop name at_ ("Property """ ++ prop ++ """ has no valid Refs to Parameters at " ++ path_text at_)
| rft_parameter : forall o, defined_in "Parameters" template name o -> rf_parameters sp <> [] ->
    (forall t, assoc "Type" o = Some (VStr t) -> ~ In t (types_of_kinds kinds (rf_parameters sp))) ->
    ref_fault template kinds sp prop name at_ ("Property """ ++ prop ++ """ can Ref to parameter of types [" ++ join_str ", " (types_of_kinds kinds (rf_parameters sp)) ++ "] at " ++ path_text at_)
| rft_no_resources : forall o, defined_in "Resources" template name o -> rf_resources sp = [] ->
    ref_fault template kinds sp prop name at_ ("Property """ ++ prop ++ """ has no valid Refs to Resources at " ++ path_text at_)
| rft_resource : forall o, defined_in "Resources" template name o -> rf_resources sp <> [] ->
    (forall t, assoc "Type" o = Some (VStr t) -> ~ In t (rf_resources sp)) ->
    ref_fault template kinds sp prop name at_ ("Property """ ++ prop ++ """ can Ref to resources of types [" ++ join_str ", " (rf_resources sp) ++ "] at " ++ path_text at_).

(** The resource and the parts of the attribute that a Fn::GetAtt names. *)
Definition dotted (a : string) (parts : list string) : Prop := parts <> [] /\ a = join_str "." parts /\ Forall dotless parts.
Inductive getatt_parts : val -> string -> list string -> Prop :=
| gp_text : forall r a parts, dotless r -> dotted a parts -> getatt_parts (VStr (r ++ "." ++ a)) r parts
| gp_pair : forall r a parts, dotted a parts -> getatt_parts (VList [VStr r; VStr a]) r parts
| gp_list : forall r parts, 2 <= List.length parts -> getatt_parts (VList (VStr r :: map VStr parts)) r parts.
Definition own_resource (t : string) : Prop := t = "AWS::CloudFormation::CustomResource" \/ begins "Custom::" t.
(** The output of another stack. *)
Definition stack_output (t : string) (parts : list string) : Prop :=
  In t ["AWS::CloudFormation::Stack"; "AWS::ServiceCatalog::CloudFormationProvisionedProduct"] /\ exists rest, parts = "Outputs" :: rest.
(** Resources whose attributes are not judged by the specification. *)
Definition exempt (template : val) (name : string) (parts : list string) : Prop :=
  exists t, resource_type template name t /\ (own_resource t \/ stack_output t parts).
Definition attribute_allowed (a : attributes) (s : string) : Prop := match a with AttOne x => s = x | AttSome l => In s l end.
Inductive getatt_fault (template : val) (shown : list string -> string) (sp : list (string * attributes)) (prop name : string) (parts : list string) (at_ : path) : string -> Prop :=
| gft_none : sp = [] ->
    getatt_fault template shown sp prop name parts at_ ("Property """ ++ prop ++ """ has no valid Fn::GetAtt options at " ++ path_text at_)
| gft_type : sp <> [] -> (forall t, resource_type template name t -> ~ In t (keys sp)) ->
    getatt_fault template shown sp prop name parts at_ ("Property """ ++ prop ++ """ can Fn::GetAtt to a resource of types [" ++ join_str ", " (keys sp) ++ "] at " ++ path_text at_)
| gft_attribute : forall t a, resource_type template name t -> assoc t sp = Some a -> ~ attribute_allowed a (join_str "." parts) ->
    getatt_fault template shown sp prop name parts at_
      ("Property """ ++ prop ++ """ can Fn::GetAtt to a resource attribute """ ++ match a with AttOne s => s | AttSome l => shown l end ++ """ at " ++ path_text at_).

(** A finding about the argument [y] of [fn], called at [r] for the property [prop] of value [x] at [p]. *)
Inductive reference_fault (vs : list (string * vrule)) (template : val) (kinds : list (string * list string)) (shown : list string -> string) (prop : string) (ps : pspec) (x : val) (p r : path) : string -> val -> string -> Prop :=
| rfa_ref : forall name vr sp words, restriction vs ps x p (VDict [("Ref", VStr name)]) r vr -> vr_ref vr = Some sp ->
    ref_fault template kinds sp prop name (r ++ [PKey "Ref"])%list words -> reference_fault vs template kinds shown prop ps x p r "Ref" (VStr name) words
| rfa_output : forall y name parts t, getatt_parts y name parts -> resource_type template name t -> ~ own_resource t -> stack_output t parts ->
    whole_list ps x p (VDict [("Fn::GetAtt", y)]) r ->
    reference_fault vs template kinds shown prop ps x p r "Fn::GetAtt" y ("CloudFormation stack outputs need to be strings not lists at " ++ path_text (r ++ [PKey "Fn::GetAtt"])%list)
| rfa_getatt : forall y name parts vr sp words, getatt_parts y name parts -> ~ exempt template name parts -> restriction vs ps x p (VDict [("Fn::GetAtt", y)]) r vr -> vr_getatt vr = Some sp ->
    getatt_fault template shown sp prop name parts (r ++ [PKey "Fn::GetAtt"])%list words -> reference_fault vs template kinds shown prop ps x p r "Fn::GetAtt" y words.
(** The references of the properties can be judged: a Ref names something, a Fn::GetAtt a resource and an attribute. *)
Definition judgeable (v : val) (p : path) : Prop :=
  forall prop x q r, property_of v p prop x q ->
    (forall y, single x (q ++ [PKey prop])%list (VDict [("Ref", y)]) r -> exists n, y = VStr n) /\
    (forall y, single x (q ++ [PKey prop])%list (VDict [("Fn::GetAtt", y)]) r -> exists n parts, getatt_parts y n parts).
(** The kinds of parameters that the restrictions name are known. *)
Definition kinds_known (vs : list (string * vrule)) (kinds : list (string * list string)) : Prop :=
  forall t vr sp k, assoc t vs = Some vr -> vr_ref vr = Some sp -> In k (rf_parameters sp) -> In k (keys kinds).
