(** Model of src/cfnlint/transform.py: what happens to a template before and around the serverless translator.  Objects are
    values here: a template in which two places share one object (a YAML alias) is not modelled. *)
From Verif.Model Require Import Base Rules Parameters.
Local Open Scope string_scope.

(** is_s3_uri, transform.py:138-152. *)
Definition is_s3_uri (v : val) : bool := match v with VStr s => starts_with "s3://" s | _ => false end.
Definition fake_uri : string := "s3://bucket/value".
(** _update_to_s3_uri, transform.py:154-193.  [None.get] raises AttributeError. *)
Definition update_to_s3_uri (key : string) (ps : val) : res val :=
  do uri <- vget_def key (VStr ".") ps;
  let d := dict_of ps in
  Ok (match uri with
      | VDict [(k, _)] => if String.eqb k "Ref" then VDict (set_assoc key (VStr fake_uri) d) else ps
      | VDict _ => ps
      | _ => if is_s3_uri uri then ps else VDict (set_assoc key (VStr fake_uri) d)
      end).
(** [resource_dict[key] = v]: None, texts, numbers and lists raise TypeError. *)
Definition set_item (key : string) (v ps : val) : res val :=
  match ps with VDict d => Ok (VDict (set_assoc key v d)) | _ => Err ETypeErr end.

Section Replace.
Variable template : val.
(** The names whose value is set to Alias, transform.py:60-67 and 77-83.  Values that are no texts can only be found in a
    Parameters section that is a list. *)
Definition alias_names (alias : val) : res (list val) :=
  match alias with
  | VDict [(k, v)] =>
      if String.eqb k "Ref" then
        do ps <- vget "Parameters" template;
        do b <- py_member v ps;
        if b then match v with VList _ | VDict _ => Err ETypeErr | _ => Ok [v] end else Ok []
      else Ok []
  | _ => Ok []
  end.
(** The body of the loop over resources in _replace_local_codeuri, transform.py:69-102: the resource's new Properties, if
    it is a serverless resource, and names set to Alias. *)
Definition replace_properties (rtype ps : val) : res (val * list val) :=
  if eq_str "AWS::Serverless::Function" rtype then
    do ps' <- update_to_s3_uri "CodeUri" ps;
    do alias <- vget "AutoPublishAlias" ps';
    do names <- alias_names alias;
    Ok (ps', names)
  else if eq_str "AWS::Serverless::LayerVersion" rtype then
    do uri <- vget "ContentUri" ps;
    if truthy uri then do ps' <- update_to_s3_uri "ContentUri" ps; Ok (ps', []) else Ok (ps, [])
  else if eq_str "AWS::Serverless::Application" rtype then
    do uri <- vget "Location" ps;
    if truthy uri then
      do ps1 <- set_item "Location" (VStr "") ps;
      do ps' <- update_to_s3_uri "Location" ps1; Ok (ps', [])
    else Ok (ps, [])
  else if eq_str "AWS::Serverless::Api" rtype then
    do a <- py_member (VStr "DefinitionBody") ps;
    do b <- py_member (VStr "Auth") ps;
    do c <- py_member (VStr "Cors") ps;
    if a || b || c then do ps' <- set_item "DefinitionBody" (VStr "") ps; Ok (ps', [])
    else do ps' <- update_to_s3_uri "DefinitionUri" ps; Ok (ps', [])
  else if eq_str "AWS::Serverless::StateMachine" rtype then
    do uri <- vget "DefinitionUri" ps;
    if truthy uri then do ps' <- update_to_s3_uri "DefinitionUri" ps; Ok (ps', []) else Ok (ps, [])
  else Ok (ps, []).
Definition replace_resource (resource : val) : res (val * list val) :=
  do rtype <- vget "Type" resource;
  do ps <- vget "Properties" resource;
  do r <- replace_properties rtype ps;
  let o := dict_of resource in
  Ok (if mem_assoc "Properties" o then VDict (set_assoc "Properties" (fst r) o) else resource, snd r).
Fixpoint replace_resources (rs : list (string * val)) : res (list (string * val) * list val) :=
  match rs with
  | [] => Ok ([], [])
  | (n, x) :: rest =>
      do r <- replace_resource x;
      do q <- replace_resources rest;
      Ok ((n, fst r) :: fst q, (snd r ++ snd q)%list)
  end.
(** _replace_local_codeuri, transform.py:47-102: the template after it and the names of the parameters set to Alias. *)
Definition replace_local_codeuri : res (val * list val) :=
  do all_resources <- vget_def "Resources" (VDict []) template;
  do globals <- vget_def "Globals" (VDict []) template;
  do function <- vget_def "Function" (VDict []) globals;
  do alias <- vget "AutoPublishAlias" function;
  do names <- alias_names alias;
  match all_resources with
  | VDict rs =>
      do q <- replace_resources rs;
      let d := dict_of template in
      Ok (if mem_assoc "Resources" d then VDict (set_assoc "Resources" (VDict (fst q)) d) else template, (names ++ snd q)%list)
  | VStr _ | VList _ => Err ETemplateAttribute
  | _ => Err EAttribute
  end.
End Replace.

(** The translator, which is not part of this repository: a template, the messages of an InvalidDocumentException, or the text of
    another exception. *)
Inductive translated := Translated (t : val) | Invalid (messages : list string) | Raised (text : string).
(** transform_template, transform.py:104-136: findings and, if there was no exception, the new template. *)
Definition transform_finding (filename text : string) : finding :=
  mkFinding 1 1 1 1 filename "E0001" ("Error transforming template: " ++ text).
Definition transform_template (translate : val -> list val -> translated) (exn_text : exn -> string) (filename : string) (template : val)
  : list finding * option val :=
  match replace_local_codeuri template with
  | Err e => ([transform_finding filename (exn_text e)], None)
  | Ok (t, names) =>
      match translate t names with
      | Translated t' => ([], Some t')
      | Invalid messages => (map (transform_finding filename) messages, None)
      | Raised text => ([transform_finding filename text], None)
      end
  end.
