(** Model of Template.get_valid_refs (src/cfnlint/template.py:134-166) and rules/functions/RefExist.py (E1012). *)
From Verif.Model Require Import Base Helpers Search.

(** ['Type' in value] followed by [value['Type']], template.py:140-142: [None] when the first is false. *)
Fixpoint contains_text (p s : string) : bool :=
  starts_with p s || match s with EmptyString => false | String _ s' => contains_text p s' end.
Definition member_type (value : val) : res (option val) :=
  match value with
  | VDict d => Ok (assoc "Type" d)
  | VStr s => if contains_text "Type" s then Err ETypeErr else Ok None
  | VList l => if existsb (eq_str "Type") l then Err ETypeErr else Ok None
  | _ => Err ETypeErr
  end.

(** [x.items()] of a value that is not falsy. *)
Definition items_if (x : val) : res (list (string * val)) :=
  if truthy x then
    match x with VDict d => Ok d | VStr _ | VList _ => Err ETemplateAttribute | _ => Err EAttribute end
  else Ok [].

Record ref_info := mkRef { ref_type : val; ref_from : string }.

(** template.py:138-144. *)
Fixpoint parameter_refs (ps : list (string * val)) (results : list (string * ref_info)) : res (list (string * ref_info)) :=
  match ps with
  | [] => Ok results
  | (name, value) :: rest =>
      do t <- member_type value;
      parameter_refs rest (match t with Some x => set_assoc name (mkRef x "Parameters") results | None => results end)
  end.
(** template.py:146-158. *)
Fixpoint resource_refs (rs : list (string * val)) (results : list (string * ref_info)) : res (list (string * ref_info)) :=
  match rs with
  | [] => Ok results
  | (name, value) :: rest =>
      do t <- vget_def "Type" (VStr "") value;
      match t with
      | VStr s =>
          resource_refs rest
            (if ends_with "::MODULE" s then set_assoc (name ++ ".*") (mkRef (VStr "MODULE") "Resources") results
             else if String.eqb s "" then results else set_assoc name (mkRef t "Resources") results)
      | VList _ | VDict _ => Err ETemplateAttribute
      | _ => Err EAttribute
      end
  end.
(** template.py:160-165 ("Pseduo" as in the source). *)
Definition pseudo_refs (results : list (string * ref_info)) : list (string * ref_info) :=
  fold_left (fun r p => set_assoc p (mkRef (VStr "Pseudo") "Pseduo") r) PSEUDOPARAMS results.

Definition get_valid_refs (template : val) : res (list (string * ref_info)) :=
  do ps <- vget_def "Parameters" (VDict []) template;
  do ps <- items_if ps;
  do a <- parameter_refs ps [];
  do rs <- vget_def "Resources" (VDict []) template;
  do rs <- items_if rs;
  do b <- resource_refs rs a;
  Ok (pseudo_refs b).

(** [ref not in valid_refs], RefExist.py:39: matching a regular expression against a number raises TypeError. *)
Definition ref_check (valid : list (string * ref_info)) (pv : path * val) : res (list rulematch) :=
  match snd pv with
  | VStr s =>
      if regex_contains valid s then Ok []
      else Ok [mkRM (removelast (fst pv)) ("Ref " ++ s ++ " not found as a resource or parameter")%string]
  | VInt _ | VBool _ => match valid with [] => Ok [] | _ => Err ETypeErr end
  | _ => Ok []
  end.

(** RefExist.match, RefExist.py:23-45.  The path of the match is reftree[:-2]: without the key 'Ref' and the value. *)
Definition ref_exist_match (template globals : val) : res (list rulematch) :=
  do valid <- get_valid_refs template;
  concat_res (ref_check valid) (search_deep_keys "Ref" template globals).
