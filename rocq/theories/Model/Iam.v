(** Models of rules/resources/iam/Policy.py (E2507), rules/resources/iam/PolicyVersion.py (W2511),
    rules/resources/iam/Permissions.py (W3037) and rules/resources/iam/RefWithPath.py (E3050). *)
From Verif.Model Require Import Base Helpers Node Search Rules Refs Relationship Limits Parameters ConditionRules PropertyRules Functions.
Import Verif.Model.Rules.
Local Open Scope string_scope.

(** * E2507 *)
Section Documents.
(** [convert_dict(json.loads(text))]: [None] if it raises.  The marks of the keys play no part. *)
Variable json : string -> option val.

(** Policy.__init__, Policy.py:24-42. *)
Definition resources_and_keys : list (string * string) :=
  [("AWS::ECR::Repository", "RepositoryPolicyText"); ("AWS::Elasticsearch::Domain", "AccessPolicies"); ("AWS::KMS::Key", "KeyPolicy");
   ("AWS::S3::BucketPolicy", "PolicyDocument"); ("AWS::SNS::TopicPolicy", "PolicyDocument"); ("AWS::SQS::QueuePolicy", "PolicyDocument")].
Definition idp_and_keys : list (string * string) :=
  [("AWS::IAM::Group", "Policies"); ("AWS::IAM::ManagedPolicy", "PolicyDocument"); ("AWS::IAM::Policy", "PolicyDocument");
   ("AWS::IAM::Role", "Policies"); ("AWS::IAM::User", "Policies"); ("AWS::SSO::PermissionSet", "InlinePolicy")].
Definition statement_valid_keys : list string :=
  ["Action"; "Condition"; "Effect"; "NotAction"; "NotPrincipal"; "NotResource"; "Principal"; "Resource"; "Sid"].
Definition has (k : string) (s : list (string * val)) : bool := smem k (keys s).
Definition key_matches (s : list (string * val)) (b : path) : list rulematch :=
  flat_map (fun kv => if smem (fst kv) statement_valid_keys then [] else [mkRM (b ++ [PKey (fst kv)])%list ("IAM Policy statement key " ++ fst kv ++ " isn't valid")]) s.
Definition effect_match (b : path) (ep : val * path) : list rulematch :=
  match fst ep with
  | VStr e => if smem e ["Allow"; "Deny"] then [] else [mkRM (b ++ snd ep)%list "IAM Policy Effect should be Allow or Deny"]
  | _ => []
  end.
Definition effect_matches (s : list (string * val)) (b : path) : res (list rulematch) :=
  if has "Effect" s then do es <- get_safe s "Effect" VNull [] None; Ok (flat_map (effect_match b) es)
  else Ok [mkRM b "IAM Policy statement missing Effect"].
Definition action_matches (s : list (string * val)) (b : path) : list rulematch :=
  if negb (has "Action" s) && negb (has "NotAction" s) then [mkRM b "IAM Policy statement missing Action or NotAction"] else [].
Definition principal_matches (identity : bool) (s : list (string * val)) (b : path) : list rulematch :=
  if identity then
    if has "Principal" s || has "NotPrincipal" s then [mkRM b "IAM Resource Policy statement shouldn't have Principal or NotPrincipal"] else []
  else
    if negb (has "Principal" s) && negb (has "NotPrincipal" s)
    then [mkRM (b ++ [PKey "Principal"])%list "IAM Resource Policy statement should have Principal or NotPrincipal"] else [].
Definition resource_matches (exempt : bool) (s : list (string * val)) (b : path) : list rulematch :=
  if exempt then []
  else if negb (has "Resource" s) && negb (has "NotResource" s) then [mkRM b "IAM Policy statement missing Resource or NotResource"] else [].
(** Policy._check_policy_statement, Policy.py:106-157. *)
Definition check_policy_statement (identity exempt : bool) (sp : val * path) : res (list rulematch) :=
  do s <- items_of (fst sp);
  do es <- effect_matches s (snd sp);
  Ok (key_matches s (snd sp) ++ (es ++ (action_matches s (snd sp) ++ principal_matches identity s (snd sp) ++ resource_matches exempt s (snd sp))))%list.

(** [parent_value not in valid_versions]; the dates a YAML template may contain are not modelled. *)
Definition wrong_version (v : val) : bool := match v with VStr s => negb (smem s ["2012-10-17"; "2008-10-17"]) | _ => true end.
(** The loop over the keys of a document, Policy.py:74-103: [p] is the argument, [q] the path of items_safe. *)
Definition check_document_key (identity exempt : bool) (p q : path) (kv : string * val) : res (list rulematch) :=
  let '(k, x) := kv in
  let unknown := if smem k ["Version"; "Id"; "Statement"] then [] else [mkRM (p ++ (q ++ [PKey k]))%list ("IAM Policy key " ++ k ++ " doesn't exist.")] in
  let version := if String.eqb k "Version" && wrong_version x then [mkRM (q ++ [PKey k])%list "IAM Policy Version needs to be one of (2012-10-17, 2008-10-17)."] else [] in
  do statements <- if String.eqb k "Statement" then
                     match x with
                     | VList l => concat_res (check_policy_statement identity exempt) (list_items_safe is_dict l (q ++ [PKey "Statement"])%list)
                     | VDict _ => concat_res (check_policy_statement identity exempt) (items_safe x (q ++ [PKey "Statement"])%list)
                     | _ => Ok [mkRM (q ++ [PKey k])%list "IAM Policy statement should be of list."]
                     end
                   else Ok [];
  Ok (unknown ++ (version ++ statements))%list.
Definition check_document (identity exempt : bool) (v : val) (p : path) : res (list rulematch) :=
  match v with
  | VDict _ => concat_res (fun wq => do ms <- items_of (fst wq); concat_res (check_document_key identity exempt p (snd wq)) ms) (items_safe_t is_dict v p)
  | _ => Ok [mkRM p "IAM Policy Documents needs to be JSON"]
  end.
(** Policy.check_policy_document, Policy.py:48-104. *)
Definition check_policy_document (identity exempt : bool) (v : val) (p : path) : res (list rulematch) :=
  match v with
  | VStr s => match json s with
              | None => Ok [mkRM p "IAM Policy Documents need to be JSON"]
              | Some v' => check_document identity exempt v' p
              end
  | _ => check_document identity exempt v p
  end.
(** The loop over the properties, Policy.py:189-210 and Permissions.py:172-189. *)
Definition document_property (names : list string) (f : val -> path -> res (list rulematch)) (props : list (string * val)) (p : path) (kv : string * val) : res (list rulematch) :=
  match String.eqb (fst kv) "Policies", snd kv with
  | true, VList l => concat_res (fun jx => check_value (snd jx) "PolicyDocument" (p ++ [PKey "Policies"; PIdx (fst jx)])%list f []) (enum l)
  | _, _ => if smem (fst kv) names then check_value (VDict props) (fst kv) p f [] else Ok []
  end.
Definition document_names : list string := ["KeyPolicy"; "PolicyDocument"; "RepositoryPolicyText"; "AccessPolicies"; "InlinePolicy"].
Definition is_identity (rt : string) : bool := negb (smem rt (keys resources_and_keys)).
Definition is_exempt (rt : string) : bool := String.eqb rt "AWS::ECR::Repository".
(** Policy.match_resource_properties, Policy.py:159-212; the types come from the two tables, so there always is a key. *)
Definition policy_check (rt : string) (props : val) (p : path) : res (list rulematch) :=
  do ms <- items_of props; concat_res (document_property document_names (check_policy_document (is_identity rt) (is_exempt rt)) ms p) ms.

(** * W2511 *)
Definition old_version (v : val) : bool := match v with VStr s => String.eqb s "2008-10-17" | _ => false end.
Definition version_match (wq : val * path) : res (list rulematch) :=
  do v <- vget "Version" (fst wq);
  Ok (if truthy v && old_version v then [mkRM (snd wq ++ [PKey "Version"])%list "IAM Policy Version should be updated to '2012-10-17'."] else []).
(** PolicyVersion.check_policy_document, PolicyVersion.py:41-57. *)
Definition check_version (v : val) (p : path) : res (list rulematch) :=
  match v with
  | VDict _ => concat_res (fun wq => do inner <- obj_items_safe (fst wq) (snd wq); concat_res version_match inner) (items_safe v p)
  | _ => Ok []
  end.
(** PolicyVersion.__init__, PolicyVersion.py:21-35: without AWS::SSO::PermissionSet. *)
Definition version_keys : list (string * string) :=
  (resources_and_keys ++
   [("AWS::IAM::Group", "Policies"); ("AWS::IAM::ManagedPolicy", "PolicyDocument"); ("AWS::IAM::Policy", "PolicyDocument");
    ("AWS::IAM::Role", "Policies"); ("AWS::IAM::User", "Policies")])%list.
(** PolicyVersion.match_resource_properties, PolicyVersion.py:59-83. *)
Definition version_check (rt : string) (props : val) (p : path) : res (list rulematch) :=
  match assoc rt version_keys with
  | Some key =>
      if String.eqb key "Policies" then
        do v <- vget_def key (VList []) props;
        do l <- iter_val v;
        concat_res (fun jx => check_value (snd jx) "PolicyDocument" (p ++ [PKey "Policies"; PIdx (fst jx)])%list check_version []) (enum l)
      else check_value props key p check_version []
  | None => Ok []
  end.

(** * W3037 *)
(** [service_map]: what load_service_map answers: the actions of services, in lower case. *)
Variable service_map : list (string * list string).
Definition is_star (s : string) : bool := String.eqb s "*".
Definition nth_part (n : nat) (s : string) : string := nth n (split_on "*" s) "".
Definition known_permission (actions : list string) (perm : string) : bool :=
  if is_star perm then true
  else if ends_with "*" perm then existsb (contains_text (nth_part 0 perm)) actions
  else if starts_with "*" perm then existsb (contains_text (nth_part 1 perm)) actions
  else smem perm actions.
(** [action.split(':', 1)]. *)
Fixpoint split_colon (s : string) : option (string * string) :=
  match s with
  | EmptyString => None
  | String c r => if char_eqb c ":" then Some ("", r) else match split_colon r with Some (a, b) => Some (String c a, b) | None => None end
  end.
(** Permissions.check_permissions, Permissions.py:100-146. *)
Definition check_permission (p : path) (action : val) : res (list rulematch) :=
  match action with
  | VStr a =>
      if is_star a then Ok []
      else match split_colon a with
           | None => Err EValue
           | Some (service, perm) =>
               match assoc (lower service) service_map with
               | Some actions => Ok (if known_permission actions (lower perm) then []
                                     else [mkRM p ("Invalid permission """ ++ perm ++ """ for """ ++ service ++ """ found in permissions")])
               | None => Ok [mkRM p ("Invalid service """ ++ service ++ """ found in permissions")]
               end
           end
  | VList _ | VDict _ => Err ETemplateAttribute
  | _ => Err EAttribute
  end.
(** Permissions.get_actions, Permissions.py:148-165: the second test is on 'Action', not on 'NotAction'. *)
Definition actions_of (v : val) : res (list val) :=
  do b <- py_member (VStr "Action") v;
  if b then do a <- vget "Action" v; Ok (match a with VStr _ => [a] | VList l => l | _ => [] end) else Ok [].
Definition not_actions_of (v : val) : res (list val) :=
  do b <- py_member (VStr "NotAction") v;
  if b then
    do n <- vget "NotAction" v;
    match n with
    | VStr _ => Ok [n]
    | _ => do a <- vget "Action" v; match a with VList _ => iter_val n | _ => Ok [] end
    end
  else Ok [].
Definition get_actions (v : val) : res (list val) :=
  do a <- actions_of v; do n <- not_actions_of v; Ok (a ++ n)%list.
(** The loop over the statements, Permissions.py:84-97. *)
Definition statement_actions (x : val) : res (list val) :=
  match x with
  | VDict _ => get_actions x
  | VList l => concat_res get_actions l
  | _ => Ok []
  end.
Definition check_statements (v : val) (p : path) : res (list rulematch) :=
  let statements := match v with VDict [] => [] | VDict _ => [v] | VList l => l | _ => [] end in
  concat_res (fun jx => do acts <- statement_actions (snd jx); concat_res (check_permission (p ++ [PKey "Statement"; PIdx (fst jx)])%list) acts) (enum statements).
Definition permissions_document (v : val) (p : path) : res (list rulematch) :=
  match v with
  | VDict _ => concat_res (fun wq => do st <- vget "Statement" (fst wq); check_statements st (snd wq)) (items_safe_t is_dict v p)
  | _ => Ok []
  end.
(** Permissions.check_policy_document, Permissions.py:63-98. *)
Definition check_permissions_document (v : val) (p : path) : res (list rulematch) :=
  match v with
  | VStr s => match json s with
              | None => Ok [mkRM p "IAM Policy Documents need to be JSON"]
              | Some v' => permissions_document v' p
              end
  | _ => permissions_document v p
  end.
(** Permissions.match_resource_properties, Permissions.py:167-191. *)
Definition permission_names : list string := ["KeyPolicy"; "PolicyDocument"; "RepositoryPolicyText"; "AccessPolicies"].
Definition permission_check (props : val) (p : path) : res (list rulematch) :=
  do ms <- items_of props; concat_res (document_property permission_names check_permissions_document ms p) ms.
End Documents.
(** Permissions.load_service_map, Permissions.py:42-61, for the 'StringPrefix' and 'Actions' of the services of Policies.json. *)
Fixpoint add_service (service : string) (actions : list string) (m : list (string * list string)) : list (string * list string) :=
  match m with
  | [] => [(service, actions)]
  | (k, l) :: r => if String.eqb service k then (k, l ++ actions)%list :: r else (k, l) :: add_service service actions r
  end.
Definition load_service_map (services : list (string * list string)) : list (string * list string) :=
  fold_left (fun m sa => add_service (lower (fst sa)) (map lower (snd sa)) m) services [].

(** * E3050 *)
Section RefWithPath.
Variable str_other : val -> string.
Variable template : val.
(** RefWithPath.check_ref, RefWithPath.py:28-41; the resources are those of get_resources. *)
Definition path_message (v : val) : string :=
  "When using a Ref to IAM resource the Path must be '/'.  Switch to GetAtt if the Path has to be '" ++ py_str str_other v ++ "'.".
Definition path_ref (v : val) (p : path) : res (list rulematch) :=
  do params <- get_parameters template;
  match v with
  | VList _ | VDict _ => Err ETypeErr
  | _ =>
      let r := match v with VStr n => match assoc n (get_resources template) with Some r => r | None => VDict [] end | _ => VDict [] end in
      do props <- vget_def "Properties" (VDict []) r;
      do x <- vget "Path" props;
      Ok (if truthy x && negb (eq_str "/" x) then [mkRM p (path_message x)] else [])
  end.
(** RefWithPath.match_resource_properties, RefWithPath.py:43-58. *)
Definition path_check (props : val) (p : path) : res (list rulematch) := check_value props "ServiceRole" p (fun _ _ => Ok []) [("Ref", path_ref)].
End RefWithPath.

(** The rules as the collection holds them. *)
Definition policy_rule (json : string -> option val) : rule :=
  mkRule "E2507" false [] [] (keys resources_and_keys ++ keys idp_and_keys)%list [] (fun _ => ([], [])) None (Some (fun _ _ props rt p => policy_check json rt props p)) None.
Definition version_rule : rule :=
  mkRule "W2511" false [] [] (keys version_keys) [] (fun _ => ([], [])) None (Some (fun _ _ props rt p => version_check rt props p)) None.
Definition permission_types : list string :=
  ["AWS::Elasticsearch::Domain"; "AWS::IAM::Group"; "AWS::IAM::ManagedPolicy"; "AWS::IAM::Policy"; "AWS::IAM::Role"; "AWS::IAM::User"; "AWS::KMS::Key";
   "AWS::S3::BucketPolicy"; "AWS::SNS::TopicPolicy"; "AWS::SQS::QueuePolicy"].
Definition permission_rule (json : string -> option val) (service_map : list (string * list string)) : rule :=
  mkRule "W3037" true [] [] permission_types [] (fun _ => ([], [])) None (Some (fun _ _ props _ p => permission_check json service_map props p)) None.
Definition path_rule (str_other : val -> string) : rule :=
  mkRule "E3050" false [] [] ["AWS::CodeBuild::Project"] [] (fun _ => ([], [])) None (Some (fun _ c props _ p => path_check str_other (template c) props p)) None.
