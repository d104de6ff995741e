(** Models of rules about the attributes of resources and outputs: resources/DeletionPolicy.py (E3035),
    resources/UpdateReplacePolicy.py (E3036), resources/BothUpdateReplacePolicyDeletionPolicyNeeded.py (W3011),
    resources/UpdateReplacePolicyDeletionPolicyOnStatefulResourceTypes.py (I3011), resources/UniqueNames.py (E3007),
    resources/ServerlessTransform.py (E3038), resources/DependsOnObsolete.py (W3005), resources/NoEcho.py (W4002),
    resources/Modules.py (E5001) and outputs/Value.py (E6003). *)
From Verif.Model Require Import Base Helpers Rules Search Refs ConditionRules Limits Parameters Shape.

(** valid_snapshot_types, helpers.py:136-144. *)
Definition valid_snapshot_types : list string :=
  ["AWS::EC2::Volume"; "AWS::ElastiCache::CacheCluster"; "AWS::ElastiCache::ReplicationGroup"; "AWS::Neptune::DBCluster";
   "AWS::RDS::DBCluster"; "AWS::RDS::DBInstance"; "AWS::Redshift::Cluster"].

Section Policies.
(** [str(v)] of values other than texts, integers and booleans. *)
Variable str_other : val -> string.
(** check_value, resources/DeletionPolicy.py:20-47 and resources/UpdateReplacePolicy.py:20-47, which differ in the name of the
    attribute only. *)
Definition policy_value (attr : string) (key : val) (p : path) (res_type : val) : list rulematch :=
  match key with
  | VStr s =>
      (if smem s ["Delete"; "Retain"; "Snapshot"] then []
       else [mkRM p (attr ++ " should be only one of Delete, Retain, Snapshot at " ++ joined p)%string]) ++
      (if String.eqb s "Snapshot" && negb (py_in res_type (map VStr valid_snapshot_types))
       then [mkRM p (attr ++ " cannot be Snapshot for resources of type " ++ py_str str_other res_type ++ " at " ++ joined p)%string] else [])
  | _ => [mkRM p (attr ++ " values should be of string at " ++ joined p)%string]
  end.
(** match, resources/DeletionPolicy.py:49-66. *)
Definition policy_one (attr : string) (nx : string * val) : res (list rulematch) :=
  do policy <- vget attr (snd nx);
  if truthy policy then
    let p := [PKey "Resources"; PKey (fst nx); PKey attr] in
    do res_type <- vget "Type" (snd nx);
    Ok (match policy with
        | VList _ => [mkRM p ("Only one " ++ attr ++ " allowed per resource at " ++ joined p)%string]
        | _ => policy_value attr policy p res_type
        end)
  else Ok [].
Definition policy_match (attr : string) (template : val) : res (list rulematch) := concat_res (policy_one attr) (get_resources template).
End Policies.

(** match (W3011), BothUpdateReplacePolicyDeletionPolicyNeeded.py:17-30. *)
Definition both_one (nx : string * val) : res (list rulematch) :=
  do t <- vget "Type" (snd nx);
  if py_in t [VStr "AWS::Lambda::Version"; VStr "AWS::Lambda::LayerVersion"] then Ok []
  else
    do d <- vget "DeletionPolicy" (snd nx);
    do u <- vget "UpdateReplacePolicy" (snd nx);
    let p := [PKey "Resources"; PKey (fst nx)] in
    Ok (if truthy d && negb (eq_str "Delete" d) && negb (truthy u) || negb (truthy d) && truthy u && negb (eq_str "Delete" u)
        then [mkRM p ("Both UpdateReplacePolicy and DeletionPolicy are needed to protect " ++ joined p ++ " from deletion")%string] else []).
Definition both_match (template : val) : res (list rulematch) := concat_res both_one (get_resources template).

(** match (I3011), UpdateReplacePolicyDeletionPolicyOnStatefulResourceTypes.py:18-55. *)
Definition likely_stateful : list string :=
  ["AWS::CloudFormation::Stack"; "AWS::Backup::BackupVault"; "AWS::Cognito::UserPool"; "AWS::DocDB::DBCluster"; "AWS::DocDB::DBInstance";
   "AWS::DynamoDB::Table"; "AWS::EC2::Volume"; "AWS::EFS::FileSystem"; "AWS::EMR::Cluster"; "AWS::ElastiCache::CacheCluster";
   "AWS::ElastiCache::ReplicationGroup"; "AWS::Elasticsearch::Domain"; "AWS::FSx::FileSystem"; "AWS::Logs::LogGroup";
   "AWS::Neptune::DBCluster"; "AWS::Neptune::DBInstance"; "AWS::QLDB::Ledger"; "AWS::RDS::DBCluster"; "AWS::RDS::DBInstance";
   "AWS::Redshift::Cluster"; "AWS::SDB::Domain"; "AWS::SQS::Queue"].
Definition stateful_one (nx : string * val) : res (list rulematch) :=
  do t <- vget "Type" (snd nx);
  if py_in t (map VStr likely_stateful) then
    do d <- vget "DeletionPolicy" (snd nx);
    do u <- vget "UpdateReplacePolicy" (snd nx);
    let p := [PKey "Resources"; PKey (fst nx)] in
    Ok (if negb (truthy d) || negb (truthy u)
        then [mkRM p ("The default action when replacing/removing a resource is to delete it. Set explicit values for UpdateReplacePolicy / DeletionPolicy on potentially stateful resource: " ++ joined p)%string]
        else [])
  else Ok [].
Definition stateful_match (template : val) : res (list rulematch) := concat_res stateful_one (get_resources template).

(** match (E3007), UniqueNames.py:16-21. *)
Definition unique_names_match (template : val) : res (list rulematch) :=
  concat_res (fun nx =>
    do ps <- vget_def "Parameters" (VDict []) template;
    do b <- py_member (VStr (fst nx)) ps;
    Ok (if b then [mkRM [PKey "Resources"; PKey (fst nx)] ("Resources and Parameters must not share name: " ++ fst nx)%string] else []))
    (get_resources template).

(** match (E3038), ServerlessTransform.py:21-46; [resource_values['Type']] exists by get_resources. *)
Fixpoint first_serverless (rs : list (string * val)) : list rulematch :=
  match rs with
  | [] => []
  | (n, x) :: rest =>
      match assoc "Type" (dict_of x) with
      | Some (VStr t) => if starts_with "AWS::Serverless::" t
                         then [mkRM [PKey "Transform"] ("Serverless Transform required for Type " ++ t ++ " for resource " ++ n)%string]
                         else first_serverless rest
      | _ => first_serverless rest
      end
  end.
Definition serverless_transform_match (template : val) : res (list rulematch) :=
  do transforms <- vget_def "Transform" (VList []) template;
  let l := match transforms with VList l => l | x => [x] end in
  Ok (if existsb (eq_str "AWS::Serverless-2016-10-31") l then [] else first_serverless (get_resources template)).

Section Deep.
Variable str_other : val -> string.
Variables template globals : val.
(** get_resource_references, DependsOnObsolete.py:18-33. *)
Definition references_of (f resource : string) : list (path * val) :=
  filter (fun pv => match fst pv with PKey k :: PKey r :: _ => String.eqb k "Resources" && String.eqb r resource | _ => false end)
    (search_deep_keys f template globals).
(** [value[0]]. *)
Definition first_item (v : val) : res val :=
  match v with
  | VList (x :: _) => Ok x
  | VList [] => Err EIndex
  | VStr (String c _) => Ok (VStr (String c ""))
  | VStr EmptyString => Err EIndex
  | VDict _ => Err EKey
  | _ => Err ETypeErr
  end.
(** check_depends_on, DependsOnObsolete.py:35-58. *)
Definition obsolete_check (resource : string) (key : val) (p : path) : res (list rulematch) :=
  do b <- concat_res (fun pv =>
    do x <- first_item (snd pv);
    Ok (if py_eq x key then [mkRM p ("Obsolete DependsOn on resource (" ++ py_str str_other key ++ "), dependency already enforced by a ""Fn:GetAtt"" at " ++ joined (fst pv))%string] else []))
    (references_of "Fn::GetAtt" resource);
  Ok (flat_map (fun pv => if py_eq (snd pv) key
        then [mkRM p ("Obsolete DependsOn on resource (" ++ py_str str_other key ++ "), dependency already enforced by a ""Ref"" at " ++ joined (fst pv))%string] else [])
        (references_of "Ref" resource) ++ b).
(** match (W3005), DependsOnObsolete.py:60-79. *)
Definition obsolete_one (nx : string * val) : res (list rulematch) :=
  do depends_ons <- vget "DependsOn" (snd nx);
  let p := [PKey "Resources"; PKey (fst nx); PKey "DependsOn"] in
  if truthy depends_ons then
    match depends_ons with
    | VList l => concat_res (fun iv => obsolete_check (fst nx) (snd iv) (p ++ [PIdx (fst iv)])) (enum l)
    | _ => obsolete_check (fst nx) depends_ons p
    end
  else Ok [].
Definition obsolete_match : res (list rulematch) := concat_res obsolete_one (get_resources template).

(** _get_no_echo_params, NoEcho.py:19-27. *)
Definition no_echo_params : res (list string) :=
  do ps <- get_parameters template;
  do ps <- items_of ps;
  concat_res (fun nx =>
    do noecho <- vget_def "NoEcho" (VBool false) (snd nx);
    Ok (if bool_compare noecho (VBool true) then [fst nx] else [])) ps.
Definition in_metadata (p : path) : bool :=
  match p with PKey k :: _ :: PKey m :: _ => String.eqb k "Resources" && String.eqb m "Metadata" | _ => false end.
Definition no_echo_message (n : string) : string :=
  "As the resource ""metadata"" section contains reference to a ""NoEcho"" parameter " ++ n ++ ", CloudFormation will display the parameter value in plaintext".
(** _check_ref, NoEcho.py:29-43.  The path of a match ends in the name of the parameter. *)
Definition no_echo_refs (params : list string) : list rulematch :=
  flat_map (fun pv => match snd pv with
                      | VStr n => if smem n params && in_metadata (fst pv) then [mkRM (fst pv ++ [PKey n]) (no_echo_message n)] else []
                      | _ => []
                      end) (search_deep_keys "Ref" template globals).
(** _check_sub, NoEcho.py:45-63. *)
Definition no_echo_subs (params : list string) : list rulematch :=
  flat_map (fun pv => match snd pv with
                      | VStr s => flat_map (fun n => if smem n params && in_metadata (fst pv) then [mkRM (fst pv) (no_echo_message n)] else [])
                                    (get_sub_parameters s)
                      | _ => []
                      end) (search_deep_keys "Fn::Sub" template globals).
(** match (W4002), NoEcho.py:65-73. *)
Definition no_echo_match : res (list rulematch) :=
  do params <- no_echo_params;
  Ok (no_echo_refs params ++ no_echo_subs params).

(** get_modules, template.py:93-106. *)
Definition get_modules : res (list string) :=
  do rs <- vget_def "Resources" (VDict []) template;
  if truthy rs then
    do rs <- items_of rs;
    Ok (flat_map (fun nx => match snd nx with
                            | VDict o => match assoc "Type" o with
                                         | Some VNull | None => []
                                         | Some t => if ends_with "::MODULE" (py_str str_other t) then [fst nx] else []
                                         end
                            | _ => []
                            end) rs)
  else Ok [].
(** check_metadata_keys, Modules.py:58-68.  The path of a match ends in the value of the key, which the model leaves out.
    Testing whether an object or a list is a key raises TypeError. *)
Definition module_key : string := "AWS::CloudFormation::Module".
Definition metadata_keys : res (list rulematch) :=
  do modules <- get_modules;
  concat_res (fun pv =>
    match fst pv with
    | [_] => match snd pv with VList _ | VDict _ => Err ETypeErr | _ => Ok [] end
    | PKey k :: PKey r :: PKey m :: _ =>
        Ok (if smem r modules && String.eqb k "Resources" && String.eqb m "Metadata"
            then [mkRM (fst pv) "The Metadata key AWS::CloudFormation::Module is reserved"] else [])
    | _ => Ok []
    end) (search_deep_keys module_key template globals).
(** check_tags and check_policy, Modules.py:37-56. *)
Definition module_tags (nx : string * val) : res (list rulematch) :=
  do properties <- vget_def "Properties" (VDict []) (snd nx);
  do tags <- vget "Tags" properties;
  Ok (if truthy tags then [mkRM [PKey "Resources"; PKey (fst nx); PKey "Properties"; PKey "Tags"] "Tags is not permitted within Modules"] else []).
Definition module_policy (policy : string) (nx : string * val) : res (list rulematch) :=
  do x <- vget_def policy (VDict []) (snd nx);
  Ok (if truthy x then [mkRM [PKey "Resources"; PKey (fst nx); PKey policy] (policy ++ " is not permitted within Modules")%string] else []).
(** match (E5001), Modules.py:18-35. *)
Definition module_one (nx : string * val) : res (list rulematch) :=
  if existsb (fun kv => ends_with "::MODULE" (py_str str_other (snd kv))) (dict_of (snd nx)) then
    do a <- metadata_keys;
    do b <- module_tags nx;
    do c <- module_policy "CreationPolicy" nx;
    do d <- module_policy "UpdatePolicy" nx;
    Ok (a ++ b ++ c ++ d)
  else Ok [].
Definition modules_match : res (list rulematch) := concat_res module_one (get_resources template).

(** A result of search_deep_keys as the list it is in Python, whose last item is the value. *)
Definition tree_of (pv : path * val) : list val :=
  (map (fun e => match e with PKey k => VStr k | PIdx i => VInt (Z.of_nat i) end) (fst pv) ++ [snd pv])%list.
Definition from_end (l : list val) (n : nat) : res val := match nth_error (rev l) (Nat.pred n) with Some x => Ok x | None => Err EIndex end.
Definition from_start (l : list val) (n : nat) : res val := match nth_error l n with Some x => Ok x | None => Err EIndex end.
(** [x.get(k, {})] for any key [k]. *)
Definition vget_any (k x : val) : res val :=
  match k, x with
  | VStr s, _ => vget_def s (VDict []) x
  | (VList _ | VDict _), VDict _ => Err ETypeErr
  | _, VDict _ => Ok (VDict [])
  | _, _ => vget_def "" (VDict []) x
  end.
Fixpoint join_texts (l : list val) : res (list string) :=
  match l with
  | [] => Ok []
  | VStr s :: rest => do r <- join_texts rest; Ok (s :: r)
  | _ :: _ => Err ETypeErr
  end.
(** The type the specification gives an attribute of a resource type: resourcetypes[type]['Attributes'][attribute]['Type']. *)
Variable attribute_type : string -> string -> option string.
Definition attribute_lookup (objtype attr : val) : res (option string) :=
  match objtype, attr with
  | (VList _ | VDict _), _ => Err ETypeErr
  | _, (VList _ | VDict _) => Err ETypeErr
  | VStr t, VStr a => Ok (attribute_type t a)
  | _, _ => Ok None
  end.
(** [getatt[-4] != 'Fn::Join' and getatt[-3] != 1]. *)
Definition not_joined (tree : list val) : res bool :=
  do a <- from_end tree 4;
  if eq_str "Fn::Join" a then Ok false else do b <- from_end tree 3; Ok (negb (py_eq b (VInt 1))).
Definition output_value (tree : list val) : res bool :=
  do a <- from_start tree 0;
  if eq_str "Outputs" a then do b <- from_start tree 2; Ok (eq_str "Value" b) else Ok false.
Definition element_text (v : val) : string := py_str str_other v.
(** The loop over Fn::GetAtt of match (E6003), outputs/Value.py:33-50.  The path of a match ends in the value, which the
    model leaves out. *)
Definition getatt_list (pv : path * val) : res (list rulematch) :=
  let tree := tree_of pv in
  do b <- output_value tree;
  match b, snd pv with
  | true, VList obj =>
      do rs <- vget_def "Resources" (VDict []) template;
      do x <- from_start obj 0;
      do r <- vget_any x rs;
      do objtype <- vget "Type" r;
      if truthy objtype then
        do y <- from_start obj 1;
        do t <- attribute_lookup objtype y;
        match t with
        | Some t =>
            if String.eqb t "List" then
              do nj <- not_joined tree;
              if nj then
                do n <- from_start tree 1;
                do texts <- join_texts obj;
                Ok [mkRM (fst pv) ("Output " ++ element_text n ++ " value " ++ join_str "/" texts ++ " is of type list")%string]
              else Ok []
            else Ok []
        | None => Ok []
        end
      else Ok []
  | _, _ => Ok []
  end.
(** The loop over Ref, outputs/Value.py:52-69. *)
Definition ref_list (pv : path * val) : res (list rulematch) :=
  let tree := tree_of pv in
  do b <- output_value tree;
  match b, snd pv with
  | true, VStr obj =>
      do ps <- vget_def "Parameters" (VDict []) template;
      do param <- vget obj ps;
      if truthy param then
        do paramtype <- vget "Type" param;
        if truthy paramtype then
          match paramtype with
          | VStr t =>
              if starts_with "List<" t then
                do nj <- not_joined tree;
                if nj then
                  do n <- from_start tree 1;
                  Ok [mkRM (fst pv) ("Output " ++ element_text n ++ " value " ++ obj ++ " is of type list")%string]
                else Ok []
              else Ok []
          | VList _ | VDict _ => Err ETemplateAttribute
          | _ => Err EAttribute
          end
        else Ok []
      else Ok []
  | _, _ => Ok []
  end.
Definition output_value_match : res (list rulematch) :=
  do a <- concat_res getatt_list (search_deep_keys "Fn::GetAtt" template globals);
  do b <- concat_res ref_list (search_deep_keys "Ref" template globals);
  Ok (a ++ b).
End Deep.
