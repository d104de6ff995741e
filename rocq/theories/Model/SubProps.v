(** Models of Template.get_resources with types and get_resource_properties (template.py:63-81, 221-281), and of the rules that use it:
    rules/resources/ectwo/Ebs.py (E2504), rules/resources/cloudfront/Aliases.py (E3013) and
    rules/resources/ecs/TaskDefinitionEssentialContainer.py (E3042). *)
From Verif.Model Require Import Base Helpers Search Rules Refs Relationship Functions PropertyRules.
Import Verif.Model.Rules.
Local Open Scope string_scope.

(** [cfn.get_resources(types)], template.py:63-81, for a list of types that is not empty. *)
Definition resources_of (types : list string) (template : val) : list (string * val) :=
  filter (fun nr => match assoc "Type" (dict_of (snd nr)) with Some t => existsb (fun rt => eq_str rt t) types | None => false end) (get_resources template).

(** The number of parts of a value. *)
Fixpoint val_size (v : val) : nat :=
  match v with
  | VList l => S (fold_right (fun x n => val_size x + n) 0 l)
  | VDict d => S (fold_right (fun kv n => val_size (snd kv) + n) 0 d)
  | _ => 1
  end.
(** Template._get_sub_resource_properties, template.py:221-266.  Each call is for a part of the value, so that the fuel of
    get_resource_properties is enough. *)
Fixpoint sub_properties (fuel : nat) (ks : list string) (v : val) (p : path) : res (list (path * val)) :=
  match fuel with
  | O => Err EOutOfFuel
  | S f =>
      match ks with
      | [] => Ok [(p, v)]
      | key :: rest =>
          match v with
          | VDict d => match assoc key d with Some x => sub_properties f rest x (p ++ [PKey key])%list | None => Ok [] end
          | VList l =>
              concat_res (fun ix =>
                match snd ix with
                | VDict [(k, x)] =>
                    if smem k CONDITION_FUNCTIONS then
                      concat_res (fun cv => sub_properties f ks (snd cv) (p ++ [PIdx (fst ix); PKey k] ++ fst cv)%list) (condition_values x [])
                    else if String.eqb k "Ref" && eq_str "AWS::NoValue" x then Ok []
                    else sub_properties f ks x (p ++ [PKey k])%list
                | VDict d => sub_properties f ks (VDict d) (p ++ [PIdx (fst ix)])%list
                | _ => Ok []
                end) (enum l)
          | _ => Ok []
          end
      end
  end.
(** Template.get_resource_properties, template.py:268-281. *)
Definition get_resource_properties (rt : string) (ks : list string) (template : val) : res (list (path * val)) :=
  concat_res (fun nr =>
    do props <- vget "Properties" (snd nr);
    if truthy props then sub_properties (S (val_size props)) ks props [PKey "Resources"; PKey (fst nr); PKey "Properties"] else Ok [])
    (resources_of [rt] template).

(** * E2504 *)
(** re.match(r'^ephemeral([0-9]|[1][0-9]|[2][0-3])$', name). *)
Definition ephemeral_names : list string := map (fun n => "ephemeral" ++ str_of_Z (Z.of_nat n)) (seq 0 24).
Definition ephemeral (s : string) : bool := smem (drop_last_newline s) ephemeral_names.
(** Ebs._checkEbs, Ebs.py:20-45. *)
Definition check_ebs (ebs : val) (p : path) : res (list rulematch) :=
  match ebs with
  | VDict _ =>
      do types <- get_values ebs "VolumeType" [];
      do iops <- get_values ebs "Iops" [];
      Ok (match types with
          | None => []
          | Some l =>
              flat_map (fun qv => match snd qv with
                | VStr s =>
                    if String.eqb s "io1" then
                      match iops with
                      | None => [mkRM (p ++ [PKey "VolumeType"])%list ("VolumeType io1 requires Iops to be specified for " ++ path_text (p ++ [PKey "VolumeType"])%list)]
                      | Some _ => []
                      end
                    else if String.eqb s "" then []
                    else match iops with
                         | None => []
                         | Some _ => [mkRM (p ++ [PKey "Iops"])%list ("Iops shouldn't be defined for type " ++ s ++ " for " ++ path_text (p ++ [PKey "Iops"])%list)]
                         end
                | _ => []
                end) l
          end)
  | _ => Ok []
  end.
(** The body of the loop of Ebs.match, Ebs.py:57-70.  re.match of what is no text raises. *)
Definition check_device (p : path) (ix : nat * val) : res (list rulematch) :=
  do virtual <- vget "VirtualName" (snd ix);
  do ebs <- vget "Ebs" (snd ix);
  if truthy virtual then
    match virtual with
    | VStr s => let q := (p ++ [PIdx (fst ix); PKey "VirtualName"])%list in
                Ok (if ephemeral s then [] else [mkRM q ("Property VirtualName should be of type ephemeral(n) for " ++ path_text q)])
    | _ => Err ETypeErr
    end
  else if truthy ebs then check_ebs ebs (p ++ [PIdx (fst ix); PKey "Ebs"])%list
  else Ok [].
Definition check_devices (pv : path * val) : res (list rulematch) :=
  match snd pv with VList l => concat_res (check_device (fst pv)) (enum l) | _ => Ok [] end.
(** Ebs.match, Ebs.py:46-71. *)
Definition ebs_match (template : val) : res (list rulematch) :=
  do a <- get_resource_properties "AWS::EC2::Instance" ["BlockDeviceMappings"] template;
  do b <- get_resource_properties "AWS::AutoScaling::LaunchConfiguration" ["BlockDeviceMappings"] template;
  concat_res check_devices (a ++ b)%list.
Definition ebs_rule : rule := mkRule "E2504" false [] [] [] [] (fun _ => ([], [])) (Some (fun _ c => ebs_match (template c))) None None.

(** * E3013 *)
(** re.match(valid_domain, alias), Aliases.py:24-25: labels of letters, digits and hyphens; all but the last may begin with a star. *)
Definition is_lower_alnum (a : ascii) : bool := is_digit a || in_range 97 122 a.
Definition is_label_char (a : ascii) : bool := is_lower_alnum a || char_eqb a "-".
Fixpoint last_char (s : string) : option ascii :=
  match s with EmptyString => None | String a EmptyString => Some a | String _ r => last_char r end.
Definition opt_test (f : ascii -> bool) (o : option ascii) : bool := match o with Some a => f a | None => false end.
Definition label_head (s : string) : bool :=
  match s with
  | EmptyString => false
  | String a r => (is_lower_alnum a || char_eqb a "*") && (String.eqb r "" || (str_forall is_label_char r && opt_test is_lower_alnum (last_char r))) && Nat.leb (String.length s) 63
  end.
Definition label_last (s : string) : bool :=
  match s with
  | EmptyString => false
  | String a r => is_lower_alnum a && str_forall is_label_char r && opt_test is_lower_alnum (last_char r) && Nat.leb (String.length s) 63
  end.
Definition domain_labels (l : list string) : bool :=
  match l with
  | _ :: _ :: _ => forallb label_head (removelast l) && label_last (List.last l "")
  | _ => false
  end.
Definition valid_domain (s : string) : bool := domain_labels (split_on "." (drop_last_newline s)).
Section Aliases.
(** [message.format(...)] of a message with braces in it; a message without stays as it is. *)
Variable reformat : string -> res string.
Definition format_again (m : string) : res string := if has_char "{" m || has_char "}" m then reformat m else Ok m.
(** The body of the inner loop of Aliases.match, Aliases.py:32-46. *)
Definition check_alias (p : path) (alias : val) : res (list rulematch) :=
  match alias with
  | VStr s =>
      if smem s FUNCTIONS then Ok []
      else
        do a <- (if smem "*" (tl (split_on "." s)) then do m <- format_again ("Invalid use of wildcards: " ++ s); Ok [mkRM (p ++ [PKey "Aliases"])%list m] else Ok []);
        do b <- (if valid_domain s then Ok [] else do m <- format_again ("Invalid alias found: " ++ s); Ok [mkRM (p ++ [PKey "Aliases"])%list m]);
        Ok (a ++ b)%list
  | _ => Ok []
  end.
(** [for x in v]: a text gives its characters, an object its keys. *)
Definition iterated (v : val) : res (list val) :=
  match v with
  | VList l => Ok l
  | VDict d => Ok (map VStr (keys d))
  | VStr s => Ok (map (fun a => VStr (String a "")) (list_ascii_of_string s))
  | _ => Err ETypeErr
  end.
Definition check_aliases (pv : path * val) : res (list rulematch) :=
  do aliases <- vget "Aliases" (snd pv);
  if truthy aliases then do l <- iterated aliases; concat_res (check_alias (fst pv)) l else Ok [].
(** Aliases.match, Aliases.py:19-48. *)
Definition aliases_match (template : val) : res (list rulematch) :=
  do results <- get_resource_properties "AWS::CloudFront::Distribution" ["DistributionConfig"] template;
  concat_res check_aliases results.
Definition aliases_rule : rule := mkRule "E3013" false [] [] [] [] (fun _ => ([], [])) (Some (fun _ c => aliases_match (template c))) None None.
End Aliases.

(** * E3042 *)
(** ['Essential' in container] and [container['Essential']], TaskDefinitionEssentialContainer.py:29-37. *)
Definition is_essential (container : val) : res bool :=
  match container with
  | VDict d => Ok (match assoc "Essential" d with Some x => truthy x | None => true end)
  | VStr s => if contains_text "Essential" s then Err ETypeErr else Ok true
  | VList l => if existsb (fun x => eq_str "Essential" x) l then Err ETypeErr else Ok true
  | _ => Err ETypeErr
  end.
Fixpoint any_essential (l : list val) : res bool :=
  match l with
  | [] => Ok false
  | x :: r => do a <- is_essential x; do b <- any_essential r; Ok (a || b)
  end.
Definition check_containers (pv : path * val) : res (list rulematch) :=
  do l <- iterated (snd pv);
  do b <- any_essential l;
  Ok (if b then [] else [mkRM (fst pv) ("No essential containers defined for " ++ path_text (fst pv))]).
(** TaskDefinitionEssentialContainer.match, TaskDefinitionEssentialContainer.py:17-46. *)
Definition containers_match (template : val) : res (list rulematch) :=
  do results <- get_resource_properties "AWS::ECS::TaskDefinition" ["ContainerDefinitions"] template;
  concat_res check_containers results.
Definition containers_rule : rule := mkRule "E3042" false [] [] [] [] (fun _ => ([], [])) (Some (fun _ c => containers_match (template c))) None None.
