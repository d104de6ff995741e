(** Models of rules/metadata/InterfaceConfiguration.py (E4001) and rules/metadata/InterfaceParameterExists.py (W4001). *)
From Verif.Model Require Import Base Helpers Node Conditions Search Resolve Rules Refs Relationship Parameters PropertyRules ValueRules.
Import Verif.Model.Rules.
Local Open Scope string_scope.

Definition interface_key : string := "AWS::CloudFormation::Interface".
Definition interface_path : path := [PKey "Metadata"; PKey interface_key].

Section Interface.
(** [str()] of values other than texts, integers and booleans. *)
Variable str_other : val -> string.
Variable template : val.
(** InterfaceConfiguration.py:27-30 and InterfaceParameterExists.py:29-32; None when there is nothing to check. *)
Definition interface_object : res (option (list (string * val))) :=
  do md <- vget_def "Metadata" (VDict []) template;
  if truthy md then
    do i <- vget_def interface_key (VDict []) md;
    Ok (match i with VDict d => Some d | _ => None end)
  else Ok None.
(** The path of a finding ends in the key; keys that are no texts, which only a list can have for keys, are left out of it. *)
Definition key_match (p : path) (k : val) : rulematch :=
  mkRM (p ++ match k with VStr s => [PKey s] | _ => [] end)%list ("Metadata Interface has invalid property " ++ py_str str_other k).
Definition wrong_keys (valid : list string) (p : path) (ks : list val) : list rulematch :=
  flat_map (fun k => if existsb (fun s => eq_str s k) valid then [] else [key_match p k]) ks.
(** InterfaceConfiguration.match, InterfaceConfiguration.py:22-52. *)
Definition group_keys (ix : nat * val) : res (list rulematch) :=
  do ks <- iter_val (snd ix);
  Ok (wrong_keys ["Label"; "Parameters"] (interface_path ++ [PKey "ParameterGroups"; PIdx (fst ix)])%list ks).
Definition interface_configuration_match : res (list rulematch) :=
  do i <- interface_object;
  match i with
  | None => Ok []
  | Some d =>
      do gs <- iter_val (match assoc "ParameterGroups" d with Some g => g | None => VList [] end);
      do ms <- concat_res group_keys (enum gs);
      Ok (wrong_keys ["ParameterGroups"; "ParameterLabels"] interface_path (map VStr (keys d)) ++ ms)%list
  end.

(** InterfaceParameterExists.match, InterfaceParameterExists.py:22-60. *)
Definition absent_match (p : path) (v : val) : rulematch := mkRM p ("Metadata Interface parameter doesn't exist " ++ py_str str_other v).
Definition is_name (names : list string) (v : val) : bool := match v with VStr s => smem s names | _ => false end.
Definition group_parameters (names : list string) (ix : nat * val) : res (list rulematch) :=
  do b <- py_member (VStr "Parameters") (snd ix);
  if b then
    match snd ix with
    | VDict g =>
        match assoc "Parameters" g with
        | Some ps =>
            do l <- iter_val ps;
            Ok (flat_map (fun jx => if is_name names (snd jx) then []
                  else [absent_match (interface_path ++ [PKey "ParameterGroups"; PIdx (fst ix); PKey "Parameters"; PIdx (fst jx)])%list (snd jx)]) (enum l))
        | None => Err EKey
        end
    | _ => Err ETypeErr
    end
  else Ok [].
Definition label_parameters (names : list string) (d : list (string * val)) : list rulematch :=
  match assoc "ParameterLabels" d with
  | Some (VDict l) =>
      flat_map (fun k => if smem k names then [] else [absent_match (interface_path ++ [PKey "ParameterLabels"; PKey k])%list (VStr k)]) (keys l)
  | _ => []
  end.
Definition interface_parameters_match : res (list rulematch) :=
  do names <- get_parameter_names template;
  do i <- interface_object;
  match i with
  | None => Ok []
  | Some d =>
      do ms <- (match assoc "ParameterGroups" d with Some (VList gs) => concat_res (group_parameters names) (enum gs) | _ => Ok [] end);
      Ok (ms ++ label_parameters names d)%list
  end.
End Interface.

(** The rules as the collection holds them. *)
Definition interface_configuration_rule (str_other : val -> string) : rule :=
  mkRule "E4001" false [] [] [] [] (fun _ => ([], [])) (Some (fun _ c => interface_configuration_match str_other (template c))) None None.
Definition interface_parameters_rule (str_other : val -> string) : rule :=
  mkRule "W4001" false [] [] [] [] (fun _ => ([], [])) (Some (fun _ c => interface_parameters_match str_other (template c))) None None.
