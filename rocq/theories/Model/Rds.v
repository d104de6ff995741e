(** Model of rules/resources/rds/InstanceSize.py (E3025). *)
From Verif.Model Require Import Base Helpers Node Search Rules PropertyRules SubProps.
Import Verif.Model.Rules.
Local Open Scope string_scope.

(** data/AdditionalSpecs/RdsProperties.json: licenses, engines, regions, classes.  The data is an argument of the model. *)
Definition class_table : Type := list (string * list (string * list (string * list string))).
Section Rds.
Variable table : class_table.
(** [cfn.regions], template.py:20-23. *)
Variable regions : list string.
(** [engine in self.valid_instance_types.get(license)], InstanceSize.py:25-27; without the license [get] gives None. *)
Definition engine_listed (license engine : string) : res bool :=
  match assoc license table with Some engines => Ok (smem engine (keys engines)) | None => Err ETypeErr end.
(** InstanceSize._get_license_model, InstanceSize.py:22-34. *)
Definition license_model (engine : string) (license : val) : res val :=
  if truthy license then Ok license
  else do a <- engine_listed "license-included" engine;
       if a then Ok (VStr "license-included")
       else do b <- engine_listed "bring-your-own-license" engine;
            Ok (VStr (if b then "bring-your-own-license" else "general-public-license")).
(** InstanceSize.check_db_config, InstanceSize.py:68-86. *)
Definition check_db (engine class license : string) (p : path) (region : string) : list rulematch :=
  match assoc license table with
  | Some engines =>
      match assoc engine engines with
      | Some rs =>
          match assoc region rs with
          | Some classes =>
              if smem class classes then []
              else [mkRM (p ++ [PKey "DBInstanceClass"])%list
                     ("DBInstanceClass """ ++ class ++ """ is not compatible with engine type """ ++ engine ++ """ and LicenseModel """ ++ license ++
                      """ in region """ ++ region ++ """. Use instance types [" ++ join_str ", " classes ++ "]")]
          | None => []
          end
      | None => []
      end
  | None => []
  end.
(** The body of the loop of InstanceSize.get_resources, InstanceSize.py:43-64, with what InstanceSize.match does with its
    result.  In the code all resources are collected before the first one is checked; the checks raise nothing. *)
Definition db_one (wq : val * path) : res (list rulematch) :=
  do engine <- vget "Engine" (fst wq);
  do class <- vget "DBInstanceClass" (fst wq);
  do license <- vget "LicenseModel" (fst wq);
  match engine, class with
  | VStr e, VStr c =>
      do l <- license_model e license;
      Ok (match l with VStr l => flat_map (check_db e c l (snd wq)) regions | _ => [] end)
  | _, _ => Ok []
  end.
(** InstanceSize.match, InstanceSize.py:88-96. *)
Definition db_match (template : val) : res (list rulematch) :=
  concat_res (fun nr =>
    do props <- vget "Properties" (snd nr);
    do sets <- obj_items_safe props [PKey "Resources"; PKey (fst nr); PKey "Properties"];
    concat_res db_one sets) (resources_of ["AWS::RDS::DBInstance"] template).
Definition db_rule : rule :=
  mkRule "E3025" false [] [] [] [] (fun _ => ([], [])) (Some (fun _ c => db_match (template c))) None None.
End Rds.
