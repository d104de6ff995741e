(** The limits of a template (C23) and its names (C24). *)
From Coq Require Import List String ZArith.
From Verif.Model Require Import Base Rules.
From Verif.Spec Require Import References.
Import ListNotations.
Local Open Scope string_scope.

(** A quantity with a limit: what it is called, where it is, its size, its limit and its unit. *)
Record quantity := mkQ { q_what : string; q_where : path; q_size : Z; q_limit : Z; q_unit : string }.

Definition exceeds (q : quantity) : Prop := (q_limit q < q_size q)%Z.
(** Above 90% of the limit, without exceeding it. *)
Definition approaches (q : quantity) : Prop := (9 * q_limit q < 10 * q_size q)%Z /\ (q_size q <= q_limit q)%Z.

Definition length (s : string) : Z := Z.of_nat (String.length s).
Definition section (template : val) (name : string) (members : list (string * val)) : Prop :=
  exists d, template = VDict d /\ assoc name d = Some (VDict members).
(** A resource counts when it is an object with a Type. *)
Definition counts (x : val) : bool :=
  match x with VDict o => match assoc "Type" o with Some VNull | None => false | Some _ => true end | _ => false end.

(** [limited template size number q]: [q] is a quantity the rules with this number look at. *)
Inductive limited (template : val) (size : option Z) : string -> quantity -> Prop :=
| lm_mapping_names : forall ms n x, section template "Mappings" ms -> In (n, x) ms ->
    limited template size "7011" (mkQ "The length of Mapping name" [PKey "Mappings"; PKey n] (length n) 255 "")
| lm_output_names : forall ms n x, section template "Outputs" ms -> In (n, x) ms ->
    limited template size "6011" (mkQ "The length of Output name" [PKey "Outputs"; PKey n] (length n) 255 "")
| lm_parameter_names : forall ms n x, section template "Parameters" ms -> In (n, x) ms ->
    limited template size "2011" (mkQ "The length of Parameter name" [PKey "Parameters"; PKey n] (length n) 255 "")
| lm_resource_names : forall ms n x, section template "Resources" ms -> In (n, x) ms ->
    limited template size "3011" (mkQ "The length of Resource name" [PKey "Resources"; PKey n] (length n) 255 "")
| lm_mappings : forall ms, section template "Mappings" ms ->
    limited template size "7010" (mkQ "The number of Mappings" [PKey "Mappings"] (Z.of_nat (List.length ms)) 200 "")
| lm_outputs : forall ms, section template "Outputs" ms ->
    limited template size "6010" (mkQ "The number of Outputs" [PKey "Outputs"] (Z.of_nat (List.length ms)) 200 "")
| lm_parameters : forall ms, section template "Parameters" ms ->
    limited template size "2010" (mkQ "The number of Parameters" [PKey "Parameters"] (Z.of_nat (List.length ms)) 200 "")
| lm_resources : forall ms, section template "Resources" ms ->
    limited template size "3010"
      (mkQ "The number of Resources" [PKey "Resources"] (Z.of_nat (List.length (filter (fun nx => counts (snd nx)) ms))) 500 "")
| lm_attributes : forall ms n attrs a x, section template "Mappings" ms -> In (n, VDict attrs) ms -> In (a, VDict x) attrs ->
    limited template size "7012"
      (mkQ "The amount of mapping attributes" [PKey "Mappings"; PKey n; PKey a] (Z.of_nat (List.length x)) 200 "")
| lm_output_description : forall ms n o t, section template "Outputs" ms -> In (n, VDict o) ms -> assoc "Description" o = Some (VStr t) ->
    limited template size "6012" (mkQ "The length of output description" [PKey "Outputs"; PKey n; PKey "Description"] (length t) 1024 "")
| lm_description : forall d t, template = VDict d -> assoc "Description" d = Some (VStr t) ->
    limited template size "1003" (mkQ "The template description" [PKey "Description"] (length t) 1024 " bytes")
| lm_size : forall n, size = Some n ->
    limited template size "1002" (mkQ "The template file size" [PKey "Template"] n 1000000 " bytes")
| lm_default : forall ms n o t, section template "Parameters" ms -> In (n, VDict o) ms -> assoc "Default" o = Some (VStr t) ->
    limited template size "2012"
      (mkQ "The length of parameter default value" [PKey "Parameters"; PKey n; PKey "Default"] (length t) 4096 "")
| lm_max_length : forall ms n o z, section template "Parameters" ms -> In (n, VDict o) ms ->
    (assoc "MaxLength" o = Some (VInt z) \/ exists t, assoc "MaxLength" o = Some (VStr t) /\ parse_int t = Some z) ->
    limited template size "2012" (mkQ "The MaxLength of parameter" [PKey "Parameters"; PKey n; PKey "MaxLength"] z 4096 "")
| lm_allowed : forall ms n o l t, section template "Parameters" ms -> In (n, VDict o) ms -> assoc "AllowedValues" o = Some (VList l) ->
    In (VStr t) l ->
    limited template size "2012"
      (mkQ "The length of parameter allowed value" [PKey "Parameters"; PKey n; PKey "AllowedValues"] (length t) 4096 "").

(** The documented shape: sections are objects, mappings objects of objects, outputs and parameters objects, descriptions
    texts and AllowedValues lists. *)
Definition documented (template : val) : Prop :=
  exists d, template = VDict d /\
  (forall s x, In s ["Mappings"; "Outputs"; "Parameters"; "Resources"] -> assoc s d = Some x -> exists m, x = VDict m) /\
  (forall ms n x, assoc "Mappings" d = Some (VDict ms) -> In (n, x) ms -> exists attrs, x = VDict attrs /\
     forall a y, In (a, y) attrs -> exists o, y = VDict o) /\
  (forall s ms n x, In s ["Outputs"; "Parameters"] -> assoc s d = Some (VDict ms) -> In (n, x) ms -> exists o, x = VDict o /\
     (forall t, s = "Outputs" -> assoc "Description" o = Some t -> exists u, t = VStr u) /\
     (forall t, s = "Parameters" -> assoc "AllowedValues" o = Some t -> exists l, t = VList l)) /\
  (forall t, assoc "Description" d = Some t -> exists u, t = VStr u).

(** Only ASCII letters and digits. *)
Definition alphanumeric (s : string) : Prop :=
  forall a, In a (list_ascii_of_string s) -> In a (list_ascii_of_string "ABCDEFGHIJKLMNOPQRSTUVWXYZabcdefghijklmnopqrstuvwxyz0123456789").
