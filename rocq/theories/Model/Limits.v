(** Models of rules/common.py, of the rules that check limits (rules/*/LimitName.py, LimitNumber.py, LimitAttributes.py,
    LimitDescription.py, LimitValue.py, LimitSize.py and their Approaching counterparts) and of the rules about names
    (rules/*/Name.py). *)
From Verif.Model Require Import Base Helpers Rules ConditionRules.

(** [len(v)]. *)
Definition py_len (v : val) : res Z :=
  match v with
  | VStr s => Ok (Z.of_nat (String.length s))
  | VList l => Ok (Z.of_nat (List.length l))
  | VDict d => Ok (Z.of_nat (List.length d))
  | _ => Err ETypeErr
  end.

(** The two tests: [n > limit] and [LIMITS['threshold'] * limit < n <= limit].  The threshold is the float 0.9 (helpers.py:133);
    for the limits in use (200, 255, 500, 1024, 4096, 1000000) the float product compares to an integer as the exact one. *)
Inductive kind := Exceeds | Approaches.
Definition over (k : kind) (n limit : Z) : bool :=
  match k with
  | Exceeds => Z.ltb limit n
  | Approaches => Z.ltb (9 * limit) (10 * n) && Z.leb n limit
  end.
Definition verb (k : kind) : string := match k with Exceeds => " exceeds" | Approaches => " is approaching" end.
Definition limit_text (k : kind) (what : string) (n limit : Z) (unit : string) : string :=
  (what ++ " (" ++ str_of_Z n ++ unit ++ ")" ++ verb k ++ " the limit (" ++ str_of_Z limit ++ unit ++ ")")%string.
Definition limit_check (k : kind) (p : path) (what : string) (n limit : Z) (unit : string) : list rulematch :=
  if over k n limit then [mkRM p (limit_text k what n limit unit)] else [].

(** [section[:-1]]. *)
Definition singular (section : string) : string := String.substring 0 (String.length section - 1) section.

Section Rules.
Variable template : val.

(** [for name in cfn.template.get(section, {})]: keys, characters or items.  An item of a list that is no text would become
    an element of the match's path; the model has no such paths and answers with an error of its own. *)
Definition iterate_names (v : val) : res (list string) :=
  match v with
  | VDict d => Ok (keys d)
  | VStr s => Ok (map (fun a => String a "") (list_ascii_of_string s))
  | VList l => map_res (fun x => match x with VStr s => Ok s | VList _ | VDict _ => Err (EOther "not modelled") | _ => Err ETypeErr end) l
  | _ => Err ETypeErr
  end.

(** name_limit and approaching_name_limit, common.py:11-17, 29-35. *)
Definition name_limit (k : kind) (section : string) (limit : Z) : res (list rulematch) :=
  do s <- vget_def section (VDict []) template;
  do names <- iterate_names s;
  Ok (flat_map (fun n => limit_check k [PKey section; PKey n] ("The length of " ++ singular section ++ " name")%string
                           (Z.of_nat (String.length n)) limit "") names).

(** number_limit and approaching_number_limit, common.py:20-26, 38-44. *)
Definition number_limit (k : kind) (section : string) (limit : Z) : res (list rulematch) :=
  do n <- (if String.eqb section "Resources" then Ok (Z.of_nat (List.length (get_resources template)))
           else do s <- vget_def section (VDict []) template; py_len s);
  Ok (limit_check k [PKey section] ("The number of " ++ section)%string n limit "").

(** mappings/LimitAttributes.py:19-29, mappings/ApproachingLimitAttributes.py:19-29. *)
Definition attributes_limit (k : kind) : res (list rulematch) :=
  do ms <- vget_def "Mappings" (VDict []) template;
  do ms <- items_of ms;
  concat_res (fun nm =>
    do attrs <- items_of (snd nm);
    concat_res (fun na =>
      do n <- py_len (snd na);
      Ok (limit_check k [PKey "Mappings"; PKey (fst nm); PKey (fst na)] "The amount of mapping attributes" n
            LIMIT_Mappings_attributes "")) attrs) ms.

(** outputs/LimitDescription.py:19-30, outputs/ApproachingLimitDescription.py:19-30. *)
Definition output_description_limit (k : kind) : res (list rulematch) :=
  do os <- vget_def "Outputs" (VDict []) template;
  do os <- items_of os;
  concat_res (fun no =>
    do d <- vget "Description" (snd no);
    if truthy d then
      do n <- py_len d;
      Ok (limit_check k [PKey "Outputs"; PKey (fst no); PKey "Description"] "The length of output description" n
            LIMIT_Outputs_description "")
    else Ok []) os.

(** templates/LimitDescription.py:18-24, templates/ApproachingLimitDescription.py:18-24. *)
Definition template_description_limit (k : kind) : res (list rulematch) :=
  do d <- vget_def "Description" (VStr "") template;
  do n <- py_len d;
  Ok (limit_check k [PKey "Description"] "The template description" n LIMIT_template_description " bytes").

(** templates/LimitSize.py:22-32, templates/ApproachingLimitSize.py:22-32; [size] is the size of the template's file if there
    is one. *)
Definition template_size_limit (k : kind) (size : option Z) : list rulematch :=
  match size with
  | Some n => limit_check k [PKey "Template"] "The template file size" n LIMIT_template_body " bytes"
  | None => []
  end.

(** Template.get_parameters, template.py:84-90. *)
Definition get_parameters : res val :=
  do ps <- vget_def "Parameters" (VDict []) template;
  Ok (if truthy ps then ps else VDict []).

(** parameters/LimitValue.py:28-62, parameters/ApproachingLimitValue.py:28-62. *)
Definition max_length_of (v : val) : option Z :=
  match v with
  | VStr s => Some (match parse_int s with Some z => z | None => 0%Z end)
  | VInt z => Some z
  | VBool b => Some (if b then 1 else 0)%Z
  | _ => None
  end.
(** [for x in v]. *)
Definition iterate_values (v : val) : res (list val) :=
  match v with
  | VList l => Ok l
  | VStr s => Ok (map (fun a => VStr (String a "")) (list_ascii_of_string s))
  | VDict d => Ok (map VStr (keys d))
  | _ => Err ETypeErr
  end.
Definition value_limit_one (k : kind) (np : string * val) : res (list rulematch) :=
  let here x := [PKey "Parameters"; PKey (fst np); PKey x] in
  do def <- vget "Default" (snd np);
  let a := match def with
           | VStr s => limit_check k (here "Default") "The length of parameter default value" (Z.of_nat (String.length s))
                         LIMIT_Parameters_value ""
           | _ => []
           end in
  do ml <- vget_def "MaxLength" (VInt 0) (snd np);
  let b := match max_length_of ml with
           | Some z => limit_check k (here "MaxLength") "The MaxLength of parameter" z LIMIT_Parameters_value ""
           | None => []
           end in
  do av <- vget_def "AllowedValues" (VList []) (snd np);
  do av <- iterate_values av;
  let c := flat_map (fun v => match v with
                              | VStr s => limit_check k (here "AllowedValues") "The length of parameter allowed value"
                                            (Z.of_nat (String.length s)) LIMIT_Parameters_value ""
                              | _ => []
                              end) av in
  Ok (a ++ b ++ c).
Definition value_limit (k : kind) : res (list rulematch) :=
  do ps <- get_parameters;
  do ps <- items_of ps;
  concat_res (value_limit_one k) ps.

(** The limit rules by the number in their ids: E7011 and I7011 and so on; the rule I3012 goes with E3011. *)
Definition limit_rule (k : kind) (size : option Z) (number : string) : option (res (list rulematch)) :=
  assoc number
    [("7010", number_limit k "Mappings" (lim_number LIMITS_Mappings)); ("7011", name_limit k "Mappings" (lim_name LIMITS_Mappings));
     ("7012", attributes_limit k);
     ("6010", number_limit k "Outputs" (lim_number LIMITS_Outputs)); ("6011", name_limit k "Outputs" (lim_name LIMITS_Outputs));
     ("6012", output_description_limit k);
     ("2010", number_limit k "Parameters" (lim_number LIMITS_Parameters));
     ("2011", name_limit k "Parameters" (lim_name LIMITS_Parameters)); ("2012", value_limit k);
     ("3010", number_limit k "Resources" (lim_number LIMITS_Resources)); ("3011", name_limit k "Resources" (lim_name LIMITS_Resources));
     ("1002", Ok (template_size_limit k size)); ("1003", template_description_limit k)].

(** re.match('^[a-zA-Z0-9]*$', name), helpers.py:70: '$' also matches before a newline at the end. *)
Fixpoint regex_alphanumeric (s : string) : bool :=
  match s with
  | EmptyString => true
  | String a s' => if is_alnum a then regex_alphanumeric s' else char_eqb a "010" && String.eqb s' ""
  end.
(** alphanumeric_name, common.py:47-53; the rules E7002, E6004, E2003, E3006. *)
Definition alphanumeric_name (section : string) : res (list rulematch) :=
  do s <- vget_def section (VDict []) template;
  do items <- items_of s;
  Ok (flat_map (fun nx => if regex_alphanumeric (fst nx) then []
                          else [mkRM [PKey section; PKey (fst nx)]
                                     (singular section ++ " " ++ fst nx ++ " has invalid name.  Name has to be alphanumeric.")%string]) items).

(** KeyName.match (E7003), mappings/KeyName.py:20-47; keys are texts in the model, so that only second-level keys are
    checked. *)
Definition key_name_check (mn kn : string) (sub : string * val) : list rulematch :=
  if regex_alphanumeric (fst sub) then []
  else [mkRM [PKey "Mappings"; PKey mn; PKey kn; PKey (fst sub)]
             ("Mapping key (" ++ fst sub ++ ") has invalid name. Name has to be alphanumeric.")%string].
Definition key_name_match : res (list rulematch) :=
  do ms <- vget_def "Mappings" (VDict []) template;
  do ms <- items_of ms;
  Ok (flat_map (fun nm => flat_map (fun kv => flat_map (key_name_check (fst nm) (fst kv)) (dict_of (snd kv))) (dict_of (snd nm))) ms).
End Rules.
