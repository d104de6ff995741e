(** Models of rules/resources/lmbd/DeprecatedRuntime.py, DeprecatedRuntimeEnd.py (E2531), DeprecatedRuntimeEol.py (W2531) and
    EventsLogGroupName.py (E2529). *)
From Verif.Model Require Import Base Helpers Search Rules Parameters Limits JsonDump PropertyRules.
Import Verif.Model.Rules.
Local Open Scope string_scope.

(** * E2531, W2531 *)
(** An entry of data/AdditionalSpecs/LmbdRuntimeLifecycle.json; the data is an argument of the model. *)
Record lifecycle := mkLife { l_eol : string; l_deprecated : string; l_successor : string }.
Section Runtime.
(** [datetime.strptime(date, '%Y-%m-%d')] as a count of seconds, and the moment at which the class was made
    (DeprecatedRuntime.py:20).  The dates of the data are taken to be dates. *)
Variable runtimes : list (string * lifecycle).
Variable instant : string -> Z.
Variable now : Z.
(** DeprecatedRuntimeEnd.check_runtime, DeprecatedRuntimeEnd.py:18-34. *)
Definition end_words (s : string) (l : lifecycle) : option string :=
  if Z.ltb (instant (l_deprecated l)) now
  then Some ("Deprecated runtime (" ++ s ++ ") specified. Updating disabled since " ++ l_deprecated l ++ ". Please consider updating to " ++ l_successor l)
  else None.
(** DeprecatedRuntimeEol.check_runtime, DeprecatedRuntimeEol.py:18-35. *)
Definition eol_words (s : string) (l : lifecycle) : option string :=
  if Z.ltb (instant (l_eol l)) now && Z.ltb now (instant (l_deprecated l))
  then Some ("EOL runtime (" ++ s ++ ") specified. Runtime is EOL since " ++ l_eol l ++ " and updating will be disabled at " ++ l_deprecated l ++ ". Please consider updating to " ++ l_successor l)
  else None.
Variable words : string -> lifecycle -> option string.
(** [self.deprecated_runtimes.get(runtime_value)] of what cannot be hashed raises. *)
Definition check_runtime (v : val) (p : path) : res (list rulematch) :=
  match v with
  | VList _ | VDict _ => Err ETypeErr
  | VStr s => Ok (match assoc s runtimes with
                  | Some l => match words s l with Some m => [mkRM p m] | None => [] end
                  | None => []
                  end)
  | _ => Ok []
  end.
(** DeprecatedRuntime.check_ref, DeprecatedRuntime.py:33-51. *)
Definition runtime_ref (template : val) (v : val) (p : path) : res (list rulematch) :=
  do params <- get_parameters template;
  do b <- py_member v params;
  if b then
    match v with
    | VStr n =>
        do parameter <- vget_def n (VDict []) params;
        let pp := [PKey "Parameters"; PKey n] in
        do default <- vget_def "Default" (VStr "") parameter;
        do a <- check_runtime default (pp ++ [PKey "Default"])%list;
        do allowed <- vget "AllowedValues" parameter;
        do b <- match allowed with
                | VList l => concat_res (fun ix => check_runtime (snd ix) (pp ++ [PKey "AllowedValues"; PIdx (fst ix)])%list) (enum l)
                | _ => Ok []
                end;
        Ok (a ++ b)%list
    | _ => Err ETemplateAttribute (* [parameters] is a list: it has no get *)
    end
  else Ok [].
(** DeprecatedRuntime.match_resource_properties, DeprecatedRuntime.py:53-64. *)
Definition runtime_check (template props : val) (p : path) : res (list rulematch) :=
  check_value props "Runtime" p check_runtime [("Ref", runtime_ref template)].
End Runtime.
Definition end_rule (runtimes : list (string * lifecycle)) (instant : string -> Z) (now : Z) : rule :=
  mkRule "E2531" false [] [] ["AWS::Lambda::Function"] [] (fun _ => ([], [])) None
    (Some (fun _ c props _ p => runtime_check runtimes (end_words instant now) (template c) props p)) None.
Definition eol_rule (runtimes : list (string * lifecycle)) (instant : string -> Z) (now : Z) : rule :=
  mkRule "W2531" false [] [] ["AWS::Lambda::Function"] [] (fun _ => ([], [])) None
    (Some (fun _ c props _ p => runtime_check runtimes (eol_words instant now) (template c) props p)) None.

(** * E2529 *)
Section Groups.
Variable float_text : Q -> string.
(** [json.dumps(value)]: members in the order of the object. *)
Fixpoint dumps_as_is (v : val) : string :=
  match v with
  | VNull => "null"
  | VBool true => "true"
  | VBool false => "false"
  | VInt z => str_of_Z z
  | VFloat q => float_text q
  | VStr s => quote s
  | VList l => "[" ++ join_str ", " (map dumps_as_is l) ++ "]"
  | VDict d => "{" ++ join_str ", " (map (fun kv => quote (fst kv) ++ ": " ++ dumps_as_is (snd kv)) d) ++ "}"
  end.
(** The dictionary [log_group_paths] and the append to one of its lists. *)
Fixpoint add_to (k n : string) (groups : list (string * list string)) : list (string * list string) :=
  match groups with
  | [] => [(k, [n])]
  | (k', l) :: r => if String.eqb k k' then (k', l ++ [n])%list :: r else (k', l) :: add_to k n r
  end.
(** [cfn.get_resources('AWS::Logs::SubscriptionFilter')], template.py:63-81. *)
Definition filters_of (template : val) : list (string * val) :=
  filter (fun nr => match assoc "Type" (dict_of (snd nr)) with Some t => eq_str "AWS::Logs::SubscriptionFilter" t | None => false end) (get_resources template).
(** EventsLogGroupName.__get_log_group_name_list, EventsLogGroupName.py:40-50. *)
Fixpoint log_groups (rs : list (string * val)) (groups : list (string * list string)) : res (list (string * list string)) :=
  match rs with
  | [] => Ok groups
  | (n, r) :: rest =>
      do prop <- vget "Properties" r;
      do g <- vget "LogGroupName" prop;
      log_groups rest (add_to (dumps_as_is g) n groups)
  end.
Definition filter_limit : nat := 2.
(** EventsLogGroupName.check_events_subscription_duplicated, EventsLogGroupName.py:23-38: [c[2]] is there when there are more than two. *)
Definition group_match (kl : string * list string) : list rulematch :=
  if Nat.ltb filter_limit (List.length (snd kl))
  then match nth_error (snd kl) 2 with
       | Some n => [mkRM [PKey "Resources"; PKey n] "You can only have 2 Subscription Filters per CloudWatch Log Group"]
       | None => []
       end
  else [].
Definition filters_match (template : val) : res (list rulematch) :=
  do groups <- log_groups (filters_of template) [];
  Ok (flat_map group_match groups).
Definition filters_rule : rule :=
  mkRule "E2529" false [] [] [] [] (fun _ => ([], [])) (Some (fun _ c => filters_match (template c))) None None.
End Groups.
