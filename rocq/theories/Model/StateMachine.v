(** Model of rules/resources/stepfunctions/StateMachine.py (E2532). *)
From Verif.Model Require Import Base Helpers Search Rules Refs PropertyRules.
Import Verif.Model.Rules.
Local Open Scope string_scope.

Section Machine.
(** [json.loads(value)], StateMachine.py:123: [inr] what it gives, [inl] the text of the exception it raises.  What it gives
    are plain Python values, so a missing method raises AttributeError. *)
Variable loads : val -> string + val.
(** [str(v)] of what is not a text. *)
Variable show : val -> string.
Definition shown (v : val) : string := match v with VStr s => s | _ => show v end.

(** The lists of _check_state_json, StateMachine.py:29-63. *)
Definition common_keys : list string := ["Next"; "End"; "Type"; "Comment"; "InputPath"; "OutputPath"].
Definition state_keys : list (string * list string) :=
  [("Pass", ["Result"; "ResultPath"; "Parameters"]);
   ("Task", ["Resource"; "ResultPath"; "Retry"; "Catch"; "TimeoutSeconds"; "Parameters"; "HeartbeatSeconds"]);
   ("Map", ["MaxConcurrency"; "Iterator"; "ItemsPath"; "ResultPath"; "Retry"; "Catch"; "Parameters"]);
   ("Choice", ["Choices"; "Default"]);
   ("Wait", ["Seconds"; "Timestamp"; "SecondsPath"; "TimestampPath"]);
   ("Succeed", []);
   ("Fail", ["Cause"; "Error"]);
   ("Parallel", ["Branches"; "ResultPath"; "Retry"; "Catch"])].
Definition state_required : list (string * list string) :=
  [("Pass", []); ("Task", ["Resource"]); ("Choice", ["Choices"]); ("Wait", []); ("Succeed", []); ("Fail", []); ("Parallel", ["Branches"])].
(** The [for … return] over required keys, StateMachine.py:78-83: only the first missing key is reported. *)
Fixpoint first_missing (d : list (string * val)) (required : list string) : option string :=
  match required with
  | [] => None
  | k :: r => match assoc k d with Some _ => first_missing d r | None => Some k end
  end.
Definition no_type (name : string) (p : path) : rulematch :=
  mkRM p ("State Machine Definition required key (Type) for State (" ++ name ++ ") is missing").
(** StateMachine._check_state_json, StateMachine.py:25-88.  [in] on a text looks for a part, on a list for an item. *)
Definition check_state (name : string) (st : val) (p : path) : res (list rulematch) :=
  match st with
  | VDict d =>
      match assoc "Type" d with
      | None => Ok [no_type name p]
      | Some (VList _) | Some (VDict _) => Err ETypeErr
      | Some ty =>
          match ty, assoc (shown ty) state_keys with
          | VStr t, Some own =>
              Ok (map (fun k => mkRM p ("State Machine Definition key (" ++ k ++ ") for State (" ++ name ++ ") of Type (" ++ t ++ ") is not valid"))
                      (filter (fun k => negb (smem k (common_keys ++ own))) (keys d)) ++
                  match first_missing d ("Type" :: match assoc t state_required with Some l => l | None => [] end) with
                  | Some k => [mkRM p ("State Machine Definition required key (" ++ k ++ ") for State (" ++ name ++ ") of Type (" ++ t ++ ") is missing")]
                  | None => []
                  end)%list
          | _, _ => Ok [mkRM p ("State Machine Definition Type (" ++ shown ty ++ ") is not valid")]
          end
      end
  | VList l => if existsb (eq_str "Type") l then Err EAttribute else Ok [no_type name p]
  | VStr s => if contains_text "Type" s then Err EAttribute else Ok [no_type name p]
  | _ => Err ETypeErr
  end.
Definition top_keys : list string := ["Comment"; "StartAt"; "TimeoutSeconds"; "Version"; "States"].
Definition top_required : list string := ["StartAt"; "States"].
(** StateMachine._check_definition_json, StateMachine.py:90-117. *)
Definition check_definition (v : val) (p : path) : res (list rulematch) :=
  match v with
  | VDict d =>
      let unknown := map (fun k => mkRM p ("State Machine Definition key (" ++ k ++ ") is not valid")) (filter (fun k => negb (smem k top_keys)) (keys d)) in
      let missing := map (fun k => mkRM p ("State Machine Definition required key (" ++ k ++ ") is missing")) (filter (fun k => negb (smem k (keys d))) top_required) in
      do states <- match assoc "States" d with
                   | None => Ok []
                   | Some (VDict s) => concat_res (fun nv => check_state (fst nv) (snd nv) p) s
                   | Some _ => Err EAttribute
                   end;
      Ok ((unknown ++ missing) ++ states)%list
  | _ => Err EAttribute
  end.
(** StateMachine.check_value, StateMachine.py:119-135. *)
Definition machine_value (fail_on_loads : bool) (v : val) (p : path) : res (list rulematch) :=
  match loads v with
  | inl err => Ok (if fail_on_loads then [mkRM p ("State Machine Definition needs to be formatted as JSON. Error " ++ err)] else [])
  | inr d => check_definition d p
  end.
(** StateMachine.check_sub, StateMachine.py:137-145. *)
Definition machine_sub (v : val) (p : path) : res (list rulematch) :=
  match v with
  | VList [] => Err EIndex
  | VList (x :: _) => machine_value false x p
  | VStr _ => machine_value false v p
  | _ => Ok []
  end.
(** StateMachine.match_resource_properties, StateMachine.py:147-159. *)
Definition machine_check (props : val) (p : path) : res (list rulematch) :=
  check_value props "DefinitionString" p (machine_value true) [("Fn::Sub", machine_sub)].
Definition machine_rule : rule :=
  mkRule "E2532" false [] [] ["AWS::StepFunctions::StateMachine"] [] (fun _ => ([], [])) None (Some (fun _ _ props _ p => machine_check props p)) None.
End Machine.
