(** Models of rules/resources/events/RuleScheduleExpression.py (E3027) and rules/resources/events/RuleTargetsLimit.py (E3021). *)
From Verif.Model Require Import Base Helpers Search Rules PropertyRules.
Import Verif.Model.Rules.
Local Open Scope string_scope.

(** * E3027 *)
(** [s.find(c)] for one character; [None] is -1. *)
Fixpoint find_char (c : ascii) (s : string) : option nat :=
  match s with
  | EmptyString => None
  | String a r => if char_eqb a c then Some 0 else option_map S (find_char c r)
  end.
(** [value[value.find('(')+1:value.find(')')]]. *)
Definition within_parens (s : string) : string :=
  let start := match find_char "(" s with Some n => S n | None => 0 end in
  let stop := match find_char ")" s with Some n => n | None => String.length s - 1 end in
  String.substring start (stop - start) s.
(** [s.isdigit()], for ASCII characters. *)
Definition all_digits (s : string) : bool := negb (String.eqb s "") && str_forall is_digit s.
(** RuleScheduleExpression.check_rate, RuleScheduleExpression.py:21-44. *)
Definition check_rate (s : string) (p : path) : list rulematch :=
  let e := within_parens s in
  if String.eqb e "" then [mkRM p "Rate value of ScheduleExpression cannot be empty"]
  else match split_on " " e with
       | [value; _] => if all_digits value then [] else [mkRM p ("Rate Value (" ++ value ++ ") should be of type Integer.")]
       | items => [mkRM p ("Rate expression must contain 2 elements (Value Unit), rate contains " ++ str_of_Z (Z.of_nat (List.length items)) ++ " elements")]
       end.
(** RuleScheduleExpression.check_cron, RuleScheduleExpression.py:46-69. *)
Definition check_cron (s : string) (p : path) : list rulematch :=
  let e := within_parens s in
  if String.eqb e "" then [mkRM p "Cron value of ScheduleExpression cannot be empty"]
  else match split_on " " e with
       | [_; _; day_of_month; _; day_of_week; _] =>
           if negb (String.eqb day_of_month "?") && negb (String.eqb day_of_week "?")
           then [mkRM p "Don't specify the Day-of-month and Day-of-week fields in the same cron expression"] else []
       | items => [mkRM p ("Cron expression must contain 6 elements (Minutes Hours Day-of-month Month Day-of-week Year), cron contains " ++ str_of_Z (Z.of_nat (List.length items)) ++ " elements")]
       end.
(** RuleScheduleExpression.check_value, RuleScheduleExpression.py:71-84: [value.startswith] of what is no text raises. *)
Definition schedule_value (v : val) (p : path) : res (list rulematch) :=
  match v with
  | VStr s =>
      Ok (if starts_with "rate(" s && ends_with ")" s then check_rate s p
          else if starts_with "cron(" s && ends_with ")" s then check_cron s p
          else [mkRM p ("Invalid ScheduledExpression specified (" ++ s ++ "). Value has to be either cron() or rate()")])
  | VList _ | VDict _ => Err ETemplateAttribute
  | _ => Err EAttribute
  end.
(** RuleScheduleExpression.match_resource_properties, RuleScheduleExpression.py:86-96. *)
Definition schedule_check (props : val) (p : path) : res (list rulematch) := check_value props "ScheduleExpression" p schedule_value [].
Definition schedule_rule : rule :=
  mkRule "E3027" false [] [] [] [] (fun _ => (["AWS::Events::Rule"], [])) None (Some (fun _ _ props _ p => schedule_check props p)) None.

(** * E3021 *)
(** [self.limits]: the count and the path of each group of targets, in the order in which they were met. *)
Definition limits : Type := list (string * (nat * path)).
(** The name under which RuleTargetsLimit.check_value counts, RuleTargetsLimit.py:33-36. *)
Definition group_name (p : path) : res string :=
  match nth_error p 1 with
  | None => Err EIndex
  | Some name =>
      match nth_error p 4 with
      | Some (PKey k) =>
          if String.eqb k "Fn::If" then match nth_error p 5 with Some i => Ok (str_of_pelem name ++ "." ++ str_of_pelem i) | None => Err EIndex end
          else Ok (str_of_pelem name)
      | _ => Ok (str_of_pelem name)
      end
  end.
Fixpoint count_in (name : string) (q : path) (lim : limits) : limits :=
  match lim with
  | [] => [(name, (1, q))]
  | (n, (i, q')) :: r => if String.eqb name n then (n, (S i, q')) :: r else (n, (i, q')) :: count_in name q r
  end.
(** RuleTargetsLimit.check_value, RuleTargetsLimit.py:29-45. *)
Definition count_target (lim : limits) (p : path) : res limits := do name <- group_name p; Ok (count_in name (removelast p) lim).
Fixpoint count_targets (lim : limits) (ps : list path) : res limits :=
  match ps with
  | [] => Ok lim
  | p :: r => do lim' <- count_target lim p; count_targets lim' r
  end.
(** The places for which check_value is called, in order. *)
Definition target_places (props : val) (p : path) : res (list path) :=
  do ms <- check_value props "Targets" p (fun _ q => Ok [mkRM q ""]) []; Ok (map rm_path ms).
Definition max_count : nat := 5.
Definition limit_matches (lim : limits) : list rulematch :=
  flat_map (fun nl => if Nat.ltb max_count (fst (snd nl)) then [mkRM (snd (snd nl)) "An Events Rule can have up to 5 Targets"] else []) lim.
(** RuleTargetsLimit.match_resource_properties, RuleTargetsLimit.py:47-62: [self.limits] stays from one resource to the next.  If check_value
    raises, nothing was counted. *)
Definition targets_step (lim : limits) (props : val) (p : path) : res limits := do ps <- target_places props p; count_targets lim ps.
Definition targets_check (lim : limits) (props : val) (p : path) : res (list rulematch) := do lim' <- targets_step lim props p; Ok (limit_matches lim').
(** What the rules of a run have counted before they come to the resource [name]; [initialize] empties the counts at the beginning. *)
Definition props_place (name : string) : path := [PKey "Resources"; PKey name; PKey "Properties"].
Fixpoint counted_before (rs : list (string * val)) (name : string) (lim : limits) : limits :=
  match rs with
  | [] => lim
  | (n, r) :: rest =>
      if String.eqb n name then lim
      else
        let lim' :=
          match assoc "Type" (dict_of r), assoc "Properties" (dict_of r) with
          | Some (VStr rt), Some (VDict pd) =>
              if String.eqb rt "AWS::Events::Rule" then match targets_step lim (VDict pd) (props_place n) with Ok l => l | Err _ => lim end else lim
          | _, _ => lim
          end in
        counted_before rest name lim'
  end.
Definition name_of (p : path) : string := match nth_error p 1 with Some e => str_of_pelem e | None => "" end.
Definition targets_rule : rule :=
  mkRule "E3021" false [] [] ["AWS::Events::Rule"] [] (fun _ => ([], [])) None
    (Some (fun _ c props _ p => targets_check (counted_before (get_resources (template c)) (name_of p) []) props p)) None.
