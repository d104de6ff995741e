(** Model of src/cfnlint/conditions.py.

    [get_hash] (conditions.py:21-23) is the SHA-1 of the canonical JSON text; it is an argument [hash] of everything
    here.  Python sets of strings are lists without repeats; their iteration order, which Python does not fix, is an
    argument [order].  Conditions.Equals (conditions.py:208-209 and 224-285) is never read and is not modelled. *)
From Verif.Model Require Import Base Helpers.

(** EqualsValue, conditions.py:26-48. *)
Record eqvalue := mkEV { ev_function : option string; ev_string : option string }.

(** Equals, conditions.py:51-76. *)
Record equals := mkEq { eq_left : eqvalue; eq_right : eqvalue }.

(** Influenced_Equals: function hash to the values it is compared with. *)
Definition influenced := list (string * list string).

(** What Condition.And/Or/Not hold: an Equals, or a Condition (conditions.py:79-104) with its And, Or, Not, Equals and
    Influenced_Equals. *)
Inductive term : Type :=
| TEq (e : equals)
| TCond (c_and c_or c_not : list term) (c_equals : option equals) (c_infl : influenced).

(** [str(value)] for an integer (booleans included) or a string. *)
Definition py_str (v : val) : option string :=
  match v with
  | VStr s => Some s
  | VInt z => Some (str_of_Z z)
  | VBool true => Some "True"
  | VBool false => Some "False"
  | _ => None
  end.

(** [s.add(x)]. *)
Definition set_add (x : string) (s : list string) : list string := if smem x s then s else s ++ [x].

Section Hash.
Variable hash : val -> string.
Variable order : list string -> list string.

(** EqualsValue.__init__, conditions.py:31-45; [None] is ConditionParseError. *)
Definition equals_value (v : val) : option eqvalue :=
  match v with
  | VDict [_] => Some (mkEV (Some (hash v)) None)
  | VDict _ => None
  | _ => match py_str v with Some s => Some (mkEV None (Some s)) | None => None end
  end.
(** EqualsValue.__eq__, conditions.py:47-48. *)
Definition ev_is (e : eqvalue) (s : string) : bool :=
  match ev_function e with Some h => String.eqb s h | None => false end ||
  match ev_string e with Some h => String.eqb s h | None => false end.

(** Equals.__init__, conditions.py:56-66. *)
Definition equals_of (v : val) : option equals :=
  match v with
  | VList [a; b] =>
      match equals_value a with
      | None => None
      | Some l => match equals_value b with None => None | Some r => Some (mkEq l r) end
      end
  | _ => None
  end.

(** Equals.test, conditions.py:68-76: the first scenario entry that names either side decides. *)
Fixpoint equals_test (e : equals) (scenario : list (string * string)) : option bool :=
  match scenario with
  | [] => None
  | (k, v) :: rest =>
      if ev_is (eq_left e) k then Some (ev_is (eq_right e) v)
      else if ev_is (eq_right e) k then Some (ev_is (eq_left e) v)
      else equals_test e rest
  end.

Definition holds (b : option bool) : bool := match b with Some true => true | _ => false end.

(** Condition.test, conditions.py:106-121, and Equals.test for an Equals among the members.  [self.Equals] may be None:
    AttributeError. *)
Fixpoint term_test (t : term) (scenario : list (string * string)) {struct t} : res (option bool) :=
  match t with
  | TEq e => Ok (equals_test e scenario)
  | TCond (a :: ands) _ _ _ _ =>
      (fix all (l : list term) : res (option bool) :=
         match l with
         | [] => Ok (Some true)
         | x :: xs => do b <- term_test x scenario; if holds b then all xs else Ok (Some false)
         end) (a :: ands)
  | TCond [] (o :: ors) _ _ _ =>
      (fix any (l : list term) : res (option bool) :=
         match l with
         | [] => Ok (Some false)
         | x :: xs => do b <- term_test x scenario; if holds b then Ok (Some true) else any xs
         end) (o :: ors)
  | TCond [] [] (n :: _) _ _ => do b <- term_test n scenario; Ok (Some (negb (holds b)))
  | TCond [] [] [] (Some e) _ => Ok (equals_test e scenario)
  | TCond [] [] [] None _ => Err EAttribute
  end.

(** [if not d.get(k): d[k] = set()] then [d[k].add(x)] for each [x] in [xs]. *)
Definition infl_add (k : string) (xs : list string) (d : influenced) : influenced :=
  let old := match assoc k d with Some s => s | None => [] end in
  set_assoc k (fold_left (fun s x => set_add x s) xs old) d.

(** process_influenced_equal, conditions.py:123-138. *)
Definition side (e : eqvalue) : list string :=
  match ev_function e with
  | Some h => [h]
  | None => match ev_string e with Some s => [s] | None => [] end
  end.
Definition process_influenced_equal (e : equals) (d : influenced) : influenced :=
  let d1 := match ev_function (eq_left e) with Some h => infl_add h (side (eq_right e)) d | None => d end in
  match ev_function (eq_right e) with Some h => infl_add h (side (eq_left e)) d1 | None => d1 end.

(** Merging the influenced equals of a sub-condition, conditions.py:180-184 and 188-192. *)
Definition infl_merge (sub d : influenced) : influenced :=
  fold_left (fun d kv => infl_add (fst kv) (snd kv) d) sub d.

Definition infl_of (t : term) : influenced := match t with TCond _ _ _ _ i => i | TEq _ => [] end.

(** The fields of a Condition under construction. *)
Record cstate := mkCS { s_and : list term; s_or : list term; s_not : list term; s_eq : option equals; s_infl : influenced }.
Definition empty_state := mkCS [] [] [] None [].
Definition with_infl (f : influenced -> influenced) (s : cstate) : cstate :=
  mkCS (s_and s) (s_or s) (s_not s) (s_eq s) (f (s_infl s)).

(** Condition.__init__, conditions.py:87-104, after process_condition ended in [s]; on a parse error Equals is None. *)
Definition finish (r : cstate * bool) : term :=
  let (s, raised) := r in TCond (s_and s) (s_or s) (s_not s) (if raised then None else s_eq s) (s_infl s).

(** What [for value in values] yields: items, characters or keys; only dicts matter in the loop body. *)
Definition iterate (v : val) : res (list val) :=
  match v with
  | VList l => Ok l
  | VStr _ | VDict _ => Ok []
  | _ => Err ETypeErr
  end.

(** process_function, conditions.py:167-194.  The Boolean of the result says whether ConditionParseError was raised;
    Influenced_Equals keeps what was added before. *)
Fixpoint process_function (named sub : val -> res term) (values : list val) (acc : list term) (s : cstate)
  : res (list term * cstate * bool) :=
  match values with
  | [] => Ok (acc, s, false)
  | VDict [(k, v)] :: rest =>
      if String.eqb k "Fn::Equals" then
        match equals_of v with
        | None => Ok (acc, s, true)
        | Some e => process_function named sub rest (acc ++ [TEq e]) (with_infl (process_influenced_equal e) s)
        end
      else
        do t <- (if String.eqb k "Condition" then named v else sub (VDict [(k, v)]));
        process_function named sub rest (acc ++ [t]) (with_infl (infl_merge (infl_of t)) s)
  | _ :: rest => process_function named sub rest acc s
  end.

(** [template.get('Conditions', {}).get(name, {})]. *)
Definition condition_value (template name : val) : res val :=
  do defs <- vget_def "Conditions" (VDict []) template;
  match defs with
  | VDict d =>
      match name with
      | VStr s => Ok (match assoc s d with Some v => v | None => VDict [] end)
      | VList _ | VDict _ => Err ETypeErr
      | _ => Ok (VDict [])
      end
  | VStr _ | VList _ => Err ETemplateAttribute
  | _ => Err EAttribute
  end.

(** process_condition, conditions.py:140-165.  The fuel is Python's recursion limit: running out is RecursionError, as
    it is for conditions that refer to each other in a circle. *)
Fixpoint process_condition (fuel : nat) (template value : val) (s : cstate) : res (cstate * bool) :=
  match fuel with
  | O => Err ERecursion
  | S f =>
      let named name := do v <- condition_value template name;
                        do r <- process_condition f template v empty_state; Ok (finish r) in
      let sub v := do r <- process_condition f template v empty_state; Ok (finish r) in
      match value with
      | VDict [(fn, fv)] =>
          if String.eqb fn "Fn::And" then
            do vs <- iterate fv;
            do r <- process_function named sub vs [] s;
            let '(l, s', raised) := r in
            Ok (if raised then s' else mkCS l (s_or s') (s_not s') (s_eq s') (s_infl s'), raised)
          else if String.eqb fn "Fn::Or" then
            do vs <- iterate fv;
            do r <- process_function named sub vs [] s;
            let '(l, s', raised) := r in
            Ok (if raised then s' else mkCS (s_and s') l (s_not s') (s_eq s') (s_infl s'), raised)
          else if String.eqb fn "Fn::Not" then
            do vs <- iterate fv;
            do r <- process_function named sub vs [] s;
            let '(l, s', raised) := r in
            Ok (if raised then s' else mkCS (s_and s') (s_or s') l (s_eq s') (s_infl s'), raised)
          else if String.eqb fn "Fn::Equals" then
            match equals_of fv with
            | None => Ok (s, true)
            | Some e => Ok (mkCS (s_and s) (s_or s) (s_not s) (Some e) (process_influenced_equal e (s_infl s)), false)
            end
          else if String.eqb fn "Condition" then
            do v <- condition_value template fv;
            do r <- process_condition f template v s;
            Ok (fst r, false)
          else Ok (s, false)
      | _ => Ok (s, true)
      end
  end.

(** [Condition(template, name)], conditions.py:87-98. *)
Definition condition_named (fuel : nat) (template : val) (name : string) : res term :=
  do v <- condition_value template (VStr name);
  do r <- process_condition fuel template v empty_state;
  Ok (finish r).

(** Conditions, conditions.py:197-222. *)
Record conditions := mkConds { cs_conditions : list (string * term); cs_parameters : list (string * list val) }.

Fixpoint load_conditions (fuel : nat) (template : val) (names : list string) (acc : list (string * term))
  : list (string * term) * bool :=
  match names with
  | [] => (acc, true)
  | n :: ns => match condition_named fuel template n with
               | Ok t => load_conditions fuel template ns (set_assoc n t acc)
               | Err _ => (acc, false)
               end
  end.
Fixpoint load_parameters (ps : list (string * val)) (acc : list (string * list val)) : list (string * list val) :=
  match ps with
  | [] => acc
  | (n, p) :: rest =>
      match vget "AllowedValues" p with
      | Err _ => acc
      | Ok (VList l) => load_parameters rest (set_assoc (hash (VDict [("Ref", VStr n)])) l acc)
      | Ok _ => load_parameters rest acc
      end
  end.
(** Conditions.__init__: any exception ends the loading where it is. *)
Definition load (fuel : nat) (template : val) : conditions :=
  match vget_def "Conditions" (VDict []) template with
  | Ok (VDict d) =>
      let (cs, ok) := load_conditions fuel template (keys d) [] in
      if ok then
        match vget_def "Parameters" (VDict []) template with
        | Ok (VDict ps) => mkConds cs (load_parameters ps [])
        | _ => mkConds cs []
        end
      else mkConds cs []
  | _ => mkConds [] []
  end.

(** multiply_conditions, conditions.py:287-301. *)
Definition scenario := list (string * option bool).
Definition multiply_conditions (currents : list scenario) (condition : string) (values : list bool) : list scenario :=
  match currents with
  | [] => map (fun v => [(condition, Some v)]) values
  | _ => flat_map (fun c => map (fun v => set_assoc condition (Some v) c) values) currents
  end.

(** The first loop of get_scenarios, conditions.py:315-325: [None] when a condition does not exist. *)
Fixpoint match_equals (i : influenced) (matched : influenced) (shared : bool) : influenced * bool :=
  match i with
  | [] => (matched, shared)
  | (k, vs) :: rest =>
      let fresh := match assoc k matched with Some (_ :: _) => false | _ => true end in
      match_equals rest (infl_add k vs matched) (shared || negb fresh)
  end.
Fixpoint match_conditions (cs : list (string * term)) (names : list string) (matched : influenced) (shared : bool)
  : option (influenced * bool) :=
  match names with
  | [] => Some (matched, shared)
  | n :: ns =>
      match assoc n cs with
      | None => None
      | Some t => let (m, s) := match_equals (infl_of t) matched shared in match_conditions cs ns m s
      end
  end.

(** multiply_equals, conditions.py:327-372: [false_case] keeps growing over the currents. *)
Definition allowed_strings (l : list val) : list string :=
  flat_map (fun v => match py_str v with Some s => [s] | None => [] end) l.
Fixpoint extend_sets (currents : list (list (string * string))) (h : string) (sets : list string) (false_case : string)
  : list (list (string * string)) :=
  match currents with
  | [] => []
  | c :: rest =>
      let fc := (false_case ++ String.concat "" (order sets))%string in
      map (fun s => set_assoc h s c) (order sets) ++ [set_assoc h (fc ++ ".bad")%string c] ++
      extend_sets rest h sets fc
  end.
Definition multiply_equals (currents : list (list (string * string))) (h : string) (sets : list string)
    (parameter_values : option (list val)) : list (list (string * string)) :=
  let currents := match currents with [] => [[]] | _ => currents end in
  match parameter_values with
  | Some (p :: ps) => flat_map (fun c => map (fun s => set_assoc h s c) (allowed_strings (p :: ps))) currents
  | _ => extend_sets currents h sets ""
  end.

Definition opt_bool_eqb (a b : option bool) : bool :=
  match a, b with
  | None, None => true
  | Some x, Some y => Bool.eqb x y
  | _, _ => false
  end.
(** [==] on two dicts. *)
Definition scenario_eqb (a b : scenario) : bool :=
  Nat.eqb (List.length a) (List.length b) &&
  forallb (fun kv => match assoc (fst kv) b with Some y => opt_bool_eqb (snd kv) y | None => false end) a.

(** conditions.py:399-405. *)
Fixpoint test_all (cs : list (string * term)) (names : list string) (s : list (string * string)) (acc : scenario)
  : res scenario :=
  match names with
  | [] => Ok acc
  | n :: ns =>
      match assoc n cs with
      | None => Err EAttribute
      | Some t => do b <- term_test t s; test_all cs ns s (set_assoc n b acc)
      end
  end.
Fixpoint collect_scenarios (cs : list (string * term)) (names : list string) (l : list (list (string * string)))
    (results : list scenario) : res (list scenario) :=
  match l with
  | [] => Ok results
  | s :: rest =>
      do r <- test_all cs names s [];
      collect_scenarios cs names rest (if existsb (scenario_eqb r) results then results else results ++ [r])
  end.

(** Conditions.get_scenarios, conditions.py:303-407. *)
Definition get_scenarios (c : conditions) (names : list string) : res (list scenario) :=
  match cs_conditions c with
  | [] => Ok []
  | _ =>
      match match_conditions (cs_conditions c) names [] false with
      | None => Ok []
      | Some (matched, false) =>
          if Nat.ltb 4 (List.length names) then
            Ok (fold_left (fun r n => multiply_conditions r n [true]) names [] ++
                fold_left (fun r n => multiply_conditions r n [false]) names [])
          else Ok (fold_left (fun r n => multiply_conditions r n [true; false]) names [])
      | Some (matched, true) =>
          collect_scenarios (cs_conditions c) names
            (fold_left (fun r kv => multiply_equals r (fst kv) (snd kv) (assoc (fst kv) (cs_parameters c))) matched []) []
      end
  end.
End Hash.
