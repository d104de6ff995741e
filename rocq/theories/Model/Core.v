(** Model of src/cfnlint/core.py and of the main loop in src/cfnlint/__main__.py. *)
From Verif.Model Require Import Base Node Locate Helpers Rules Runner Config.

(** get_exit_code, core.py:63-74. *)
Definition exit_step (code : Z) (m : finding) : Z :=
  match severity_of (f_rule m) with
  | Informational => Z.lor code 8
  | Warning => Z.lor code 4
  | Error => Z.lor code 2
  | Unknown => code
  end.
Definition get_exit_code (ms : list finding) : Z := fold_left exit_step ms 0%Z.

(** The sort key (filename, linenumber, rule.id), core.py:246, compared as Python compares tuples. *)
Definition str_ltb (a b : string) : bool := str_leb a b && negb (String.eqb a b).
Definition key_leb (a b : finding) : bool :=
  if String.eqb (f_file a) (f_file b) then
    if Z.eqb (f_line a) (f_line b) then str_leb (f_rule a) (f_rule b)
    else Z.ltb (f_line a) (f_line b)
  else str_ltb (f_file a) (f_file b).
(** list.sort is stable; modelled by insertion before the first element that is not smaller. *)
Fixpoint insert_finding (x : finding) (l : list finding) : list finding :=
  match l with
  | [] => [x]
  | y :: ys => if key_leb x y then x :: l else y :: insert_finding x ys
  end.
Definition sort_findings (l : list finding) : list finding := fold_right insert_finding [] l.

(** What the serverless translator does to a template, transform.py:118-224: findings, or a new template.  External
    (aws-sam-translator), hence an argument. *)
Definition translator := cfn -> list finding * mval.

Inductive outcome :=
| Findings (l : list finding)
| Exit (code : Z).                     (* CfnLintExitException, core.py:25-36 *)

(** run_checks, core.py:213-248.  Returns the rule objects as the run leaves them. *)
Definition run_checks (sp : spec) (tr : translator) (k : collection) (regions mandatory : list string) (c : cfn)
  : collection * outcome :=
  if negb (forallb (fun r => smem r REGIONS) regions) then (k, Exit 32)
  else
    let '(errors, c') :=
      if wants_transform (template c) then
        let '(e, t') := tr c in (e, mkCfn (c_file c) (c_region c) t')
      else ([], c) in
    match errors with
    | _ :: _ => (k, Findings (if is_rule_enabled (k_set k) "E0001" false then errors else []))
    | [] =>
        let '(k', r) := runner_run sp k mandatory c' in
        (k', Findings (match r with
                       | Ok ms => sort_findings ms
                       | Err _ => []                 (* lines 243-245: the exception is dropped *)
                       end))
    end.

(** What cfnlint.decode.decode returns (decode/__init__.py:21-97): a template or findings. *)
Inductive decoded := DecOk (t : mval) | DecErr (errors : list finding).

(** The state that survives from one template to the next: the cached rules (core.py:23, 192-210) and the template
    arguments (config.py:441-472, set at core.py:190). *)
Record state := mkState { st_rules : option collection; st_targs : args }.

Section Main.
Variable str_other : val -> string.
Variable sp : spec.
Variable tr : translator.
Variable all_rules : list rule.        (* what create_from_directory / create_from_module yield, core.py:100-106 *)
Variables cli_args file_args : args.

Definition src (targs : args) : sources := mkSources cli_args targs file_args.

(** get_template_rules, core.py:165-210.  The result is the new state and either findings of decoding or the template
    with the rules to run. *)
Definition ignore_bad (st : state) : res bool :=
  let s := src (st_targs st) in
  if ignore_bad_template s then Ok true
  else
    do ig <- ignore_checks s; do inc <- include_checks s; do man <- mandatory_checks s;
    Ok (negb (is_enabled "E0000" false false ig inc man)).

Inductive prepared := Errors (l : list finding) | Ready (t : mval) (k : collection).

Definition get_template_rules (st : state) (d : decoded) : state * res prepared :=
  match ignore_bad st with
  | Err e => (st, Err e)
  | Ok bad =>
      match d with
      | DecErr errors =>
          (st, Ok (Errors (match errors with
                           | [e] => if bad && String.eqb (f_rule e) "E0000" then [] else errors
                           | _ => errors
                           end)))
      | DecOk t =>
          match set_template_args (erase t) with
          | Err e => (st, Err e)
          | Ok targs =>
              let s := src targs in
              let k :=
                do ig <- ignore_checks s; do inc <- include_checks s; do man <- mandatory_checks s;
                match st_rules st with
                | Some (mkColl all st0) =>
                    match rules (mkColl all st0) with
                    | [] => coll_new str_other all_rules ig inc (configure_rules s) (include_experimental s) man
                    | _ => coll_configure str_other (mkColl all st0) ig inc (configure_rules s)
                             (include_experimental s) man
                    end
                | None => coll_new str_other all_rules ig inc (configure_rules s) (include_experimental s) man
                end in
              match k with
              | Err e => (mkState (st_rules st) targs, Err e)
              | Ok k' => (mkState (Some k') targs, Ok (Ready t k'))
              end
          end
      end
  end.

(** The body of the loop in main, __main__.py:26-38: lint one file.  A template that is falsy (an empty object) is not
    checked (line 31). *)
Definition lint_one (st : state) (filename : string) (d : decoded) : state * res outcome :=
  match get_template_rules st d with
  | (st', Err e) => (st', Err e)
  | (st', Ok (Errors l)) => (st', Ok (Findings l))
  | (st', Ok (Ready t k)) =>
      if negb (truthy (erase t)) then (st', Ok (Findings []))
      else
        let s := src (st_targs st') in
        match regions s, mandatory_checks s with
        | Ok rg, Ok man =>
            let '(k', o) := run_checks sp tr k rg man (mkCfn filename (hd "us-east-1" rg) t) in
            (mkState (Some k') (st_targs st'), Ok o)
        | Err e, _ | _, Err e => (st', Err e)
        end
  end.

(** main, __main__.py:22-49, without the output: lint the files in order, collecting findings. *)
Fixpoint lint_all (st : state) (files : list (string * decoded)) (acc : list finding) : state * res outcome :=
  match files with
  | [] => (st, Ok (Findings acc))
  | (n, d) :: rest =>
      match lint_one st n d with
      | (st', Ok (Findings l)) => lint_all st' rest (acc ++ l)
      | (st', Ok (Exit c)) => (st', Ok (Exit c))
      | (st', Err e) => (st', Err e)
      end
  end.
Definition initial_state : state := mkState None [].
Definition exit_status (o : outcome) : Z :=
  match o with Findings l => get_exit_code l | Exit c => c end.
End Main.
