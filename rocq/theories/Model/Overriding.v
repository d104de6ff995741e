(** Overriding the resource specifications: set_specs for all regions and for every document, override_specs (helpers.py:337-382, 512-533),
    and run_cli (core.py:43-60) in the loop of main (__main__.py:26-38) as far as the specifications go. *)
From Coq Require Import ZArith Ascii.
From Verif.Model Require Import Base Node Locate Helpers Rules Runner Config Core Refs Startup.
Import Verif.Model.Rules.
Local Open Scope string_scope.

(** RESOURCE_SPECS, helpers.py:321: the specification of each region. *)
Definition specs := list (string * val).
(** The iteration over a list of patterns, helpers.py:362-363 and 371-373, with the .replace of each of them. *)
Fixpoint chars_of (s : string) : list string := match s with EmptyString => [] | String c r => String c "" :: chars_of r end.
Fixpoint pattern_texts (l : list val) : res (list string) :=
  match l with
  | [] => Ok []
  | VStr s :: rest => do r <- pattern_texts rest; Ok (s :: r)
  | _ :: _ => Err EAttribute
  end.
Definition patterns (v : option val) : res (list string) :=
  match v with
  | None => Ok []
  | Some v =>
      if truthy v then
        match v with
        | VList l => pattern_texts l
        | VStr s => Ok (chars_of s)
        | VDict d => Ok (keys d)
        | _ => Err ETypeErr
        end
      else Ok []
  end.
(** One turn of the loop of set_specs, helpers.py:349-382. *)
Definition set_region (doc : list (string * val)) (spec : val) : res val :=
  let rest := remove_key "IncludeResourceTypes" (remove_key "ExcludeResourceTypes" doc) in
  do merged <- (match rest with [] => Ok spec | _ => merge_spec (VDict rest) spec end);
  match merged with
  | VDict d =>
      match assoc "ResourceTypes" d with
      | Some (VDict types) =>
          do includes <- patterns (assoc "IncludeResourceTypes" doc);
          do excludes <- patterns (assoc "ExcludeResourceTypes" doc);
          let keep := spec_selected includes excludes (keys types) in
          Ok (VDict (set_assoc "ResourceTypes" (VDict (filter (fun kv => smem (fst kv) keep) types)) d))
      | Some _ => Err EAttribute
      | None => Err EKey
      end
  | _ => Err ETypeErr
  end.
Definition set_regions (f : val -> res val) (s : specs) : res specs := map_res (fun rs => do x <- f (snd rs); Ok (fst rs, x)) s.
(** set_specs, helpers.py:337-382, for what json.load may give: [in] looks into lists and texts too, which have no fitting [pop] and no [items]. *)
Definition set_all_specs (doc : val) (s : specs) : res specs :=
  match doc with
  | VDict d => set_regions (set_region d) s
  | VList l =>
      if existsb (fun x => eq_str "ExcludeResourceTypes" x || eq_str "IncludeResourceTypes" x) l then Err ETypeErr
      else match l with [] => set_regions (set_region []) s | _ => set_regions (fun _ => Err EAttribute) s end
  | VStr t =>
      if contains_text "ExcludeResourceTypes" t || contains_text "IncludeResourceTypes" t then Err EAttribute
      else if String.eqb t "" then set_regions (set_region []) s else set_regions (fun _ => Err EAttribute) s
  | _ => Err ETypeErr
  end.

(** Opening the file and json.load, helpers.py:516-517: a document, an IOError with its number, or another exception. *)
Inductive reading := Read (v : val) | IOErr (errno : Z) | Raised (e : exn).
(** What override_specs leaves: specifications, or the end of the program by sys.exit, or an exception. *)
Inductive overridden := Now (s : specs) | Quits (status : Z) | Throws (e : exn).
Section Override.
Variable read : string -> reading.
(** override_specs, helpers.py:512-533. *)
Definition override_specs (file : string) (s : specs) : overridden :=
  match read file with
  | Read v => match set_all_specs v s with Ok s' => Now s' | Err EValue => Quits 1 | Err e => Throws e end
  | IOErr n => if Z.eqb n 2 || Z.eqb n 21 || Z.eqb n 13 then Quits 1 else Now s
  | Raised EValue => Quits 1
  | Raised e => Throws e
  end.
(** core.py:46-47.  The option is a text: the command line gives nothing else and configuration files are validated. *)
Definition override_step (src : sources) (s : specs) : overridden :=
  let v := option_value src "override_spec" in
  if truthy v then match v with VStr f => override_specs f s | _ => Throws ETypeErr end else Now s.
End Override.

(** * The loop of main, __main__.py:26-38, with the specifications as they are when a template is checked *)
Section Loop.
Variable str_other : val -> string.
Variable all_rules : list rule.
Variables cli_args file_args : args.
Variable decode : option string -> decoded.
(** What happens to the specifications before a template is checked. *)
Variable prepare : sources -> specs -> overridden.
(** The rest of run_cli, core.py:49-60: the check of a template against the specifications. *)
Variable check : specs -> state -> option string -> mval -> collection -> state * res outcome.
Fixpoint lint_with (s : specs) (st : state) (names : list (option string)) (acc : list finding) : finish :=
  match names with
  | [] => Linted acc
  | n :: rest =>
      match get_template_rules str_other all_rules cli_args file_args st (decode n) with
      | (_, Err e) => Failed e
      | (st', Ok (Errors l)) => lint_with s st' rest (acc ++ l)
      | (st', Ok (Ready t k)) =>
          if negb (truthy (erase t)) then lint_with s st' rest acc
          else
            match prepare (src cli_args file_args (st_targs st')) s with
            | Throws e => Failed e
            | Quits z => Left z
            | Now s' =>
                match check s' st' n t k with
                | (_, Err e) => Failed e
                | (_, Ok (Exit z)) => Left z
                | (st'', Ok (Findings l)) => lint_with s' st'' rest (acc ++ l)
                end
            end
      end
  end.
End Loop.
(** run_checks as [check], core.py:60 with the arguments of __main__.py:33-35; [spec_of] is what the walk over properties reads. *)
Definition check_with (cli_args file_args : args) (spec_of : specs -> spec) (tr : translator) (name_of : option string -> string)
  (s : specs) (st : state) (n : option string) (t : mval) (k : collection) : state * res outcome :=
  let o := src cli_args file_args (st_targs st) in
  match regions o, mandatory_checks o with
  | Ok rg, Ok man =>
      let '(k', r) := run_checks (spec_of s) tr k rg man (mkCfn (name_of n) (hd "us-east-1" rg) t) in (mkState (Some k') (st_targs st), Ok r)
  | Err e, _ | _, Err e => (st, Err e)
  end.
