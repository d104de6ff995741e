(** Model of the loading of rules: src/cfnlint/helpers.py:420-486 (create_rules, import_filename, load_plugins),
    RulesCollection.create_from_module and create_from_directory (src/cfnlint/rules/__init__.py:410-420) and
    cfnlint.core.get_rules (src/cfnlint/core.py:97-109), for Python 3.5 and later. *)
From Verif.Model Require Import Base Node Locate Helpers Rules.

(** A class as inspect shows it: the (module, name) pairs of its method resolution order after itself, and what calling
    it without arguments gives. *)
Record cls := mkCls { cl_bases : list (string * string); cl_new : res rule }.
(** What executing a module gives: its class members by name, or the exception it raises. *)
Definition module := res (list (string * cls)).

(** A file system as far as loading sees it.  A directory that cannot be listed has [false]; links to directories are
    left out (os.walk does not follow them).  Entries are in the order in which the system lists them. *)
Inductive entry :=
| FileE (name : string) (m : module)
| DirE (name : string) (readable : bool) (l : list entry).

Definition os_error : exn := EOther "OSError".
Definition import_error : exn := EOther "ImportError".

(** The test of create_rules, helpers.py:425-426. *)
Definition is_rule_class (c : cls) : bool :=
  existsb (fun b => (String.eqb (fst b) "cfnlint" || String.eqb (fst b) "cfnlint.rules") && String.eqb (snd b) "CloudFormationLintRule") (cl_bases c).
(** inspect.getmembers gives members by names. *)
Fixpoint insert_member (x : string * cls) (l : list (string * cls)) : list (string * cls) :=
  match l with
  | [] => [x]
  | y :: ys => if str_leb (fst x) (fst y) then x :: l else y :: insert_member x ys
  end.
Definition by_name (l : list (string * cls)) : list (string * cls) := fold_right insert_member [] l.
(** create_rules, helpers.py:420-430. *)
Definition create_rules (members : list (string * cls)) : res (list rule) :=
  map_res (fun m => cl_new (snd m)) (filter (fun m => is_rule_class (snd m)) (by_name members)).

(** The pattern [A-Za-z]*.py of helpers.py:481 (on systems whose file names keep their case). *)
Definition rule_file (name : string) : bool :=
  match name with String c rest => (is_upper c || is_lower c) && ends_with ".py" rest | EmptyString => false end.
(** [filename.replace('.py', '')], helpers.py:482. *)
Fixpoint remove_py (s : string) : string :=
  match s with
  | String "." (String "p" (String "y" rest)) => remove_py rest
  | String c rest => String c (remove_py rest)
  | EmptyString => EmptyString
  end.

Fixpoint find_file (name : string) (l : list entry) : option module :=
  match l with
  | [] => None
  | FileE n m :: rest => if String.eqb n name then Some m else find_file name rest
  | DirE _ _ _ :: rest => find_file name rest
  end.
Fixpoint find_dir (name : string) (l : list entry) : option (list entry) :=
  match l with
  | [] => None
  | DirE n _ sub :: rest => if String.eqb n name then Some sub else find_dir name rest
  | FileE _ _ :: rest => find_dir name rest
  end.
(** FileFinder.find_spec for sources (suffix .py), then module_from_spec and exec_module: helpers.py:453-469.  A package
    comes before a file; a directory without __init__.py is found if there is no file, and has no loader, so that
    [mod_spec.loader.exec_module] raises AttributeError. *)
Definition import_filename (name : string) (l : list entry) : res (option (list (string * cls))) :=
  let tail := last (split_on "." name) "" in
  let run (m : module) := do x <- m; Ok (Some x) in
  match find_dir tail l with
  | Some sub =>
      match find_file "__init__.py" sub with
      | Some m => run m
      | None => match find_file (tail ++ ".py") l with Some m => run m | None => Err EAttribute end
      end
  | None => match find_file (tail ++ ".py") l with Some m => run m | None => Ok None end
  end.

(** The body of the inner loop of load_plugins, helpers.py:481-484, for one entry of a directory. *)
Definition load_file (l : list entry) (e : entry) : res (list rule) :=
  match e with
  | FileE name _ =>
      if rule_file name then
        do o <- import_filename (remove_py name) l;
        match o with Some members => create_rules members | None => Ok [] end
      else Ok []
  | DirE _ _ _ => Ok []
  end.
(** load_plugins, helpers.py:472-486: the files of a directory, then its directories. *)
Fixpoint load_entry (e : entry) : res (list rule) :=
  match e with
  | FileE _ _ => Ok []
  | DirE _ false _ => Err os_error
  | DirE _ true l =>
      do a <- concat_res (load_file l) l;
      do b <- (fix subs (l : list entry) : res (list rule) :=
                 match l with
                 | [] => Ok []
                 | x :: xs => do a <- load_entry x; do b <- subs xs; Ok (a ++ b)
                 end) l;
      Ok (a ++ b)
  end.
Definition load_plugins (tree : list entry) : res (list rule) := load_entry (DirE "" true tree).

Section GetRules.
Variable str_other : val -> string.
(** The directory at a path, if os.path.isdir says so of the path with ~ expanded. *)
Variable directory : string -> option (list entry).
(** importlib.import_module on names that are not empty. *)
Variable imported : string -> module.
(** importlib.import_module(''): ValueError('Empty module name'). *)
Definition import_module (path : string) : module := if String.eqb path "" then Err EValue else imported path.
(** One turn of the loop at core.py:102-106. *)
Definition load_path (path : string) : res (list rule) :=
  match (if String.eqb path "" then None else directory path) with
  | Some tree => load_plugins tree
  | None => do m <- import_module path; create_rules m
  end.
Fixpoint add_paths (k : collection) (paths : list string) : res collection :=
  match paths with
  | [] => Ok k
  | p :: rest => do rs <- load_path p; do k' <- coll_extend str_other k rs; add_paths k' rest
  end.

(** How get_rules ends: with rules, with UnexpectedRuleException (exit code 1) or with another exception. *)
Inductive got := Rules (k : collection) | Unexpected (code : Z) | Raises (e : exn).
Definition caught (e : exn) : bool :=
  match e with EOther s => String.eqb s "OSError" || String.eqb s "ImportError" | _ => false end.
(** get_rules, core.py:97-109. *)
Definition get_rules (default_dir : string) (append_rules ignore_rules include_rules : list string)
    (configure_rules : list (string * val)) (include_experimental : bool) (mandatory_rules : list string) : got :=
  match add_paths (mkColl [] (mkSettings include_experimental ignore_rules (add_default_includes include_rules) mandatory_rules configure_rules))
                  (default_dir :: append_rules) with
  | Ok k => Rules k
  | Err e => if caught e then Unexpected 1 else Raises e
  end.

(** The call for --list-rules, core.py:143-151: the fifth argument, include_experimental, gets the mandatory checks, and
    mandatory_rules keeps its default. *)
Definition rules_to_list (default_dir : string) (append_rules ignore_checks include_checks : list string)
    (configure : list (string * val)) (mandatory_checks : list string) : got :=
  get_rules default_dir append_rules ignore_checks include_checks configure
    (match mandatory_checks with [] => false | _ => true end) [].
End GetRules.
