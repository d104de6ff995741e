(** Model of src/cfnlint/runner.py and of Template.get_directives (src/cfnlint/template.py:202-219). *)
From Verif.Model Require Import Base Node Locate Helpers Rules.

(** One suppression: the rule id and the (line, column) positions between which it holds (template.py:215-218). *)
Record directive := mkDir { d_rule : string; d_sl : Z; d_sc : Z; d_el : Z; d_ec : Z }.

(** [for ignore_rule_id in ignore_rule_ids: if ignore_rule_id not in results], template.py:210-211: what iterating the
    value yields.  A list or dict entry is unhashable (TypeError); an entry that is a number or null never equals a
    rule id and is dropped here; iterating a string yields its characters; a number or null is not iterable. *)
Fixpoint ignore_ids (l : list val) : res (list string) :=
  match l with
  | [] => Ok []
  | VStr s :: rest => do r <- ignore_ids rest; Ok (s :: r)
  | VList _ :: _ | VDict _ :: _ => Err ETypeErr
  | _ :: rest => ignore_ids rest
  end.
Fixpoint chars (s : string) : list string :=
  match s with EmptyString => [] | String c s' => String c EmptyString :: chars s' end.
Definition iter_ignore (v : val) : res (list string) :=
  match v with
  | VList l => ignore_ids l
  | VStr s => Ok (chars s)
  | VDict d => Ok (keys d)
  | _ => Err ETypeErr
  end.

(** The body of the loop, template.py:207-218.  [name_mark] is the mark of the logical id; without one [_loc] raises
    AttributeError. *)
Definition resource_directives (name_mark : option mark) (r : mval) : res (list directive) :=
  match erase r with
  | VDict d =>
      match assoc "Type" d with
      | None | Some VNull => Ok []               (* not in get_resources() *)
      | Some _ =>
          do m <- vget_def "Metadata" (VDict []) (erase r);
          do l <- vget_def "cfn-lint" (VDict []) m;
          do cf <- vget_def "config" (VDict []) l;
          do ic <- vget_def "ignore_checks" (VList []) cf;
          do ids <- iter_ignore ic;
          match ids with
          | [] => Ok []
          | _ =>
              match loc_of r, name_mark with
              | Some v, Some n =>
                  Ok (map (fun id => mkDir id (sl n + 1) (sc n + 1) (el v + 1) (ec v + 1)) ids)
              | _, _ => Err EAttribute
              end
          end
      end
  | _ => Ok []
  end.

(** Template.get_directives, template.py:202-219.  The result dict (rule id to list of ranges) is kept as one list in
    order; [id in results] is "some entry has that rule id". *)
Definition get_directives (t : mval) : res (list directive) :=
  match t with
  | MDict _ d =>
      match massoc "Resources" d with
      | Some (MDict _ rs) => concat_res (fun kv => resource_directives (snd (fst kv)) (snd kv)) rs
      | _ => Ok []
      end
  | _ => Err EAttribute
  end.

(** The three tests at runner.py:69-74. *)
Definition in_directive (d : directive) (m : finding) : bool :=
  (Z.ltb (d_sl d) (f_line m) && Z.ltb (f_line m) (d_el d))
  || (Z.eqb (d_sl d) (f_line m) && Z.leb (d_sc d) (f_col m))
  || (Z.eqb (d_el d) (f_line m) && Z.leb (f_col_end m) (d_ec d)).

(** The decision at runner.py:58-76 for a finding that is not a duplicate. *)
Definition kept (mandatory : list string) (ds : list directive) (m : finding) : bool :=
  let mine := filter (fun d => String.eqb (d_rule d) (f_rule m)) ds in
  match mine with
  | [] => true
  | _ => existsb (fun p => starts_with p (f_rule m)) mandatory
         || negb (existsb (fun d => in_directive d m) mine)
  end.

(** The loop at runner.py:55-76. *)
Fixpoint filter_matches (mandatory : list string) (ds : list directive) (ms acc : list finding) : list finding :=
  match ms with
  | [] => acc
  | m :: rest =>
      if existsb (fun u => finding_eqb m u) acc then filter_matches mandatory ds rest acc
      else if kept mandatory ds m then filter_matches mandatory ds rest (acc ++ [m])
      else filter_matches mandatory ds rest acc
  end.

(** Runner.run, runner.py:44-78. *)
Definition runner_run (sp : spec) (k : collection) (mandatory : list string) (c : cfn)
  : collection * res (list finding) :=
  let '(k', r) := coll_run sp k c in
  (k', do ms <- r;
       do ds <- get_directives (c_tmpl c);
       Ok (filter_matches mandatory ds ms [])).

(** The test at runner.py:29-36: is the serverless transform asked for? *)
Definition wants_transform (t : val) : bool :=
  match vget_def "Transform" (VList []) t with
  | Ok (VList l) => existsb (eq_str "AWS::Serverless-2016-10-31") l
  | Ok v => eq_str "AWS::Serverless-2016-10-31" v
  | Err _ => false
  end.
