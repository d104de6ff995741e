(** Model of src/cfnlint/rules/__init__.py: rules, the rule collection and running the rules on a template. *)
From Verif.Model Require Import Base Node Locate Helpers.

(** * Findings *)

(** class Match, rules/__init__.py:443-460 (rule is represented by its id; attributes copied from the RuleMatch are not
    modelled). *)
Record finding := mkFinding {
  f_line : Z; f_col : Z; f_line_end : Z; f_col_end : Z;
  f_file : string; f_rule : string; f_msg : string }.

(** Match.__eq__, rules/__init__.py:468-476. *)
Definition finding_eqb (a b : finding) : bool :=
  Z.eqb (f_line a) (f_line b) && Z.eqb (f_col a) (f_col b) &&
  String.eqb (f_rule a) (f_rule b) && String.eqb (f_msg a) (f_msg b).

(** CloudFormationLintRule.severity, rules/__init__.py:37-45.  [self.id[0]] raises IndexError on an empty id; rule ids
    are never empty, the model answers [Unknown]. *)
Inductive severity := Informational | Error | Warning | Unknown.
Definition severity_of (id : string) : severity :=
  match id with
  | EmptyString => Unknown
  | String c _ =>
      if char_eqb (upper_char c) "I" then Informational
      else if char_eqb (upper_char c) "E" then Error
      else if char_eqb (upper_char c) "W" then Warning
      else Unknown
  end.

(** * Rules *)

(** The template object rules see: file name, first region, marked template.  [Template.template] is [erase]. *)
Record cfn := mkCfn { c_file : string; c_region : string; c_tmpl : mval }.
Definition template (c : cfn) : val := erase (c_tmpl c).

Inductive cfgtype := CBoolean | CString | CInteger.
Definition config := list (string * val).

(** CloudFormationLintRule, rules/__init__.py:15-32, 103-105.  A rule is its identity, its current configuration
    ([self.config], mutable), the lists of types it asks for (mutable, extended by [initialize]) and its match
    functions, which may read the configuration.  [r_init] gives what [initialize] appends to the two lists. *)
Record rule := mkRule {
  r_id : string;
  r_experimental : bool;
  r_definition : list (string * (cfgtype * val));
  r_config : config;
  r_types : list string;
  r_subtypes : list string;
  r_init : cfn -> list string * list string;
  r_match : option (config -> cfn -> res (list rulematch));
  r_match_props : option (config -> cfn -> val -> string -> path -> res (list rulematch));
  r_match_subs : option (config -> cfn -> val -> string -> path -> res (list rulematch)) }.

Definition set_config (r : rule) (c : config) : rule :=
  mkRule (r_id r) (r_experimental r) (r_definition r) c (r_types r) (r_subtypes r) (r_init r)
         (r_match r) (r_match_props r) (r_match_subs r).
Definition add_types (r : rule) (t s : list string) : rule :=
  mkRule (r_id r) (r_experimental r) (r_definition r) (r_config r) (r_types r ++ t) (r_subtypes r ++ s) (r_init r)
         (r_match r) (r_match_props r) (r_match_subs r).

(** CloudFormationLintRule.is_enabled, rules/__init__.py:54-83.  The loop at lines 66-69 sets a flag; the loops at 74-76
    and 79-81 return at the first hit. *)
Definition is_enabled (id : string) (experimental include_experimental : bool)
    (ignore_rules include_rules mandatory_rules : list string) : bool :=
  if experimental && negb include_experimental then false
  else if negb (existsb (fun p => starts_with p id) include_rules) then false
  else if existsb (fun p => starts_with p id) mandatory_rules then true
  else if existsb (fun p => starts_with p id && negb (String.eqb p "")) ignore_rules then false
  else true.

(** [str(value)] and [int(value)] as configure uses them (rules/__init__.py:98-101): the string form of floats,
    containers and null is left to an argument; int() of a string accepts optional sign and digits (no surrounding
    white space or underscores in the model), of a float truncates. *)
Fixpoint parse_digits (s : string) (acc : Z) : option Z :=
  match s with
  | EmptyString => Some acc
  | String c s' => if is_digit c then parse_digits s' (acc * 10 + Z.of_nat (code c - 48)) else None
  end.
Definition parse_int (s : string) : option Z :=
  match s with
  | EmptyString => None
  | String c s' =>
      if char_eqb c "-" then
        match s' with EmptyString => None | _ => option_map Z.opp (parse_digits s' 0) end
      else if char_eqb c "+" then
        match s' with EmptyString => None | _ => parse_digits s' 0 end
      else parse_digits s 0
  end.
Definition py_int (v : val) : res Z :=
  match v with
  | VInt z => Ok z
  | VBool b => Ok (if b then 1 else 0)%Z
  | VFloat q => Ok (Z.quot (Qnum q) (Zpos (Qden q)))
  | VStr s => match parse_int s with Some z => Ok z | None => Err EValue end
  | _ => Err ETypeErr
  end.

Section Str.
(** [str(v)] of values other than strings, integers and booleans. *)
Variable str_other : val -> string.
Definition py_str (v : val) : string :=
  match v with
  | VStr s => s
  | VInt z => str_of_Z z
  | VBool true => "True"
  | VBool false => "False"
  | _ => str_other v
  end.

(** CloudFormationLintRule.configure, rules/__init__.py:85-101. *)
Definition config_defaults (r : rule) : config :=
  fold_left (fun c d => set_assoc (fst d) (snd (snd d)) c) (r_definition r) (r_config r).
Fixpoint config_apply (def : list (string * (cfgtype * val))) (configs : list (string * val)) (c : config) : res config :=
  match configs with
  | [] => Ok c
  | (key, value) :: rest =>
      match assoc key def with
      | None => config_apply def rest c
      | Some (CBoolean, _) => config_apply def rest (set_assoc key (VBool (bool_compare value (VBool true))) c)
      | Some (CString, _) => config_apply def rest (set_assoc key (VStr (py_str value)) c)
      | Some (CInteger, _) => do z <- py_int value; config_apply def rest (set_assoc key (VInt z) c)
      end
  end.
Definition rule_configure (r : rule) (configs : val) : res rule :=
  let c0 := config_defaults r in
  match configs with
  | VDict cs => do c <- config_apply (r_definition r) cs c0; Ok (set_config r c)
  | _ => Ok (set_config r c0)
  end.

(** * The collection *)

(** RulesCollection, rules/__init__.py:172-217.  [self.rules] always consists of the members of [self.all_rules] that are
    enabled, in order: [configure] rebuilds it from [all_rules] (lines 188, 204-205) and [register] appends to both
    (lines 216-217); enabledness does not depend on a rule's configuration.  So the model keeps [all_rules] and the
    settings and computes [rules]. *)
Record settings := mkSettings {
  s_experimental : bool;
  s_ignore : list string;
  s_include : list string;
  s_mandatory : list string;
  s_configure : list (string * val) }.

Record collection := mkColl { k_all : list rule; k_set : settings }.

(** The defaulting of include_rules, rules/__init__.py:200-202. *)
Definition add_default_includes (include_rules : list string) : list string :=
  let l1 := if smem "W" include_rules then include_rules else include_rules ++ ["W"] in
  if smem "E" l1 then l1 else l1 ++ ["E"].

(** RulesCollection.is_rule_enabled, rules/__init__.py:234-237. *)
Definition is_rule_enabled (s : settings) (id : string) (experimental : bool) : bool :=
  is_enabled id experimental (s_experimental s) (s_ignore s) (s_include s) (s_mandatory s).
Definition enabled (s : settings) (r : rule) : bool := is_rule_enabled s (r_id r) (r_experimental r).
Definition rules (k : collection) : list rule := filter (enabled (k_set k)) (k_all k).

(** RulesCollection.__register, rules/__init__.py:207-212: the configuration side effect on the rule object. *)
Definition register_effect (s : settings) (r : rule) : res rule :=
  if enabled s r then
    match assoc (r_id r) (s_configure s) with
    | Some cs => rule_configure r cs
    | None => Ok r
    end
  else Ok r.

(** RulesCollection.configure, rules/__init__.py:187-205. *)
Definition coll_configure (k : collection) (ignore_rules include_rules : list string) (configure_rules : list (string * val))
    (include_experimental : bool) (mandatory_rules : list string) : res collection :=
  let s := mkSettings include_experimental ignore_rules (add_default_includes include_rules) mandatory_rules
             configure_rules in
  do rs <- map_res (register_effect s) (k_all k);
  Ok (mkColl rs s).

(** RulesCollection.register, rules/__init__.py:214-217. *)
Definition coll_register (k : collection) (r : rule) : res collection :=
  do r' <- register_effect (k_set k) r;
  Ok (mkColl (k_all k ++ [r']) (k_set k)).

(** RulesCollection.__init__ (rules/__init__.py:175-185) followed by extend (225-228), as core.get_rules does
    (core.py:97-109). *)
Fixpoint coll_extend (k : collection) (rs : list rule) : res collection :=
  match rs with
  | [] => Ok k
  | r :: rest => do k' <- coll_register k r; coll_extend k' rest
  end.
Definition coll_new (rs : list rule) (ignore_rules include_rules : list string) (configure_rules : list (string * val))
    (include_experimental : bool) (mandatory_rules : list string) : res collection :=
  coll_extend
    (mkColl [] (mkSettings include_experimental ignore_rules (add_default_includes include_rules) mandatory_rules
                  configure_rules)) rs.
End Str.

(** * Running checks *)

(** The end of the [matching] wrapper, rules/__init__.py:135-149. *)
Definition locate_match (c : cfn) (id : string) (m : rulematch) : res finding :=
  do l <- get_location (c_tmpl c) (rm_path m);
  match l with
  | Some k => Ok (mkFinding (sl k + 1) (sc k + 1) (el k + 1) (ec k + 1) (c_file c) id (rm_msg m))
  | None => Ok (mkFinding 1 1 1 1 (c_file c) id (rm_msg m))
  end.

(** The [matching] wrapper for [match], rules/__init__.py:108-157. *)
Definition matchall (r : rule) (c : cfn) : res (list finding) :=
  match r_match r with
  | None => Ok []
  | Some f => do ms <- f (r_config r) c; map_res (locate_match c (r_id r)) ms
  end.
(** ... for [match_resource_properties], rules/__init__.py:120-122, 159-163. *)
Definition matchall_props (r : rule) (c : cfn) (props : val) (ptype : string) (p : path) : res (list finding) :=
  match r_match_props r with
  | None => Ok []
  | Some f =>
      if negb (smem ptype (r_types r)) then Ok []
      else do ms <- f (r_config r) c props ptype p; map_res (locate_match c (r_id r)) ms
  end.
(** ... for [match_resource_sub_properties], rules/__init__.py:123-125, 165-169. *)
Definition matchall_subs (r : rule) (c : cfn) (props : val) (ptype : string) (p : path) : res (list finding) :=
  match r_match_subs r with
  | None => Ok []
  | Some f =>
      if negb (smem ptype (r_subtypes r)) then Ok []
      else do ms <- f (r_config r) c props ptype p; map_res (locate_match c (r_id r)) ms
  end.

(** [str(err)]; the text is not modelled beyond the kind of error. *)
Definition exn_str (e : exn) : string :=
  match e with
  | ETemplateAttribute => "TemplateAttributeError" | EAttribute => "AttributeError" | ETypeErr => "TypeError"
  | EValue => "ValueError" | EKey => "KeyError" | EIndex => "IndexError" | ERecursion => "RecursionError"
  | EOther m => m | EOutOfFuel => "out of fuel"
  end.

(** The finding for a crashed rule, rules/__init__.py:253-257; RuleError's id is 'E0002' (rules/__init__.py:497-501). *)
Definition crash_finding (file rule_id : string) (e : exn) : finding :=
  mkFinding 1 1 1 1 file "E0002"
    ("Unknown exception while processing rule " ++ rule_id ++ ": " ++ exn_str e)%string.

(** RulesCollection.run_check, rules/__init__.py:239-257, together with the [matches.extend(...)] around every call of
    it: when E0002 is not enabled run_check returns None and extend raises TypeError. *)
Definition run_check (s : settings) (file rule_id : string) (r : res (list finding)) : res (list finding) :=
  match r with
  | Ok l => Ok l
  | Err ETemplateAttribute => Ok []
  | Err e => if is_rule_enabled s "E0002" false then Ok [crash_finding file rule_id e] else Err ETypeErr
  end.

(** The parts of the resource specification the walk reads (RESOURCE_SPECS['us-east-1'], helpers.py:321): for each
    property type or resource type its 'Properties', 'Type' and 'ItemType'; for each property its 'Type' and
    'ItemType'.  The specification data itself is an argument of the model. *)
Record propdef := mkPD { pd_type : option string; pd_item : option string }.
Record typespec := mkTS {
  ts_props : option (list (string * propdef)); ts_type : option string; ts_item : option string }.
Record spec := mkSpec { sp_property_types : list (string * typespec); sp_resource_types : list (string * typespec) }.

Definition opt_eqb (o : option string) (s : string) : bool :=
  match o with Some x => String.eqb x s | None => false end.
(** '%s' % None is the text None. *)
Definition fmt_opt (o : option string) : string := match o with Some x => x | None => "None" end.
(** rules/__init__.py:263-266. *)
Definition spec_name (resource_type : string) (property_type : option string) : string :=
  if opt_eqb property_type "Tag" then "Tag" else (resource_type ++ "." ++ fmt_opt property_type)%string.

Section Run.
Variable sp : spec.

(** The rule loop of resource_property, rules/__init__.py:269-293. *)
Definition sub_checks (k : collection) (c : cfn) (props : val) (name : string) (p : path) : res (list finding) :=
  concat_res (fun r =>
      match props with
      | VDict [(key, _)] =>
          if String.eqb key "Fn::If" then Ok []
          else run_check (k_set k) (c_file c) (r_id r) (matchall_subs r c props name p)
      | _ => run_check (k_set k) (c_file c) (r_id r) (matchall_subs r c props name p)
      end) (rules k).

(** RulesCollection.resource_property, rules/__init__.py:259-345. *)
Fixpoint resource_property (k : collection) (c : cfn) (props : val) (p : path) (rt : string) (pt : option string)
    {struct props} : res (list finding) :=
  let name := spec_name rt pt in
  match assoc name (sp_property_types sp) with
  | None => Ok []
  | Some ts =>
      do ms <- sub_checks k c props name p;
      do rest <-
        match ts_props ts with
        | None | Some [] =>
            if opt_eqb (ts_type ts) "List" then
              match props with
              | VList l =>
                  (fix go (i : nat) (l : list val) : res (list finding) :=
                     match l with
                     | [] => Ok []
                     | x :: xs => do a <- resource_property k c x (p ++ [PIdx i]) rt (ts_item ts);
                                  do b <- go (S i) xs; Ok (a ++ b)
                     end) 0 l
              | _ => Ok []
              end
            else Ok []
        | Some sprops =>
            match props with
            | VDict d =>
                (fix god (d : list (string * val)) : res (list finding) :=
                   match d with
                   | [] => Ok []
                   | (key, value) :: drest =>
                       let pp := p ++ [PKey key] in
                       do a <-
                         match assoc key sprops with
                         | None =>
                             if String.eqb key "Fn::If" then
                               match value with
                               | VList [_; b1; b2] =>
                                   do r1 <-
                                     match b1 with
                                     | VList l =>
                                         (fix go (i : nat) (l : list val) : res (list finding) :=
                                            match l with
                                            | [] => Ok []
                                            | x :: xs =>
                                                do a <- resource_property k c x (pp ++ [PIdx 1; PIdx i]) rt pt;
                                                do b <- go (S i) xs; Ok (a ++ b)
                                            end) 0 l
                                     | _ => resource_property k c b1 (pp ++ [PIdx 1]) rt pt
                                     end;
                                   do r2 <-
                                     match b2 with
                                     | VList l =>
                                         (fix go (i : nat) (l : list val) : res (list finding) :=
                                            match l with
                                            | [] => Ok []
                                            | x :: xs =>
                                                do a <- resource_property k c x (pp ++ [PIdx 2; PIdx i]) rt pt;
                                                do b <- go (S i) xs; Ok (a ++ b)
                                            end) 0 l
                                     | _ => resource_property k c b2 (pp ++ [PIdx 2]) rt pt
                                     end;
                                   Ok (r1 ++ r2)
                               | _ => Ok []
                               end
                             else Ok []
                         | Some pd =>
                             if opt_eqb (pd_type pd) "List" && negb (mem_assoc "PrimitiveItemType" sprops) then
                               match value with
                               | VList l =>
                                   (fix go (i : nat) (l : list val) : res (list finding) :=
                                      match l with
                                      | [] => Ok []
                                      | x :: xs =>
                                          do a <- resource_property k c x (pp ++ [PIdx i]) rt (pd_item pd);
                                          do b <- go (S i) xs; Ok (a ++ b)
                                      end) 0 l
                               | _ => Ok []
                               end
                             else
                               match pd_type pd, value with
                               | Some t, VDict _ =>
                                   if String.eqb t "" then Ok [] else resource_property k c value pp rt (Some t)
                               | _, _ => Ok []
                               end
                         end;
                       do b <- god drest;
                       Ok (a ++ b)
                   end) d
            | _ => Ok []
            end
        end;
      Ok (ms ++ rest)
  end.

(** The inner loop of run_resource, rules/__init__.py:355-374, for one properties object. *)
Definition run_resource_item (k : collection) (c : cfn) (rt : string) (sprops : option (list (string * propdef)))
    (vp : val * path) : res (list finding) :=
  let '(v, p) := vp in
  concat_res (fun kv : string * val =>
      let '(key, value) := kv in
      match sprops with
      | None => Err EAttribute          (* None.get, line 356 *)
      | Some sps =>
          match assoc key sps with
          | None => Ok []
          | Some pd =>
              if opt_eqb (pd_type pd) "List" && negb (mem_assoc "PrimitiveItemType" sps) then
                match value with
                | VList l =>
                    concat_res (fun ix : nat * val =>
                        resource_property k c (snd ix) (p ++ [PKey key; PIdx (fst ix)]) rt (pd_item pd)) (enum l)
                | _ => Ok []
                end
              else
                match pd_type pd, value with
                | Some t, VDict _ =>
                    if String.eqb t "" then Ok [] else resource_property k c value (p ++ [PKey key]) rt (Some t)
                | _, _ => Ok []
                end
          end
      end) (dict_of v).

(** RulesCollection.run_resource, rules/__init__.py:347-376. *)
Definition run_resource (k : collection) (c : cfn) (rt : string) (props : val) (p : path) : res (list finding) :=
  match assoc rt (sp_resource_types sp) with
  | None => Ok []
  | Some ts =>
      concat_res (run_resource_item k c rt (ts_props ts)) (items_safe_t is_dict props p)
  end.

(** Template.get_resources() without a type filter, template.py:63-81: resources that are dicts with a Type. *)
Definition get_resources (t : val) : list (string * val) :=
  match vget_def "Resources" (VDict []) t with
  | Ok (VDict rs) =>
      filter (fun kv => match snd kv with
                        | VDict d => match assoc "Type" d with Some VNull | None => false | Some _ => true end
                        | _ => false
                        end) rs
  | _ => []
  end.

(** The body of the resource loop of run, rules/__init__.py:391-406. *)
Definition run_one_resource (k : collection) (c : cfn) (kv : string * val) : res (list finding) :=
  let '(name, attrs) := kv in
  match assoc "Type" (dict_of attrs), assoc "Properties" (dict_of attrs) with
  | Some (VStr rt), Some (VDict pd) =>
      let props := VDict pd in
      let p := [PKey "Resources"; PKey name; PKey "Properties"] in
      do a <- concat_res (fun r => run_check (k_set k) (c_file c) (r_id r) (matchall_props r c props rt p)) (rules k);
      do b <- run_resource k c rt props p;
      Ok (a ++ b)
  | _, _ => Ok []
  end.

(** The initialize loop, rules/__init__.py:381-382: enabled rules extend their type lists.  (The base class does
    nothing; the rules that override it append to the two lists.) *)
Definition initialize_all (k : collection) (c : cfn) : collection :=
  mkColl (map (fun r => if enabled (k_set k) r then add_types r (fst (r_init r c)) (snd (r_init r c)) else r) (k_all k))
         (k_set k).

(** RulesCollection.run, rules/__init__.py:378-408. *)
Definition coll_run (k : collection) (c : cfn) : collection * res (list finding) :=
  let k' := initialize_all k c in
  (k',
   do a <- concat_res (fun r => run_check (k_set k') (c_file c) (r_id r) (matchall r c)) (rules k');
   do b <- concat_res (run_one_resource k' c) (get_resources (template c));
   Ok (a ++ b)).
End Run.
