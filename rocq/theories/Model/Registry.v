(** Models of rules/resources/ResourceSchema.py (E3000), of the part of core.run_cli that reads registry schemas (core.py:53-58), and of
    what str() gives for values of a template.  jsonschema.validate and reading files are arguments. *)
From Coq Require Import QArith.
From Verif.Model Require Import Base Helpers Locate Node Search Rules Refs Parameters Functions ValueRules.
Import Verif.Model.Rules.
Local Open Scope string_scope.
Local Open Scope nat_scope.

(** * str() of values *)
(** How Python writes one character of a text between quotes [quote]; characters are code points below 256, of which those below 32, from
    127 to 160, and 173 are not printable. *)
Definition hex_digit (n : nat) : ascii := ascii_of_nat (if Nat.ltb n 10 then 48 + n else 87 + n).
Definition printable (a : ascii) : bool := let n := nat_of_ascii a in Nat.leb 32 n && (Nat.leb n 126 || Nat.leb 161 n) && negb (Nat.eqb n 173).
Definition char_repr (quote a : ascii) : string :=
  let n := nat_of_ascii a in
  if Ascii.eqb a quote || Ascii.eqb a "\" then String "\" (String a "")
  else if Nat.eqb n 10 then "\n" else if Nat.eqb n 13 then "\r" else if Nat.eqb n 9 then "\t"
  else if printable a then String a ""
  else String "\" (String "x" (String (hex_digit (Nat.div n 16)) (String (hex_digit (Nat.modulo n 16)) ""))).
Fixpoint chars_repr (quote : ascii) (s : string) : string :=
  match s with EmptyString => "" | String a s' => char_repr quote a ++ chars_repr quote s' end.
Definition single_quote : ascii := "'".
Definition double_quote : ascii := """".
(** Double quotes are used for a text with single quotes and no double quotes. *)
Definition quote_of (s : string) : ascii := if has_char single_quote s && negb (has_char double_quote s) then double_quote else single_quote.
Definition text_repr (s : string) : string := let q := quote_of s in String q (chars_repr q s ++ String q "").
(** repr() of a value; [float_text] is that of a number with a fraction. *)
Section Show.
Variable float_text : Q -> string.
Fixpoint py_repr (v : val) : string :=
  match v with
  | VNull => "None"
  | VBool true => "True"
  | VBool false => "False"
  | VInt z => str_of_Z z
  | VFloat q => float_text q
  | VStr s => text_repr s
  | VList l => "[" ++ join_str ", " (map py_repr l) ++ "]"
  | VDict d => "{" ++ join_str ", " (map (fun kv => text_repr (fst kv) ++ ": " ++ py_repr (snd kv)) d) ++ "}"
  end.
(** str() of a value: a text is itself. *)
Definition py_show (v : val) : string := match v with VStr s => s | _ => py_repr v end.

(** * E3000 *)
(** PSEUDOPARAMS + UNCONVERTED_SUFFIXES, and FN_PREFIX; helpers.py:65-66, 98-107. *)
Definition UNCONVERTED_SUFFIXES : list string := ["Ref"; "Condition"].
Definition FN_PREFIX : string := "Fn::".
(** The test of ResourceSchema.py:25, negated: the resource is left alone. *)
Definition skipped_text (s : string) : bool :=
  dyn_ref s || existsb (fun x => contains_text x s) (PSEUDOPARAMS ++ UNCONVERTED_SUFFIXES)%list || contains_text FN_PREFIX s.
(** [schema['typeName']], ResourceSchema.py:21. *)
Definition type_name (schema : val) : res val :=
  match schema with
  | VDict d => match assoc "typeName" d with Some t => Ok t | None => Err EKey end
  | _ => Err ETypeErr
  end.
(** [cfn.get_resources([t])], template.py:63-81. *)
Definition resources_with (t template : val) : res (list (string * val)) :=
  do rs <- vget_def "Resources" (VDict []) template;
  match rs with
  | VDict d => Ok (filter (fun nr => match snd nr with VDict a => py_in (match assoc "Type" a with Some x => x | None => VNull end) [t] | _ => false end) d)
  | _ => Ok []
  end.
(** [validate v schema]: the message of the ValidationError, nothing if there is none, or another exception. *)
Variable validate : val -> val -> res (option string).
(** The body of the inner loop, ResourceSchema.py:23-29. *)
Definition schema_resource (schema : val) (nr : string * val) : res (list rulematch) :=
  do props <- vget_def "Properties" (VDict []) (snd nr);
  if skipped_text (py_show props) then Ok []
  else do r <- validate props schema;
       Ok (match r with Some msg => [mkRM [PKey "Resources"; PKey (fst nr); PKey "Properties"] msg] | None => [] end).
(** ResourceSchema.match, ResourceSchema.py:18-30. *)
Definition schema_match (registry : list val) (template : val) : res (list rulematch) :=
  concat_res (fun schema => do t <- type_name schema; do rs <- resources_with t template; concat_res (schema_resource schema) rs) registry.
Definition schema_rule (registry : list val) : rule :=
  mkRule "E3000" false [] [] [] [] (fun _ => ([], [])) (Some (fun _ c => schema_match registry (template c))) None None.
End Show.

(** * Reading the schemas *)
(** The loop of run_cli that reads schemas, core.py:53-58; [folder p] is the list of the files in the directory [p], [load_file] opens a file and
    reads JSON, and may raise.  [os.path.isdir] is asked for the expanded path, [os.listdir] for the path as it is given.  REGISTRY_SCHEMAS
    (helpers.py:322) is a variable of the module that is never emptied. *)
Section Reading.
Variables (expanduser : string -> string) (folder : string -> option (list string)) (load_file : string -> string -> res val).
Definition read_folder (p : string) : res (list val) :=
  if String.eqb p "" then Ok []
  else match folder (expanduser p) with
       | None => Ok []
       | Some _ => match folder p with Some fs => map_res (load_file p) fs | None => Err (EOther "OSError") end
       end.
Definition add_schemas (folders : list string) (registry : list val) : res (list val) :=
  do new <- concat_res read_folder folders; Ok (registry ++ new)%list.
(** The registry when a template is linted after [n] others by the same process: main (__main__.py:29-36) calls run_cli for each. *)
Fixpoint registry_at (folders : list string) (n : nat) : res (list val) :=
  match n with O => add_schemas folders [] | S n => do r <- registry_at folders n; add_schemas folders r end.
End Reading.
