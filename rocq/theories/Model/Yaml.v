(** Model of src/cfnlint/decode/cfn_yaml.py on the nodes PyYAML's composer makes.  Nodes whose explicit tag does not fit their kind, the
    standard tags for sets, ordered maps and pairs, merge keys (<<) and aliases are not modelled: a node is a tree, and its kind says what
    its tag resolves to. *)
From Verif.Model Require Import Base.
Local Open Scope string_scope.

Record ymark := mkY { y_line : Z; y_col : Z }.
(** str, null, another scalar tag (int, bool, float, timestamp, ...), seq and map; then nodes with a tag that begins with an exclamation
    mark, [suffix] being the rest of the tag; then nodes with a tag that has no constructor. *)
Inductive ynode :=
| NStr (m : ymark) (s : string)
| NNull (m : ymark) (s : string)
| NScalar (m : ymark) (tag s : string)
| NSeq (m : ymark) (l : list ynode)
| NMap (m : ymark) (ms : list (ynode * ynode))
| NTagS (m : ymark) (suffix s : string)
| NTagL (m : ymark) (suffix : string) (l : list ynode)
| NTagM (m : ymark) (suffix : string) (ms : list (ynode * ynode))
| NUnknown (m : ymark).
(** Results: texts, other scalars, lists, dictionaries in insertion order; [YNodes] is a list of composer nodes that slipped through. *)
Inductive yv := YText (s : string) | YScalar (v : val) | YList (l : list yv) | YDict (ms : list (yv * yv)) | YNodes.
(** CfnParseError for a repeated key and for a null, ConstructorError (a YAMLError), and other exceptions. *)
Inductive yerr := YDuplicate (key : string) (m : ymark) | YNull (m : ymark) | YYaml | YExn (e : exn).
Inductive yres (A : Type) := YOk (a : A) | YErr (e : yerr).
Arguments YOk {A} a. Arguments YErr {A} e.
Definition ybind {A B} (x : yres A) (f : A -> yres B) : yres B := match x with YOk a => f a | YErr e => YErr e end.

(** Dictionary keys: lists and dictionaries have no hash; texts and scalars compare as in Python. *)
Definition hashable (k : yv) : bool := match k with YText _ | YScalar _ => true | _ => false end.
Definition key_eq (a b : yv) : bool :=
  match a, b with YText s, YText t => String.eqb s t | YScalar x, YScalar y => py_eq x y | _, _ => false end.
Fixpoint ydict_set (k v : yv) (d : list (yv * yv)) : list (yv * yv) :=
  match d with [] => [(k, v)] | (k', v') :: r => if key_eq k k' then (k', v) :: r else (k', v') :: ydict_set k v r end.
Definition mark_of (n : ynode) : ymark :=
  match n with NStr m _ | NNull m _ | NScalar m _ _ | NSeq m _ | NMap m _ | NTagS m _ _ | NTagL m _ _ | NTagM m _ _ | NUnknown m => m end.

(** The function name of a tag, multi_constructor, cfn_yaml.py:149-150. *)
Definition function_name (suffix : string) : string := if smem suffix ["Ref"; "Condition"] then suffix else "Fn::" ++ suffix.
(** [value.split('.', 1)]. *)
Fixpoint split_once (s : string) : list string :=
  match s with
  | EmptyString => [""]
  | String c r => if char_eqb c "." then [""; r] else match split_once r with x :: l => String c x :: l | [] => [] end
  end.
(** [s.value] of a node. *)
Definition raw_value (n : ynode) : yv :=
  match n with NStr _ s | NNull _ s | NScalar _ _ s | NTagS _ _ s => YText s | _ => YNodes end.

Section Construct.
(** The constructors of the other scalar tags: a value or an exception. *)
Variable scalar : string -> string -> val + exn.

(** construct_object with NodeConstructor, cfn_yaml.py:67-104 (construct_yaml_map, construct_yaml_str, construct_yaml_seq,
    construct_yaml_null_error), SafeConstructor's scalars, and multi_constructor and construct_getatt, cfn_yaml.py:144-182.  The loop of
    construct_yaml_map constructs key and value, then looks whether the key is there: that needs a hash, and the error for a repeated key
    needs its length.  BaseConstructor.construct_mapping, used for tagged mappings, checks the hash of a key before the value is
    constructed, and overwrites. *)
Fixpoint construct (n : ynode) : yres yv :=
  match n with
  | NStr _ s => YOk (YText s)
  | NNull m _ => YErr (YNull m)
  | NScalar _ t s => match scalar t s with inl v => YOk (YScalar v) | inr e => YErr (YExn e) end
  | NSeq _ l =>
      ybind ((fix go (l : list ynode) : yres (list yv) :=
                match l with [] => YOk [] | x :: r => ybind (construct x) (fun v => ybind (go r) (fun vs => YOk (v :: vs))) end) l)
            (fun vs => YOk (YList vs))
  | NMap _ ms =>
      ybind ((fix go (ms : list (ynode * ynode)) (seen : list yv) : yres (list (yv * yv)) :=
                match ms with
                | [] => YOk []
                | (kn, vn) :: r =>
                    ybind (construct kn) (fun k => ybind (construct vn) (fun v =>
                      if hashable k then
                        if existsb (key_eq k) seen then
                          match k with YText s => YErr (YDuplicate s (mark_of kn)) | _ => YErr (YExn ETypeErr) end
                        else ybind (go r (k :: seen)) (fun d => YOk ((k, v) :: d))
                      else YErr (YExn ETypeErr)))
                end) ms [])
            (fun d => YOk (YDict d))
  | NTagS _ suffix s =>
      YOk (YDict [(YText (function_name suffix), if String.eqb (function_name suffix) "Fn::GetAtt" then YList (map YText (split_once s)) else YText s)])
  | NTagL _ suffix l =>
      if String.eqb (function_name suffix) "Fn::GetAtt" then YOk (YDict [(YText "Fn::GetAtt", YList (map raw_value l))])
      else
        ybind ((fix go (l : list ynode) : yres (list yv) :=
                  match l with [] => YOk [] | x :: r => ybind (construct x) (fun v => ybind (go r) (fun vs => YOk (v :: vs))) end) l)
              (fun vs => YOk (YDict [(YText (function_name suffix), YList vs)]))
  | NTagM _ suffix ms =>
      if String.eqb (function_name suffix) "Fn::GetAtt" then
        match ms with [] => YOk (YDict [(YText "Fn::GetAtt", YList [])]) | _ => YErr (YExn EAttribute) end
      else
        ybind ((fix go (ms : list (ynode * ynode)) (d : list (yv * yv)) : yres (list (yv * yv)) :=
                  match ms with
                  | [] => YOk d
                  | (kn, vn) :: r =>
                      ybind (construct kn) (fun k => if hashable k then ybind (construct vn) (fun v => go r (ydict_set k v d)) else YErr YYaml)
                  end) ms [])
              (fun d => YOk (YDict [(YText (function_name suffix), YDict d)]))
  | NUnknown _ => YErr YYaml
  end.
(** loads, cfn_yaml.py:185-197: no document gives an empty dictionary. *)
Definition load_node (n : option ynode) : yres yv := match n with None => YOk (YDict []) | Some x => construct x end.
End Construct.
