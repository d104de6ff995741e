(** Which of the rules the linter ships with can end in an exception (C100). *)
From Coq Require Import ZArith.
From Verif.Model Require Import Base Locate Helpers Rules Runner Config Core Standard.
From Verif.Spec Require Import Pipeline Paths Faults Shipped.
Local Open Scope string_scope.

(** The report says that the rule [id] ended in an exception. *)
Definition crashed_by (l : list finding) (id why : string) : Prop :=
  exists fi, In fi l /\ f_rule fi = "E0002" /\ f_msg fi = "Unknown exception while processing rule " ++ id ++ ": " ++ why.
Definition crashed (l : list finding) (id : string) : Prop := exists why, crashed_by l id why.
(** Exceptions of Python. *)
Definition python_errors : list string := ["AttributeError"; "TypeError"; "ValueError"; "KeyError"; "IndexError"; "UnboundLocalError"].

(** The rules that never do. *)
Definition firm_ids : list string :=
  ["E1001"; "E1002"; "E1004"; "E1015"; "E1016"; "E1018"; "E1020"; "E1021"; "E1023"; "E1026"; "E2014"; "E3000"; "E3001"; "E3010"; "E3035"; "E3036"; "E3038";
   "E8004"; "E8005"; "E8006"; "I1002"; "I3010"; "I3011"; "W1019"; "W3011"; "W6001"].
(** Two of them rely on data: the specification of the first region of the run is there; the schemas given by the user name their type, and
    the validator of schemas says whether a value fits. *)
Definition sound_data (w : world) (id : string) : Prop :=
  (id = "E3001" -> known_regions (w_specs w) (w_regions w)) /\
  (id = "E3000" -> (forall schema, In schema (w_registry w) -> exists d t, schema = VDict d /\ assoc "typeName" d = Some t) /\
     forall v schema, exists r, w_validate w v schema = Ok r).

(** A run of the linter with the shipped rules, and no others, on a template that no transform replaces. *)
Definition plain_run (w : world) (sp : spec) (tr : translator) (k : collection) (regions mandatory : list string) (c : cfn) (l : list finding) : Prop :=
  with_shipped w (k_all k) /\ only_shipped w (k_all k) /\ spec_ok sp /\ e0002_selected (k_set k) /\
  wants_transform (template c) = false /\ w_before w c = template c /\ w_globals w c = VDict [] /\
  (exists m d, c_tmpl c = MDict m d) /\ wf (template c) /\ snd (run_checks sp tr k regions mandatory c) = Findings l.

(** No object has a member that is null: the decoder rejects templates that have one. *)
Fixpoint no_null (v : val) : bool :=
  match v with
  | VList l => forallb no_null l
  | VDict d => forallb (fun kv => negb (is_null (snd kv)) && no_null (snd kv)) d
  | _ => true
  end.
