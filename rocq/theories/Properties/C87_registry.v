(** C87 Resources of registered types fit their schemas. *)
From Coq Require Import List String QArith Bool.
Import ListNotations.
From Verif.Model Require Import Base Helpers Locate Node Search Rules Refs Parameters Functions ValueRules Runner Registry.
From Verif.Spec Require Import Paths Values Registry.
From Verif.Proofs Require Import Samples PropertyWitness RegistryProofs RegistryMain RegistryWitness.
Import Verif.Model.Rules.
Local Open Scope string_scope.
Local Open Scope nat_scope.
Local Open Scope bool_scope.

(** E3000 reports exactly the resources of registered types whose properties do not fit, except those with template syntax or dynamic references. *)
Theorem schemas_applied_partial : forall float_text : Q -> string, plain_float float_text -> forall validate : val -> val -> res (option string),
  forall registry tmpl d,
  tmpl = VDict d -> (forall schema, In schema registry -> exists ty, schema_of schema ty) ->
  (forall schema ty name props, In schema registry -> schema_of schema ty -> typed_resource tmpl name ty props ->
     is_str props = false /\ closed_references props /\ (with_dynamic props \/ with_syntax props \/ exists r, validate props schema = Ok r)) ->
  exists ms, schema_match float_text validate registry tmpl = Ok ms /\
    forall m, In m ms <-> exists schema ty name props msg, In schema registry /\ schema_of schema ty /\ typed_resource tmpl name ty props /\ ~ with_syntax props /\ ~ with_dynamic props /\
      validate props schema = Ok (Some msg) /\ m = mkRM [PKey "Resources"; PKey name; PKey "Properties"] msg.
Proof. exact c87. Qed.
Print Assumptions schemas_applied_partial.

(** In a run, each of them leads to a finding of E3000. *)
Theorem schema_findings_partial : forall float_text validate registry sp k c raw m0 d0 schema ty name props msg,
  plain_float float_text ->
  snd (coll_run sp k c) = Ok raw -> In (schema_rule float_text validate registry) (k_all k) -> enabled (k_set k) (schema_rule float_text validate registry) = true -> c_tmpl c = MDict m0 d0 ->
  (forall schema, In schema registry -> exists ty, schema_of schema ty) ->
  (forall schema ty name props, In schema registry -> schema_of schema ty -> typed_resource (template c) name ty props ->
     is_str props = false /\ closed_references props /\ (with_dynamic props \/ with_syntax props \/ exists r, validate props schema = Ok r)) ->
  In schema registry -> schema_of schema ty -> typed_resource (template c) name ty props -> ~ with_syntax props -> ~ with_dynamic props -> validate props schema = Ok (Some msg) ->
  exists f, locate_match c "E3000" (mkRM [PKey "Resources"; PKey name; PKey "Properties"] msg) = Ok f /\ In f raw.
Proof. exact c87_run. Qed.
Print Assumptions schema_findings_partial.

(** Each template adds the schemas to the registry again; the report of a template does not depend on how many came before. *)
Theorem schemas_read_again : forall float_text validate expanduser folder load_file folders schemas n registry sp before after set mandatory c,
  registry_at expanduser folder load_file folders 0 = Ok schemas -> registry_at expanduser folder load_file folders n = Ok registry ->
  snd (runner_run sp (mkColl (before ++ schema_rule float_text validate registry :: after)%list set) mandatory c) =
  snd (runner_run sp (mkColl (before ++ schema_rule float_text validate schemas :: after)%list set) mandatory c).
Proof. exact c87_history. Qed.
Print Assumptions schemas_read_again.

(** Template syntax is found where some text or name in the properties contains one of the words. *)
Theorem syntax_found : forall float_text : Q -> string, plain_float float_text ->
  forall v,
  existsb (fun x => contains_text x (py_repr float_text v)) (PSEUDOPARAMS ++ UNCONVERTED_SUFFIXES)%list || contains_text FN_PREFIX (py_repr float_text v) = true <-> with_syntax v.
Proof. exact syntax_iff. Qed.
Print Assumptions syntax_found.

(** A name that contains one of the words hides a resource without template syntax. *)
Theorem name_hides_refuted : disk_match [("ReferenceId", VStr "x")] = Ok [] /\ needs_size (VDict [("ReferenceId", VStr "x")]) size_schema = Ok (Some "'Size' is a required property").
Proof. exact name_hides_witness. Qed.
Print Assumptions name_hides_refuted.

(** So does a dynamic reference that is opened and not closed, in an inner object. *)
Theorem open_reference_refuted : disk_match [("Tags", VDict [("Note", VStr "{{resolve:x")])] = Ok [] /\ disk_match [("Note", VStr "{{resolve:x")] = Ok ["'Size' is a required property"].
Proof. exact open_reference_witness. Qed.
Print Assumptions open_reference_refuted.

(** A schema without the name of its type ends the check with an exception. *)
Theorem nameless_schema_refuted : schema_match float_half needs_size [VDict []; size_schema] two_disks = Err EKey.
Proof. exact nameless_schema_witness. Qed.
Print Assumptions nameless_schema_refuted.

(** A folder of schemas written with a tilde ends linting with an exception. *)
Theorem home_folder_refuted : registry_at home one_folder disk_file ["~/schemas"] 0 = Err (EOther "OSError") /\ registry_at home one_folder disk_file [home "~/schemas"] 0 = Ok [size_schema].
Proof. exact home_folder_witness. Qed.
Print Assumptions home_folder_refuted.

Example registry_example_ : let t := two_disks in let c := mkCfn "t.yaml" "us-east-1" (marked t) in
  plain_float float_half /\ template c = t /\ (exists m d, c_tmpl c = MDict m d) /\ (forall schema, In schema [size_schema] -> exists ty, schema_of schema ty) /\
  (forall schema ty name props, In schema [size_schema] -> schema_of schema ty -> typed_resource (template c) name ty props ->
     is_str props = false /\ closed_references props /\ (with_dynamic props \/ with_syntax props \/ exists r, needs_size props schema = Ok r)) /\
  schema_of size_schema "My::Own::Disk" /\ typed_resource (template c) "Small" "My::Own::Disk" (VDict [("Name", VStr "x")]) /\ ~ with_syntax (VDict [("Name", VStr "x")]) /\ ~ with_dynamic (VDict [("Name", VStr "x")]) /\
  needs_size (VDict [("Name", VStr "x")]) size_schema = Ok (Some "'Size' is a required property") /\
  disk_run [size_schema] t = Ok ["'Size' is a required property"].
Proof. exact registry_example. Qed.

Example registry_history_example_ : registry_at home one_folder disk_file ["/home/me/schemas"] 0 = Ok [size_schema] /\
  registry_at home one_folder disk_file ["/home/me/schemas"] 2 = Ok [size_schema; size_schema; size_schema] /\
  disk_run [size_schema; size_schema; size_schema] two_disks = Ok ["'Size' is a required property"] /\
  rmap (@List.length rulematch) (schema_match float_half needs_size [size_schema; size_schema; size_schema] two_disks) = Ok 3.
Proof. exact registry_history_example. Qed.
