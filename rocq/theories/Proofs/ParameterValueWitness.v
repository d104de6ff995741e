(** Samples and counterexamples for C69. *)
From Coq Require Import Lia ZArith.
From Verif.Model Require Import Base Locate Helpers Node Conditions Search Resolve Rules Refs Relationship Limits Parameters JsonDump PropertyRules Functions ValueRules ParameterValues.
From Verif.Spec Require Import Paths Branches Required References ConditionUse Attributes Pipeline Walk Values ParameterValues.
From Verif.Proofs Require Import BaseFacts BranchProofs SearchProofs WfDecide Samples PropertyWitness PropertyRuleProofs GroupProofs SizeProofs ValueProofs ValueWitness ParameterValueProofs.
Import Verif.Model.Rules.
Import ListNotations.
Local Open Scope string_scope.

Definition behind_specs : pspecs :=
  [("Mode", mkPS false None (Some "String") None [("ValueType", "Mode")] None);
   ("Names", mkPS false (Some "List") None (Some "String") [("ValueType", "Name")] None)].
Definition behind_rs : rspec := mkRS [("AWS::X::Server", behind_specs)] [] [].
Definition behind_description (t : string) : string := "Valid values must match pattern letters".
Definition behind_props : list (string * val) := [("Mode", ref "Mode"); ("Names", VList [VStr "a"; ref "Name"; alt "C" (ref "Mode") (ref "Name")])].
Definition behind_attrs : list (string * val) := [("Type", VStr "AWS::X::Server"); ("Properties", VDict behind_props)].
Definition mode_parameter : list (string * val) := [("Type", VStr "String"); ("AllowedValues", VList [VStr "on"; VStr "idle"]); ("Default", VStr "idle")].
Definition name_parameter : list (string * val) := [("Type", VStr "String"); ("Default", VStr "A1")].
Definition function_props : list (string * val) := [("MemorySize", alt "C" (ref "Size") (VInt 128))].
Definition size_parameter : list (string * val) := [("Type", VStr "Number"); ("MinValue", VInt 128)].
Definition behind_template : val :=
  VDict [("Parameters", VDict [("Mode", VDict mode_parameter); ("Name", VDict name_parameter); ("Size", VDict size_parameter)]);
         ("Resources", VDict [("Server", VDict behind_attrs);
                              ("Fn", VDict [("Type", VStr "AWS::Lambda::Function"); ("Properties", VDict function_props)])]);
         ("Outputs", VDict [("O", VDict [("Value", VDict [("Fn::ImportValue", VStr "other")])])])].
Definition behind_cfn : cfn := mkCfn "t.yaml" "us-east-1" (marked behind_template).
Definition behind_rules : list rule :=
  [parameter_values_rule sample_str behind_rs value_rules; parameter_pattern_rule sample_str sample_match behind_description behind_rs value_rules; memory_rule; import_rule sample_str (VDict [])].
Lemma behind_run : exists raw, snd (coll_run sample_sp (mkColl behind_rules default_settings) behind_cfn) = Ok raw /\
  map (fun f => (f_rule f, f_msg f)) raw =
    [("W6001", "The value of output (O) is imported from another output (other)");
     ("W2030", "You must specify a valid allowed value for Mode (idle). Valid values are [""on"", ""off""]");
     ("W2030", "You must specify a valid Default value for Mode (idle). Valid values are [""on"", ""off""]");
     ("W2031", "You must specify a valid Default value for Name (A1). Valid values must match pattern letters");
     ("W2510", "Lambda Memory Size parameters should use MinValue, MaxValue or AllowedValues at Parameters/Size")].
Proof. eexists. split; [vm_compute; reflexivity | reflexivity]. Qed.
Lemma behind_parameters n o : defined_in "Parameters" behind_template n o -> (n, o) = ("Mode", mode_parameter) \/ (n, o) = ("Name", name_parameter) \/ (n, o) = ("Size", size_parameter).
Proof.
  intros [d [s [[= <-] [[= <-] H]]]]. apply assoc_In in H. destruct H as [H|[H|[H|[]]]]; injection H as <- <-; auto.
Qed.
Lemma behind_plain : plain_sections behind_template /\ allowed_lists behind_template.
Proof.
  split.
  - eexists. split; [reflexivity|]. intros section s [<-|[<-|[]]] [= <-]; eexists; (split; [reflexivity|]); intros n x Hi.
    + destruct Hi as [E|[E|[E|[]]]]; injection E as <- <-; eexists; (split; [reflexivity|]); (split; [discriminate | reflexivity]).
    + destruct Hi as [E|[E|[]]]; injection E as <- <-; eexists; (split; [reflexivity|]); (split; [|reflexivity]); intros _ t [= <-]; eauto.
  - intros n o v H Hv. destruct (behind_parameters n o H) as [E|[E|E]]; injection E as -> ->; cbn in Hv; try discriminate Hv. injection Hv as <-. eauto.
Qed.
Lemma behind_resource : wf behind_template /\ defined_in "Resources" behind_template "Server" behind_attrs /\ resource_of behind_template "Server" "AWS::X::Server" behind_attrs.
Proof. split; [apply wfb_sound; reflexivity|]. split; [do 2 eexists; split; [reflexivity|]; split; reflexivity|]. do 2 eexists. split; [reflexivity|]. split; [reflexivity|]. split; [now left | reflexivity]. Qed.
Lemma behind_hypotheses : ~ In "" (keys value_rules) /\ all_objects (VDict behind_props) at_server /\ no_null_property (VDict behind_props) at_server /\ refs_are_names behind_props at_server.
Proof.
  split; [cbn; intuition discriminate|]. split; [apply plain_objects; intros [x [=]]|]. split; [apply no_null_sub, nulls_sound; reflexivity|].
  intros prop x q r y Hp H. apply property_sub in Hp. apply single_sub in H. pose proof (sub_trans _ _ _ Hp H) as K. clear -K. cbn in K.
  repeat (destruct K as [K|K]; [first [discriminate K | injection K as <-; eauto]|]). destruct K.
Qed.
Lemma behind_unfit : exists ps vr, refers behind_template behind_props behind_specs at_server ps "Mode" /\ restricts value_rules "ValueType" ps vr /\ vr_allowed vr <> [] /\
  takes_one behind_template "Mode" mode_parameter /\
  unfit (fun v => In (py_str sample_str v) (vr_allowed vr)) "Mode" mode_parameter "allowed" [PKey "Parameters"; PKey "Mode"; PKey "AllowedValues"; PIdx 1] (VStr "idle") /\
  unfit (fun v => In (py_str sample_str v) (vr_allowed vr)) "Mode" mode_parameter "Default" [PKey "Parameters"; PKey "Mode"; PKey "Default"] (VStr "idle").
Proof.
  eexists. exists (mkVR ["on"; "off"] "" None None None). split; [|split; [|split; [|split; [|split]]]].
  - exists "Mode", (ref "Mode"), at_server, (at_server ++ [PKey "Mode"])%list. split.
    + exists behind_props. split; [|reflexivity]. apply items_safe_spec. now left.
    + split; [reflexivity|]. split; [apply sg_value; [|reflexivity]; apply alt_leaf; [intros [x [=]] | discriminate]|]. split; [cbn; intuition discriminate|].
      exists "Server", behind_attrs, [PKey "Properties"; PKey "Mode"]. split; [reflexivity|]. split; [apply behind_resource|]. cbn. intuition discriminate.
  - exists "Mode". split; reflexivity.
  - discriminate.
  - split; [do 2 eexists; split; [reflexivity|]; split; reflexivity|]. exists "String". split; [reflexivity|]. split; [intros [r E]; discriminate E|]. split; [intros [r E]; discriminate E | discriminate].
  - apply un_allowed with [VStr "on"; VStr "idle"]; [reflexivity | reflexivity |]. cbn. intuition discriminate.
  - apply un_default; [reflexivity | reflexivity |]. cbn. intuition discriminate.
Qed.
Lemma behind_memory : let p := [PKey "Resources"; PKey "Fn"; PKey "Properties"] in
  (forall q, ~ alternative (alt "C" (ref "Size") (VInt 128)) (p ++ [PKey "MemorySize"])%list VNull q) /\
  (forall y r, single (alt "C" (ref "Size") (VInt 128)) (p ++ [PKey "MemorySize"])%list (VDict [("Ref", y)]) r -> exists n, y = VStr n) /\
  (exists r, single (alt "C" (ref "Size") (VInt 128)) (p ++ [PKey "MemorySize"])%list (ref "Size") r) /\ unbounded behind_template "Size".
Proof.
  cbv zeta. split; [|split; [|split]].
  - intros q H. apply alternative_sub in H. revert H. apply nulls_sound. reflexivity.
  - intros y r H. apply single_sub in H. cbn in H. repeat (destruct H as [H|H]; [first [discriminate H | injection H as <-; eauto]|]). destruct H.
  - eexists. apply sg_value; [|reflexivity]. apply alt_then. apply alt_leaf; [intros [x [=]] | discriminate].
  - exists size_parameter. split; [do 2 eexists; split; [reflexivity|]; split; reflexivity|]. split; [intros [v [E _]]; discriminate E | intros [_ [v [E _]]]; discriminate E].
Qed.
Lemma behind_import : occurs "Fn::ImportValue" behind_template (VDict []) [PKey "Outputs"; PKey "O"; PKey "Value"] (VStr "other") /\
  imported_output ([PKey "Outputs"; PKey "O"; PKey "Value"] ++ [PKey "Fn::ImportValue"])%list (PKey "O").
Proof. split; [now left | now exists []]. Qed.

(** * Deviations *)
Definition with_mode (o : list (string * val)) : val :=
  VDict [("Parameters", VDict [("Mode", VDict o)]); ("Resources", VDict [("Server", VDict [("Type", VStr "AWS::X::Server"); ("Properties", VDict [("Mode", ref "Mode")])])])].
(** A default that is empty is not judged, although it is none of the allowed values. *)
Lemma empty_default_witness : exists o, wf (with_mode o) /\ takes_one (with_mode o) "Mode" o /\ assoc "Default" o = Some (VStr "") /\
  parameter_values_check sample_str (with_mode o) value_rules (VDict [("Mode", ref "Mode")]) behind_specs at_server = Ok [].
Proof.
  exists [("Type", VStr "String"); ("Default", VStr "")]. split; [apply wfb_sound; reflexivity|]. split; [|split; [reflexivity | vm_compute; reflexivity]].
  split; [do 2 eexists; split; [reflexivity|]; split; reflexivity|]. exists "String". split; [reflexivity|]. split; [intros [r E]; discriminate E|]. split; [intros [r E]; discriminate E | discriminate].
Qed.
(** Allowed values that are given as an object are judged by their names, at places that are not there. *)
Lemma named_values_witness : exists o m, wf (with_mode o) /\
  parameter_values_check sample_str (with_mode o) value_rules (VDict [("Mode", ref "Mode")]) behind_specs at_server = Ok [m] /\ at_path (rm_path m) (with_mode o) = None.
Proof.
  exists [("Type", VStr "String"); ("AllowedValues", VDict [("idle", VStr "on")])]. eexists. split; [apply wfb_sound; reflexivity|]. split; [vm_compute; reflexivity | reflexivity].
Qed.
(** A Ref to a list ends the check with an exception. *)
Lemma list_ref_witness : exists props, wf (VDict props) /\ forall o, parameter_values_check sample_str (with_mode o) value_rules (VDict props) behind_specs at_server = Err ETypeErr.
Proof. exists [("Mode", VDict [("Ref", VList [])])]. split; [apply wfb_sound; reflexivity|]. intros o. reflexivity. Qed.
(** A lower bound of 0 counts as none. *)
Lemma zero_bound_witness : exists t o, wf t /\ plain_sections t /\ defined_in "Parameters" t "Size" o /\ assoc "MinValue" o = Some (VInt 0) /\ assoc "MaxValue" o = Some (VInt 1024) /\
  memory_check t (VDict [("MemorySize", ref "Size")]) [PKey "Resources"; PKey "Fn"; PKey "Properties"] = Ok [memory_finding "Size"].
Proof.
  exists (VDict [("Parameters", VDict [("Size", VDict [("Type", VStr "Number"); ("MinValue", VInt 0); ("MaxValue", VInt 1024)])])]), [("Type", VStr "Number"); ("MinValue", VInt 0); ("MaxValue", VInt 1024)].
  split; [apply wfb_sound; reflexivity|]. split; [|split; [do 2 eexists; split; [reflexivity|]; split; reflexivity|]; split; [reflexivity|]; split; [reflexivity | vm_compute; reflexivity]].
  eexists. split; [reflexivity|]. intros section s [<-|[<-|[]]] [= <-]; eexists; (split; [reflexivity|]); intros n x [E|[]]; injection E as <- <-; eexists; (split; [reflexivity|]); (split; [discriminate | reflexivity]).
Qed.
