(** C111 Which templates stop the program. *)
From Coq Require Import List String ZArith.
Import ListNotations.
From Verif.Model Require Import Base Node Locate Helpers Rules Runner Config Core.
From Verif.Spec Require Import Pipeline Stops.
From Verif.Proofs Require Import Samples PropertyWitness StopProofs StopWitness.
Import Verif.Model.Rules.
Local Open Scope string_scope.

(** With sound options the program goes through all files, whatever rules, specifications and translators are used and whatever else the templates contain: if the settings in the metadata of the templates are sound, every file is linted and the report consists of the findings on each.  Missing for the full property (that no template stops the program): templates with unsound settings, see below. *)
Theorem calm_templates_never_stop_partial : forall str sp tr all cli fl, sound_options all cli -> sound_options all fl -> only_lists cli -> only_lists fl -> forall files,
  Forall (fun nd => forall t, snd nd = DecOk t -> calm all (erase t)) files ->
  exists parts, snd (lint_all str sp tr all cli fl initial_state files []) = Ok (Findings (List.concat parts)) /\
    Forall2 (fun nd part => exists st st', lint_one str sp tr all cli fl st (fst nd) (snd nd) = (st', Ok (Findings part))) files parts.
Proof. exact never_stops. Qed.
Print Assumptions calm_templates_never_stop_partial.

(** A template whose metadata, or whose cfn-lint metadata, is no object ends the program with an exception.  The findings on all files are lost, on those before it and on those after it. *)
Theorem metadata_stops_refuted : forall str sp tr all cli fl, sound_options all cli -> sound_options all fl -> only_lists cli -> only_lists fl -> forall files name t rest,
  Forall (fun nd => forall t, snd nd = DecOk t -> calm all (erase t)) files -> ~ metadata_shaped (erase t) ->
  exists e, (e = EAttribute \/ e = ETemplateAttribute) /\ snd (lint_all str sp tr all cli fl initial_state (files ++ (name, DecOk t) :: rest)%list []) = Err e.
Proof. exact metadata_stops. Qed.
Print Assumptions metadata_stops_refuted.

(** So does one whose ignore_checks starts with something that is no text, such as the number 1012. *)
Theorem ignored_number_stops_refuted : forall str sp tr all cli fl, sound_options all cli -> sound_options all fl -> only_lists cli -> only_lists fl -> forall files name t cs v l rest,
  Forall (fun nd => forall t, snd nd = DecOk t -> calm all (erase t)) files ->
  configuration (erase t) cs -> In ("ignore_checks", VList (v :: l)) cs -> NoDup (keys cs) -> (forall s, v <> VStr s) -> lookup cli "ignore_checks" = VNull \/ lookup cli "ignore_checks" = VList [] ->
  snd (lint_all str sp tr all cli fl initial_state (files ++ (name, DecOk t) :: rest)%list []) = Err ETypeErr.
Proof. exact entry_stops. Qed.
Print Assumptions ignored_number_stops_refuted.

(** A template that names an unknown region ends the program with status 32, without any finding on the other files. *)
Theorem unknown_region_stops_refuted : forall str sp tr all cli fl, sound_options all cli -> sound_options all fl -> only_lists cli -> only_lists fl -> forall files name t cs ss r rest,
  Forall (fun nd => forall t, snd nd = DecOk t -> calm all (erase t)) files -> metadata_shaped (erase t) -> truthy (erase t) = true ->
  configuration (erase t) cs -> lists_of_texts cs -> integers_given all cs -> In ("regions", VList (map VStr ss)) cs -> NoDup (keys cs) -> In r ss -> ~ In r REGIONS -> ~ In "ALL_REGIONS" ss ->
  lookup cli "regions" = VNull \/ lookup cli "regions" = VList [] ->
  snd (lint_all str sp tr all cli fl initial_state (files ++ (name, DecOk t) :: rest)%list []) = Ok (Exit 32).
Proof. exact region_stops. Qed.
Print Assumptions unknown_region_stops_refuted.

(** Options of a command line and of a configuration file, and a rule with an integer setting. *)
Example stop_options : sound_options [counting_rule] given_options /\ sound_options [counting_rule] file_options /\ only_lists given_options /\ only_lists file_options.
Proof. exact stop_options. Qed.

(** Templates that do not stop the program, one of them with settings of all kinds. *)
Example stop_calm : calm [counting_rule] (erase (marked (with_config calm_config))) /\ calm [counting_rule] (erase (marked (with_config []))).
Proof. exact stop_calm. Qed.

(** Templates of the other three kinds. *)
Example stop_bad : ~ metadata_shaped (erase (marked noted)) /\
  (configuration (erase (marked (with_config bad_entry))) bad_entry /\ In ("ignore_checks", VList [VInt 1012]) bad_entry /\ NoDup (keys bad_entry)) /\
  (metadata_shaped (erase (marked (with_config bad_region))) /\ truthy (erase (marked (with_config bad_region))) = true /\ configuration (erase (marked (with_config bad_region))) bad_region /\
   lists_of_texts bad_region /\ integers_given [counting_rule] bad_region /\ In ("regions", VList (map VStr ["eu-west-9"])) bad_region /\ NoDup (keys bad_region) /\
   ~ In "eu-west-9" REGIONS /\ ~ In "ALL_REGIONS" ["eu-west-9"]) /\
  lookup given_options "ignore_checks" = VList [] /\ lookup given_options "regions" = VNull.
Proof. exact stop_bad. Qed.
