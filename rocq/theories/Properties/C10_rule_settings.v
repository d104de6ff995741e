(** C10 Rule configuration on the command line. *)
From Verif.Model Require Import Base Config.
From Verif.Spec Require Import Options.
From Verif.Proofs Require Import OptionProofs.

(** For arguments written as RuleId:name=value[,RuleId:name=value...] from names and values without separators: all are
    accepted, every setting reads back as the last value given for it (or what was recorded before), and rules not
    mentioned keep their settings.  Missing: values that contain a separator, see the refutation. *)
Theorem settings_recorded_partial : forall arguments items,
  Forall (fun l => l <> [] /\ Forall plain_setting l) arguments ->
  exists out, rule_configuration_action (map render_settings arguments) items = Some out /\
    (forall rule name, recorded out rule name =
       match last_value rule name (List.concat arguments) with Some v => Some v | None => recorded items rule name end) /\
    (forall rule, (forall name v, ~ In (rule, name, v) (List.concat arguments)) -> assoc rule out = assoc rule items).
Proof. exact c10_recorded. Qed.

(** A value containing '=' is cut short without an error. *)
Theorem settings_recorded_refuted : exists rule name v out,
  rule_configuration_action [render_settings [(rule, name, v)]] [] = Some out /\ recorded out rule name <> Some v.
Proof. exact c10_refuted. Qed.

Example settings_example :
  let arguments := [[("E1", "x", "1"); ("E2", "y", "2")]; [("E1", "x", "3")]] in
  Forall (fun l => l <> [] /\ Forall plain_setting l) arguments /\
  map render_settings arguments = ["E1:x=1,E2:y=2"; "E1:x=3"] /\
  rule_configuration_action (map render_settings arguments) [] = Some [("E1", [("x", "3")]); ("E2", [("y", "2")])].
Proof.
  split; [|split; reflexivity].
  repeat constructor; discriminate.
Qed.

Print Assumptions settings_recorded_partial.
Print Assumptions settings_recorded_refuted.
