(** The templates that show the two leaks of C07. *)
From Verif.Model Require Import Base Node Locate Helpers Rules Runner Config Core.
From Verif.Spec Require Import History.
From Verif.Proofs Require Import Samples.

(** A rule with a boolean option [strict], on by default, that reports only when strict. *)
Definition strict_rule : rule :=
  mkRule "E9010" false [("strict", (CBoolean, VBool true))] [("strict", VBool true)] [] [] (fun _ => ([], []))
    (Some (fun cfg _ => Ok (match assoc "strict" cfg with
                            | Some (VBool true) => [mkRM [PKey "Resources"] "too lax"]
                            | _ => []
                            end))) None None.
Definition mk0 : mark := mkMark 0 0 0 0.
Definition key (s : string) : string * option mark := (s, Some mk0).
Definition with_config (name : string) (v : mval) : mval :=
  MDict mk0 [(key "Metadata", MDict mk0 [(key "cfn-lint", MDict mk0 [(key "config", MDict mk0 [(key name, v)])])]);
             (key "Resources", MDict mk0 [])].
Definition plain_t : mval := MDict mk0 [(key "Resources", MDict mk0 [])].

Lemma c07_config_leaks :
  exists all_rules a b l,
    Forall fresh_rule all_rules /\
    snd (lint_one (fun _ => "") no_spec no_translator all_rules [] [] initial_state "b.yaml" b) = Ok (Findings l) /\ l <> [] /\
    snd (lint_all (fun _ => "") no_spec no_translator all_rules [] [] initial_state [("a.yaml", a); ("b.yaml", b)] []) =
      Ok (Findings []) /\
    snd (lint_one (fun _ => "") no_spec no_translator all_rules [] [] initial_state "a.yaml" a) = Ok (Findings []).
Proof.
  exists [strict_rule],
    (DecOk (with_config "configure_rules" (MDict mk0 [(key "E9010", MDict mk0 [(key "strict", MScalar (VBool false))])]))),
    (DecOk plain_t). eexists.
  split; [repeat constructor; cbn; tauto|].
  split; [vm_compute; reflexivity|]. split; [discriminate|]. split; vm_compute; reflexivity.
Qed.
Lemma c07_ignore_leaks :
  exists a e,
    snd (lint_one (fun _ => "") no_spec no_translator [] [] [] initial_state "b.yaml" (DecErr [e])) = Ok (Findings [e]) /\
    snd (lint_all (fun _ => "") no_spec no_translator [] [] [] initial_state [("a.yaml", a); ("b.yaml", DecErr [e])] []) =
      Ok (Findings []) /\
    snd (lint_one (fun _ => "") no_spec no_translator [] [] [] initial_state "a.yaml" a) = Ok (Findings []).
Proof.
  exists (DecOk (with_config "ignore_bad_template" (MScalar (VBool true)))), (mkFinding 1 1 1 1 "b.yaml" "E0000" "bad").
  split; [vm_compute; reflexivity|]. split; vm_compute; reflexivity.
Qed.
