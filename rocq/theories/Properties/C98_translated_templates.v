(** C98 Templates that the serverless translator makes are reported on as if they had been written. *)
From Coq Require Import List String ZArith QArith Bool Permutation.
Import ListNotations.
From Verif.Model Require Import Base Node Locate Helpers Rules Runner Config Core Serverless Standard Translated.
From Verif.Spec Require Import Pipeline Paths Shipped Translated.
From Verif.Proofs Require Import TranslatedProofs Samples StandardWitness StandardPropWitness StandardFunctionWitness StandardServiceWitness TranslatedWitness.
Import Verif.Model.Rules.
Local Open Scope string_scope.

(** Giving marks to what the translator made leaves its contents as they are. *)
Theorem translation_contents_kept : forall t start,
  erase (convert start t) = contents t.
Proof. exact c98_contents. Qed.
Print Assumptions translation_contents_kept.

(** A finding at an existing place of what the translator made is placed at the last item or key of its path that stood in the file, and at the start of the file if there is none. *)
Theorem translated_findings_placed : forall c t q r fi,
  c_tmpl c = convert tuple_mark t -> q <> [] -> wf (contents t) -> of_file t -> origin t q None r -> placed c q fi ->
  match r with
  | Some m => f_line fi = (sl m + 1)%Z /\ f_col fi = (sc m + 1)%Z /\ f_line_end fi = (el m + 1)%Z /\ f_col_end fi = (ec m + 1)%Z
  | None => f_line fi = 1%Z /\ f_col fi = 1%Z /\ f_line_end fi = 1%Z /\ f_col_end fi = 1%Z
  end.
Proof. exact c98_placed. Qed.
Print Assumptions translated_findings_placed.

(** The report on a template that is translated is the report on its translation. *)
Theorem translated_report : forall translate exn_text c c' sp k rg man,
  translates translate c c' ->
  wants_transform (template c') = false ->
  run_checks sp (serverless_translator translate exn_text) k rg man c = run_checks sp (serverless_translator translate exn_text) k rg man c'.
Proof. exact translates_run. Qed.
Print Assumptions translated_report.

(** If the translation fails, each cause is reported once, under E0001 at the start of the file, and nothing else is; and nothing at all if E0001 is not selected. *)
Theorem failed_translation_report : forall translate exn_text c texts sp k rg man,
  translation_fails translate exn_text c texts -> (forall r, In r rg -> In r REGIONS) ->
  snd (run_checks sp (serverless_translator translate exn_text) k rg man c) =
  Findings (if is_rule_enabled (k_set k) "E0001" false then map (transform_finding (c_file c)) texts else []).
Proof. exact fails_run. Qed.
Print Assumptions failed_translation_report.

(** A run on a template that is translated is a run of the shipped rules on the translation, so that what C94 to C97 say of each rule holds of it.  Missing: W1020, W2001 and W7001, which look at the template as written too, and templates with Globals. *)
Theorem translated_rules_partial : forall w sp translate exn_text k rg man c c' ds id l,
  translates translate c c' -> with_shipped w (k_all k) -> spec_ok sp -> e0002_selected (k_set k) ->
  selected id false (s_experimental (k_set k)) (s_ignore (k_set k)) (s_include (k_set k)) (s_mandatory (k_set k)) ->
  seen_as_is w c' id -> (exists m d, c_tmpl c' = MDict m d) -> get_directives (c_tmpl c') = Ok ds ->
  snd (run_checks sp (serverless_translator translate exn_text) k rg man c) = Findings l ->
  lints w sp (serverless_translator translate exn_text) k rg man c' ds id l.
Proof. exact translated_lints. Qed.
Print Assumptions translated_rules_partial.

(** False: that a directive in a translated resource covers the findings in it.  If the translator makes a new object of the resource, the directive covers the line of the name only. *)
Theorem translated_suppression_refuted : exists translate exn_text w sp k c c' l fi name place id,
  translates translate c c' /\ with_shipped w (k_all k) /\ snd (run_checks sp (serverless_translator translate exn_text) k ["us-east-1"] [] c) = Findings l /\
  at_path [PKey "Resources"; PKey name; PKey "Metadata"; PKey "cfn-lint"; PKey "config"; PKey "ignore_checks"] (template c') = Some (VList [VStr id]) /\
  In fi l /\ finding_of c' id (PKey "Resources" :: PKey name :: place) (f_msg fi) fi.
Proof. exact c98_ignored. Qed.
Print Assumptions translated_suppression_refuted.

Example made_places_ : exists p q, origin (made []) p None (Some (at_line 5)) /\ origin (made []) q None (Some (at_line 1)) /\
  p = [PKey "Resources"; PKey "F"; PKey "Properties"; PKey "CodeUri"; PKey "Ref"] /\ q = [PKey "Resources"; PKey "FRole"; PKey "Properties"; PKey "Path"; PKey "Ref"] /\
  wf (contents (made [])) /\ of_file (made []).
Proof. exact made_places. Qed.

Example made_run_ : exists l, report_of (makes []) written = Findings l /\ lints dots small_sp (serverless_translator (makes []) (fun _ => "")) (mkColl (shipped dots) informed) ["us-east-1"] [] (made_cfn []) [] "E1012" l /\
  map (fun f => (f_rule f, f_line f)) l = [("E1012", 2%Z); ("E1012", 6%Z)].
Proof. exact made_run. Qed.

Example failing_example_ : translation_fails (fun _ _ _ => Causes "first" ["second"]) (fun _ => "") written ["first"; "second"] /\
  report_of (fun _ _ _ => Causes "first" ["second"]) written = Findings [transform_finding "t.yaml" "first"; transform_finding "t.yaml" "second"].
Proof. exact failing_example. Qed.

Example made_translates_ : forall ids,
  translates (makes ids) written (made_cfn ids).
Proof. exact made_translates. Qed.
