(** C98: samples. *)
From Coq Require Import List String Permutation QArith ZArith.
From Verif.Model Require Import Base Locate Helpers Node Rules Runner Config Core Serverless Standard Translated.
From Verif.Spec Require Import Pipeline Paths Shipped Translated.
From Verif.Proofs Require Import BaseFacts SearchProofs WfDecide PropertyRuleProofs GroupWitness RegistryWitness PipelineProofs ReportProofs StandardProofs StandardMain StandardWitness StandardPropWitness StandardFunctionWitness StandardServiceWitness Samples TranslatedProofs.
Import Verif.Model.Rules.
Import ListNotations.
Local Open Scope string_scope.

(** A template with a function, and what the translator makes of it: the function keeps its properties, and there is a new role. *)
Definition at_line (n : Z) : mark := mkMark n 2 n 8.
Definition written_template : mval := MDict (at_line 0)
  [(("Transform", Some (at_line 0)), MStr (at_line 0) "AWS::Serverless-2016-10-31");
   (("Resources", Some (at_line 1)), MDict (at_line 2)
      [(("F", Some (at_line 2)), MDict (at_line 3)
          [(("Type", Some (at_line 3)), MStr (at_line 3) "AWS::Serverless::Function");
           (("Properties", Some (at_line 4)), MDict (at_line 5) [(("CodeUri", Some (at_line 5)), MStr (at_line 5) "./code")])])])].
Definition ignoring (ids : list string) : list ((string * option mark) * pval) :=
  match ids with
  | [] => []
  | _ => [(("Metadata", None), PDict None [(("cfn-lint", None), PDict None [(("config", None), PDict None [(("ignore_checks", None), PList None (map (PStr None) ids))])])])]
  end.
Definition ref_to (n : string) : pval := PDict None [(("Ref", None), PStr None n)].
Definition made (ids : list string) : pval := PDict None
  [(("Resources", Some (at_line 1)), PDict None
      [(("F", Some (at_line 2)), PDict None ([(("Type", None), PStr None "AWS::Lambda::Function");
           (("Properties", None), PDict None [(("CodeUri", Some (at_line 5)), ref_to "Nowhere")])] ++ ignoring ids));
       (("FRole", None), PDict None [(("Type", None), PStr None "AWS::IAM::Role"); (("Properties", None), PDict None [(("Path", None), ref_to "Nothing")])])])].
Definition makes (ids : list string) (_ : mval) (t : val) (_ : list val) : sam := Done (made ids).
Definition written : cfn := mkCfn "t.yaml" "us-east-1" written_template.
Definition made_cfn (ids : list string) : cfn := mkCfn "t.yaml" "us-east-1" (convert tuple_mark (made ids)).
Definition report_of (translate : mval -> val -> list val -> sam) (c : cfn) : outcome :=
  snd (run_checks small_sp (serverless_translator translate (fun _ => "")) (mkColl (shipped dots) informed) ["us-east-1"] [] c).
Lemma made_translates ids : translates (makes ids) written (made_cfn ids).
Proof. split; [reflexivity|]. eexists. eexists. exists (made ids). split; [reflexivity|]. split; [reflexivity|]. auto. Qed.
(** What the translator made of [F] is placed where [F] was written, and what it added is placed at the key it was added below. *)
Lemma made_places : exists p q, origin (made []) p None (Some (at_line 5)) /\ origin (made []) q None (Some (at_line 1)) /\
  p = [PKey "Resources"; PKey "F"; PKey "Properties"; PKey "CodeUri"; PKey "Ref"] /\ q = [PKey "Resources"; PKey "FRole"; PKey "Properties"; PKey "Path"; PKey "Ref"] /\
  wf (contents (made [])) /\ of_file (made []).
Proof.
  eexists. eexists. split; [|split; [|split; [reflexivity|split; [reflexivity|split; [apply wfb_sound; reflexivity | apply of_fileb_sound; reflexivity]]]]];
    repeat (eapply o_key; [cbn; eauto 8|]); apply o_here.
Qed.
Lemma made_run : exists l, report_of (makes []) written = Findings l /\ lints dots small_sp (serverless_translator (makes []) (fun _ => "")) (mkColl (shipped dots) informed) ["us-east-1"] [] (made_cfn []) [] "E1012" l /\
  map (fun f => (f_rule f, f_line f)) l = [("E1012", 2%Z); ("E1012", 6%Z)].
Proof.
  eexists. split; [vm_compute; reflexivity|]. split; [|reflexivity].
  eapply (translated_lints dots small_sp (makes []) (fun _ => "") (mkColl (shipped dots) informed) ["us-east-1"] [] written (made_cfn []) [] "E1012").
  - apply made_translates.
  - exact (proj1 (loaded_with dots _ (Permutation_refl _))).
  - exact small_spec_ok.
  - apply e0002_iff; reflexivity.
  - apply is_enabled_spec; reflexivity.
  - split; [reflexivity|]. split; [intros _|]; reflexivity.
  - eexists; eexists; reflexivity.
  - reflexivity.
  - vm_compute; reflexivity.
Qed.
(** A directive in what the translator made of [F], a plain object, covers only the line of its name. *)
Lemma made_ignored : exists l fi, report_of (makes ["E1012"]) written = Findings l /\ In fi l /\ f_rule fi = "E1012" /\ f_line fi = 6%Z /\
  f_msg fi = "Ref Nowhere not found as a resource or parameter" /\
  at_path [PKey "Resources"; PKey "F"; PKey "Metadata"; PKey "cfn-lint"; PKey "config"; PKey "ignore_checks"] (template (made_cfn ["E1012"])) = Some (VList [VStr "E1012"]) /\
  at_path [PKey "Resources"; PKey "F"; PKey "Properties"; PKey "CodeUri"; PKey "Ref"] (template (made_cfn ["E1012"])) = Some (VStr "Nowhere").
Proof. eexists. eexists. split; [vm_compute; reflexivity|]. split; [right; left; reflexivity|]. repeat split. Qed.
Lemma located_placed c q m fi : q <> [] -> indices_ok (c_tmpl c) q -> get_location (c_tmpl c) q = Ok (Some m) ->
  f_line fi = (sl m + 1)%Z -> f_col fi = (sc m + 1)%Z -> f_line_end fi = (el m + 1)%Z -> f_col_end fi = (ec m + 1)%Z -> placed c q fi.
Proof.
  intros Hq Hi Hl. pose proof (get_location_located q (c_tmpl c) Hq Hi) as L. rewrite Hl in L. destruct L as (n & L1 & L2). intros. left. exists n, m. auto 8.
Qed.
Lemma c98_ignored : exists translate exn_text w sp k c c' l fi name place id,
  translates translate c c' /\ with_shipped w (k_all k) /\ snd (run_checks sp (serverless_translator translate exn_text) k ["us-east-1"] [] c) = Findings l /\
  at_path [PKey "Resources"; PKey name; PKey "Metadata"; PKey "cfn-lint"; PKey "config"; PKey "ignore_checks"] (template c') = Some (VList [VStr id]) /\
  In fi l /\ finding_of c' id (PKey "Resources" :: PKey name :: place) (f_msg fi) fi.
Proof.
  exists (makes ["E1012"]), (fun _ => ""), dots, small_sp, (mkColl (shipped dots) informed), written, (made_cfn ["E1012"]).
  eexists. eexists. exists "F", [PKey "Properties"; PKey "CodeUri"; PKey "Ref"], "E1012". split; [apply made_translates|]. split; [exact (proj1 (loaded_with dots _ (Permutation_refl _)))|].
  split; [vm_compute; reflexivity|]. split; [reflexivity|]. split; [right; left; reflexivity|]. split; [reflexivity|]. split; [reflexivity|]. split; [reflexivity|].
  apply located_placed with (m := at_line 5); try reflexivity; [discriminate|].
  eapply (origin_indices (made ["E1012"]) _ None (Some (at_line 5))); [apply wfb_sound; reflexivity|]. repeat (eapply o_key; [cbn; eauto 8|]); apply o_here.
Qed.
Lemma failing_example : translation_fails (fun _ _ _ => Causes "first" ["second"]) (fun _ => "") written ["first"; "second"] /\
  report_of (fun _ _ _ => Causes "first" ["second"]) written = Findings [transform_finding "t.yaml" "first"; transform_finding "t.yaml" "second"].
Proof. split; [|vm_compute; reflexivity]. split; [reflexivity|]. right. eexists. eexists. split; [reflexivity|]. left. eexists. eexists. split; reflexivity. Qed.
