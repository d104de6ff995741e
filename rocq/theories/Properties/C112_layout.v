(** C112 The layout of a template does not matter. *)
From Coq Require Import List String ZArith.
Import ListNotations.
From Verif.Model Require Import Base Node Locate Helpers Rules Runner Config Core Standard.
From Verif.Spec Require Import Pipeline Paths Shipped Layout.
From Verif.Proofs Require Import Samples RuleSetWitness PropertyWitness StandardPropWitness StandardFunctionWitness LocalityWitness LayoutProofs LayoutWitness.
Import Verif.Model.Rules.
Local Open Scope string_scope.

(** Two files with the same contents in another layout, linted with the shipped rules and the same settings: every finding on one has its twin on the other, by the same rule, in the same words and at the same place of the document, unless a directive suppresses that one.  This includes the reports of rules that fail.  Only the two rules on the size of the file see a difference: if they are enabled, the files must have the same size. *)
Theorem layout_does_not_matter : forall w sp tr k rg man c c' ds ds' l l',
  only_shipped w (k_all k) -> same_document (c_tmpl c) (c_tmpl c') -> (exists m d, c_tmpl c = MDict m d) ->
  w_before w c = w_before w c' -> w_globals w c = w_globals w c' ->
  (forall r, In r (rules k) -> r_id r = "E1002" \/ r_id r = "I1002" -> w_size w (c_file c) = w_size w (c_file c')) ->
  wants_transform (template c) = false -> get_directives (c_tmpl c) = Ok ds -> get_directives (c_tmpl c') = Ok ds' ->
  snd (run_checks sp tr k rg man c) = Findings l -> snd (run_checks sp tr k rg man c') = Findings l' ->
  answered c c' man ds' l l' /\ answered c' c man ds l' l.
Proof. exact shipped_layout. Qed.
Print Assumptions layout_does_not_matter.

(** The same for any rules that do not look at the layout, shipped or not. *)
Theorem blind_rules_layout : forall sp tr k rg man c c' ds ds' l l',
  same_document (c_tmpl c) (c_tmpl c') -> (exists m d, c_tmpl c = MDict m d) -> (forall r, In r (rules k) -> blind r c c') ->
  wants_transform (template c) = false -> get_directives (c_tmpl c) = Ok ds -> get_directives (c_tmpl c') = Ok ds' ->
  snd (run_checks sp tr k rg man c) = Findings l -> snd (run_checks sp tr k rg man c') = Findings l' ->
  answered c c' man ds' l l' /\ answered c' c man ds l' l.
Proof. exact layout_free. Qed.
Print Assumptions blind_rules_layout.

(** Two layouts of a document hold the same contents. *)
Theorem same_document_same_contents : forall t t', same_document t t' -> erase t = erase t'.
Proof. exact same_document_erase. Qed.
Print Assumptions same_document_same_contents.

(** A template with many faults in two layouts: the findings are on other lines. *)
Example layout_case : only_shipped stocked (k_all (mkColl (shipped stocked) informed)) /\ same_document (c_tmpl third_cfn) (c_tmpl laid_cfn) /\ (exists m d, c_tmpl third_cfn = MDict m d) /\
  w_before stocked third_cfn = w_before stocked laid_cfn /\ w_globals stocked third_cfn = w_globals stocked laid_cfn /\
  (forall r, In r (rules (mkColl (shipped stocked) informed)) -> r_id r = "E1002" \/ r_id r = "I1002" -> w_size stocked (c_file third_cfn) = w_size stocked (c_file laid_cfn)) /\
  wants_transform (template third_cfn) = false /\ get_directives (c_tmpl third_cfn) = Ok [] /\ get_directives (c_tmpl laid_cfn) = Ok [] /\
  exists l l', snd (run_checks small_sp no_translator (mkColl (shipped stocked) informed) ["us-east-1"] [] third_cfn) = Findings l /\
    snd (run_checks small_sp no_translator (mkColl (shipped stocked) informed) ["us-east-1"] [] laid_cfn) = Findings l' /\
    8 <= List.length l /\ (exists fi, In fi l' /\ f_rule fi = "E1012" /\ f_line fi <> 1%Z) /\ (exists fi, In fi l /\ f_rule fi = "E1012" /\ f_line fi = 1%Z).
Proof. exact layout_case. Qed.
