(** C99: samples. *)
From Coq Require Import List String Permutation QArith ZArith.
From Verif.Model Require Import Base Locate Helpers Node Conditions Search Resolve Rules Runner Config Core Relationship JsonDump PropertyRules ValueRules SubNeeded Iam Graph Standard.
From Verif.Spec Require Import Pipeline Paths Branches References Walk Required Truth Resolved Groups SameJson Values Substitution Iam Permissions Shipped ShippedChecks Configured.
From Verif.Proofs Require Import BaseFacts WfDecide BranchProofs ScenarioMain RelationProofs PermissionWitness SubstitutionProofs SizeProofs ValueWitness SearchProofs PropertyRuleProofs ConditionWitness RelationProofs RelationRule GraphProofs DuplicateWitness IamWitness SubPropsWitness
  PipelineProofs ReportProofs StandardProofs StandardMain StandardRules StandardWitness StandardPropWitness StandardConfigured StandardRelations Samples.
Import Verif.Model.Rules.
Import ListNotations.
Local Open Scope string_scope.

(** A world, the rules with other settings than the usual ones, and settings that allow experimental rules. *)
Definition tuned_types : rspec := mkRS
  [("AWS::X::Table", [("Count", mkPS false None (Some "Integer") None [] None); ("Keys", mkPS false (Some "List") None (Some "String") [] (Some false));
                      ("Names", mkPS false (Some "List") None (Some "String") [] (Some true))])] [] [].
Definition tuned : world := mkWorld
  template (fun _ => VDict []) (fun _ => Some 100%Z) ["us-east-1"]
  tuned_types [] [] [] [] (fun _ _ => None) [] [] []
  [] [] ([], []) ([], []) ([], []) ([], []) ([], []) [] (load_service_map sample_services) [] (fun _ => None)
  (fun _ => 0%Z) 10%Z (fun l => l) (fun l => l) 9%nat
  (fun _ => "") (fun _ => "") (fun _ => "") toy_hash (fun s => s) sample_float (fun _ => None) (fun s => String.eqb s "5") (fun _ => false)
  (fun r s => String.eqb s ("${" ++ r ++ "}")) (fun _ _ => Some true) (fun s => s) (fun _ => None) (fun _ => inl "no JSON") (fun _ _ => Ok None) (fun s => Ok s) (fun _ => false) "" find_cycle_dfs.
Definition with_config (cfg : list (string * val)) (r : rule) : rule :=
  mkRule (r_id r) (r_experimental r) (r_definition r) cfg (r_types r) (r_subtypes r) (r_init r) (r_match r) (r_match_props r) (r_match_subs r).
Definition settings_for (id : string) : list (string * val) :=
  if String.eqb id "E1029" then [("custom_excludes", VStr "later")] else if String.eqb id "E3012" then [("strict", VBool false)] else [].
Definition tuned_rules : list rule := map (fun r => with_config (settings_for (r_id r)) r) (shipped tuned).
Definition trying : settings := mkSettings true [] ["W"; "E"; "I"] [] [].
Lemma tuned_checks r : same_checks r (with_config (settings_for (r_id r)) r).
Proof. unfold same_checks, with_config. cbn. repeat (split; [reflexivity|]). repeat split; auto. Qed.
Lemma tuned_with : with_shipped tuned tuned_rules.
Proof.
  split.
  - intros r0 H. exists (with_config (settings_for (r_id r0)) r0). split; [apply in_map_iff; eauto | apply tuned_checks].
  - intros r0 r H Hr E. apply in_map_iff in Hr as [r1 [<- Hr]]. assert (r1 = r0) by (apply (shipped_unique tuned); auto). subst r1. apply tuned_checks.
Qed.
Definition linted_with (sp : spec) (c : cfn) (id : string) (experimental : bool) (cfg : list (string * val)) : Prop :=
  exists l, lints_with tuned sp no_translator (mkColl tuned_rules trying) ["us-east-1"] [] c [] id experimental cfg l /\ exists fi, In fi l /\ f_rule fi = id.
Definition tried (sp : spec) (c : cfn) (id : string) : bool :=
  match get_directives (c_tmpl c), snd (run_checks sp no_translator (mkColl tuned_rules trying) ["us-east-1"] [] c) with
  | Ok [], Findings l => existsb (fun fi => String.eqb (f_rule fi) id) l && negb (wants_transform (template c))
  | _, _ => false
  end.
Lemma tried_sound sp c id ex : spec_ok sp -> (exists m d, c_tmpl c = MDict m d) -> tried sp c id = true -> is_enabled id ex true [] ["W"; "E"; "I"] [] = true -> linted_with sp c id ex (settings_for id).
Proof.
  intros Hs Hm. unfold tried. destruct (get_directives (c_tmpl c)) as [[|x ds]|e] eqn:Ed; try discriminate.
  destruct (snd (run_checks sp no_translator (mkColl tuned_rules trying) ["us-east-1"] [] c)) as [l|] eqn:El; try discriminate. intros H H2.
  apply andb_prop in H as [H1 H3]. exists l. split.
  - split; [exact tuned_with|]. split; [exact Hs|]. split; [apply e0002_iff; reflexivity|].
    split; [apply is_enabled_spec; exact H2|]. split; [intros r Hr E; apply in_map_iff in Hr as [r1 [<- _]]; cbn in E; subst id; reflexivity|].
    split; [split; [|split; [intros _|]; reflexivity]; destruct (wants_transform (template c)); [discriminate H3 | reflexivity]|]. auto.
  - apply existsb_exists in H1 as [fi [A B]]. exists fi. split; [exact A|]. now apply String.eqb_eq.
Qed.
Ltac try_rule := apply tried_sound; [exact small_spec_ok | eexists; eexists; reflexivity | vm_compute; reflexivity | vm_compute; reflexivity].
(** Rules without settings: the same run is one of the usual kind. *)
Definition linted_plain (sp : spec) (c : cfn) (id : string) : Prop :=
  exists l, lints tuned sp no_translator (mkColl tuned_rules trying) ["us-east-1"] [] c [] id l /\ exists fi, In fi l /\ f_rule fi = id.
Lemma tried_plain sp c id : spec_ok sp -> (exists m d, c_tmpl c = MDict m d) -> tried sp c id = true -> is_enabled id false true [] ["W"; "E"; "I"] [] = true -> linted_plain sp c id.
Proof.
  intros Hs Hm H1 H2. destruct (tried_sound sp c id false Hs Hm H1 H2) as (l & (A & B & C & D & _ & E) & F). exists l. split; [|exact F].
  split; [exact A|]. split; [exact B|]. split; [exact C|]. split; [exact D|]. exact E.
Qed.
Ltac try_plain := apply tried_plain; [exact small_spec_ok | eexists; eexists; reflexivity | vm_compute; reflexivity | vm_compute; reflexivity].

(** A table, with a text that is no number, repeated items and a variable. *)
Definition tuned_props : list (string * val) :=
  [("Count", VStr "many"); ("Keys", VList [VStr "a"; VStr "${later}"; VStr "a"]); ("Names", VList [VStr "${now}"; VStr "b"; VStr "b"])].
Definition tuned_cfn : cfn := cfn_of (with_resource "AWS::X::Table" tuned_props).
Lemma tuned_wf : wf (template tuned_cfn).
Proof. apply wfb_sound. reflexivity. Qed.
Lemma tuned_object n d p specs : object_with small_sp (rs_resource_types tuned_types) (rs_property_types tuned_types) (template tuned_cfn) n d p specs ->
  d = tuned_props /\ p = props_path "R" /\ assoc "AWS::X::Table" (rs_resource_types tuned_types) = Some specs.
Proof.
  intros [[(name & attrs & Hr & Hp & ->) Ha]|[_ Ha]]; [|discriminate Ha]. apply only_resource in Hr as (-> & -> & ->). injection Hp as <-. auto.
Qed.
Lemma variables_run : linted_with small_sp tuned_cfn "E1029" false [("custom_excludes", VStr "later")] /\ wf (template tuned_cfn) /\
  (forall d, template tuned_cfn = VDict d -> assoc "Globals" d = None) /\ plain_definitions (template tuned_cfn).
Proof.
  split; [try_rule|]. split; [exact tuned_wf|]. split; [intros d [= <-]; reflexivity|]. intros p s n Hp Hv Hb.
  assert (Hi : In (p, n) (match_values (template tuned_cfn) [])) by (apply (match_values_iff _ [] tuned_wf); now exists p, s).
  vm_compute in Hi. unfold below in Hb.
  repeat (destruct Hi as [Hi|Hi]; [injection Hi as <- _; repeat (destruct Hb as [Hb|Hb]; [discriminate Hb|]); destruct Hb|]). destruct Hi.
Qed.
Lemma types_run : linted_with small_sp tuned_cfn "E3012" false [("strict", VBool false)] /\ wf (template tuned_cfn) /\ let rs := w_rspec tuned in objects_nested small_sp (rs_property_types rs) (template tuned_cfn) /\
  (forall n d p specs, object_with small_sp (rs_resource_types rs) (rs_property_types rs) (template tuned_cfn) n d p specs -> ShippedChecks.no_null_member d p).
Proof.
  split; [try_rule|]. split; [exact tuned_wf|]. cbv zeta. split; [intros n v q _ []|]. intros n d p specs H. apply tuned_object in H as (-> & -> & _).
  intros prop x q E K. apply alternative_sub in K. assert (A : nulls (VDict tuned_props) = false) by reflexivity. apply (nulls_sound _ A). apply assoc_In in E.
  destruct E as [[= <- <-]|[[= <- <-]|[[= <- <-]|[]]]]; vm_compute in K; intuition discriminate.
Qed.
Lemma repeated_example : linted_plain small_sp tuned_cfn "E3037" /\ linted_plain small_sp tuned_cfn "I3037" /\ wf (template tuned_cfn) /\ float_texts (w_float_text tuned) /\ (forall l, Permutation (w_order tuned l) l) /\
  let rs := w_rspec tuned in objects_nested small_sp (rs_property_types rs) (template tuned_cfn) /\
  (forall n d p specs, object_with small_sp (rs_resource_types rs) (rs_property_types rs) (template tuned_cfn) n d p specs -> all_objects (VDict d) p /\
     forall e q prop ps x, branch (VDict d) p (VDict e) q -> assoc prop e = Some x -> assoc prop specs = Some ps -> comparable (w_sha1 tuned) (w_float_text tuned) x).
Proof.
  split; [try_plain|]. split; [try_plain|]. split; [exact tuned_wf|]. split; [exact (proj1 duplicate_example)|]. split; [intros l; apply Permutation_refl|]. cbv zeta. split; [intros n v q _ []|].
  intros n d p specs H. apply tuned_object in H as (-> & -> & _). assert (H0 : ~ is_if (VDict tuned_props)) by (intros [y E]; discriminate E). split.
  - intros v q K. destruct (branch_plain _ _ _ _ H0 K) as [_ ->]. eauto.
  - intros e q prop ps x Hb Hx _. destruct (branch_plain _ _ _ _ H0 Hb) as [_ E]. injection E as ->. apply assoc_In in Hx.
    destruct Hx as [[= <- <-]|[[= <- <-]|[[= <- <-]|[]]]]; [exact I| |]; intros a b _ _ K; exact K.
Qed.
Lemma permissions_run : let c := cfn_of (with_resource key_type key_props) in linted_with small_sp c "W3037" true [] /\ wf (template c) /\ w_services tuned = load_service_map sample_services /\
  (forall rt pd p, properties_of (template c) rt pd p -> In rt permission_rule_types -> permissions_shaped (w_json tuned) pd p).
Proof.
  cbv zeta. split; [try_rule|]. destruct permission_example as (H1 & H2 & _). split; [exact H1|]. split; [reflexivity|].
  intros rt pd p (name & attrs & Hr & Hp & ->) _. apply only_resource in Hr as (-> & -> & ->). injection Hp as <-. exact H2.
Qed.

(** References in a template with conditions. *)
Fixpoint lists_of (k : nat) (l : list string) : list (list string) :=
  match k with 0%nat => [[]] | S k => [] :: flat_map (fun x => map (cons x) (lists_of k l)) l end.
Lemma lists_of_in l : forall k names, (List.length names <= k)%nat -> incl names l -> In names (lists_of k l).
Proof.
  induction k as [|k IH]; intros [|n names] Hk Hi; cbn [lists_of].
  - now left.
  - exfalso. inversion Hk.
  - now left.
  - right. apply in_flat_map. exists n. split; [apply Hi; now left|]. apply in_map. apply IH; [now apply le_S_n | intros x Hx; apply Hi; now right].
Qed.
Definition shop_cfn : cfn := cfn_of shop.
Lemma shop_scenarios names : NoDup names -> (forall n, In n names -> mem_assoc n (cs_conditions (load (w_hash tuned) (w_fuel tuned) shop)) = true) ->
  exists scs, get_scenarios (w_order tuned) (load (w_hash tuned) (w_fuel tuned) shop) names = Ok scs.
Proof.
  intros Hn Hk. assert (Hi : incl names ["IsProd"; "IsDev"; "Both"]).
  { intros n H. apply Hk in H. apply mem_assoc_iff in H. vm_compute in H. destruct H as [<-|[<-|[<-|[]]]]; cbn; auto. }
  assert (Hl : In names (lists_of 3 ["IsProd"; "IsDev"; "Both"])) by (apply lists_of_in; [exact (NoDup_incl_length Hn Hi) | exact Hi]).
  assert (A : forallb (fun ns => match get_scenarios (w_order tuned) (load (w_hash tuned) (w_fuel tuned) shop) ns with Ok _ => true | Err _ => false end) (lists_of 3 ["IsProd"; "IsDev"; "Both"]) = true) by (vm_compute; reflexivity).
  rewrite forallb_forall in A. specialize (A names Hl). destruct (get_scenarios _ _ names) as [scs|e]; [eauto | discriminate A].
Qed.
Lemma shop_wf : wf shop.
Proof. apply wfb_sound. reflexivity. Qed.
Ltac go_there := repeat first [apply pl_here | eapply pl_if; [reflexivity | reflexivity|] | eapply pl_key; [discriminate | reflexivity|] | eapply pl_item; [reflexivity|]].
Lemma shop_references : plain_references shop.
Proof.
  intros f p v Hf H. assert (Hi : In ((p ++ [PKey f])%list, v) (search f shop [])) by (apply search_spec; [exact shop_wf | exists p; auto]).
  destruct Hf as [<- | [<- | []]].
  - remember (p ++ [PKey "Ref"])%list as q eqn:Eq. clear H Eq. vm_compute in Hi.
    repeat (destruct Hi as [Hi|Hi]; [injection Hi as <- <-; split; [unfold shop; go_there | eexists; constructor; discriminate]|]). destruct Hi.
  - vm_compute in Hi. destruct Hi.
Qed.
Lemma relations_run : linted_plain small_sp shop_cfn "W1001" /\ wf (template shop_cfn) /\ plain_conditions (template shop_cfn) /\ plain_references (template shop_cfn) /\
  (forall names, NoDup names -> (forall n, In n names -> mem_assoc n (cs_conditions (load (w_hash tuned) (w_fuel tuned) (template shop_cfn))) = true) ->
     exists scs, get_scenarios (w_order tuned) (load (w_hash tuned) (w_fuel tuned) (template shop_cfn)) names = Ok scs).
Proof. split; [try_plain|]. change (template shop_cfn) with shop. split; [exact shop_wf|]. split; [exact shop_plain|]. split; [exact shop_references | exact shop_scenarios]. Qed.
