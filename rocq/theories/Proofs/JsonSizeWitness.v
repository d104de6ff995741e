(** C86: samples and deviations. *)
From Coq Require Import List String Permutation ZArith QArith Lia.
From Verif.Model Require Import Base Helpers Locate Node Conditions Search Resolve Rules Relationship Parameters JsonDump PropertyRules JsonSize.
From Verif.Spec Require Import Paths Branches ConditionUse References Required Walk Values Truth Resolved Groups Nested JsonSize.
From Verif.Proofs Require Import BaseFacts WfDecide BranchProofs ConditionWitness Samples PropertyWitness GroupWitness ValueWitness PropertyRuleProofs NestedProofs DeepProofs ElbWitness JsonSizeProofs JsonSizeMain.
Import Verif.Model.Rules.
Import ListNotations.
Local Open Scope string_scope.
Local Open Scope nat_scope.

Definition float_dots (_ : Q) : string := "0.5".
Definition doc_spec : pspec := mkPS false None (Some "Json") None [("ValueType", "Document")] None.
Definition doc_types : rspec := mkRS [("AWS::X::Table", [("Doc", doc_spec)])] [] [].
Definition doc_max (t : string) : option Z := if String.eqb t "Document" then Some 30%Z else None.
Definition doc_rule : rule := json_rule float_dots toy_hash (fun l => l) 9 (VDict []) doc_types doc_max.
Definition doc_run (props : list (string * val)) : res (list string) :=
  rmap (map f_msg) (snd (coll_run sample_sp (mkColl [doc_rule] default_settings) (mkCfn "t.yaml" "us-east-1" (marked (group_template props))))).
Definition doc_checked (props : list (string * val)) : res (list rulematch) :=
  json_check float_dots (fun l => l) (load toy_hash 9 (group_template props)) (group_template props) (VDict []) doc_max (VDict props) [("Doc", doc_spec)] (props_path "T").
Definition sub_ (s : string) : val := VDict [("Fn::Sub", VStr s)].
Lemma doc_limit : json_limit doc_max doc_spec 30.
Proof. split; [reflexivity|]. exists "Document". split; reflexivity. Qed.
Lemma doc_limits : limits_known doc_max [("Doc", doc_spec)].
Proof. intros prop ps H _ _. cbn [assoc] in H. destruct (String.eqb prop "Doc"); [|discriminate]. injection H as <-. exists 30%Z. exact doc_limit. Qed.
Lemma only_doc prop ps : assoc prop [("Doc", doc_spec)] = Some ps -> prop = "Doc" /\ ps = doc_spec.
Proof. cbn [assoc]. destruct (String.eqb_spec prop "Doc") as [->|]; [|discriminate]. intros [= <-]. auto. Qed.

Definition long_doc : val := VDict [("a", sub_ "01234${A}56${B}789"); ("b", VStr "0123456789")].
Lemma long_doc_counted : counted long_doc (VDict [("a", VStr "01234789"); ("b", VStr "0123456789")]).
Proof.
  apply co_object; [intros [k [x [[=] _]]]|]. constructor; [split; [reflexivity|]|constructor; [split; [reflexivity | constructor] | constructor]].
  apply co_sub. exact (strip_unfilled "01234${A}56${B}789").
Qed.
Lemma long_doc_written : subs_written long_doc.
Proof.
  apply sw_object; [intros [k [x [[=] _]]]|]. intros k x [[= <- <-]|[[= <- <-]|[]]]; [|now constructor]. apply sw_function; [apply smem_iff; reflexivity|]. intros _. eexists. left. reflexivity.
Qed.
Lemma json_size_example : let t := group_template [("Doc", long_doc)] in let c := mkCfn "t.yaml" "us-east-1" (marked t) in
  wf (template c) /\ (exists m d, c_tmpl c = MDict m d) /\ resource_of (template c) "T" "AWS::X::Table" [("Type", VStr "AWS::X::Table"); ("Properties", VDict [("Doc", long_doc)])] /\
  at_path (props_path "T") (template c) = Some (VDict [("Doc", long_doc)]) /\ plain_path (props_path "T") /\ at_path (props_path "T") (VDict []) = None /\
  tidy (VDict [("Doc", long_doc)]) /\ (forall n, ~ rests_on (VDict [("Doc", long_doc)]) n) /\ ~ is_if (VDict [("Doc", long_doc)]) /\
  limits_known doc_max [("Doc", doc_spec)] /\ json_limit doc_max doc_spec 30 /\ subs_written long_doc /\ too_long (fun q => String.length (float_dots q)) 30 long_doc /\
  doc_run [("Doc", long_doc)] = Ok ["Role trust policy JSON text cannot be longer than 30 characters"] /\
  doc_run [("Doc", VDict [("a", sub_ "01234${A}56${B}"); ("b", VStr "01234567")])] = Ok [].
Proof.
  cbv zeta. destruct (ifless_tidy (VDict [("Doc", long_doc)]) eq_refl) as [H1 H2].
  split; [apply wfb_sound; reflexivity|]. split; [do 2 eexists; reflexivity|]. split; [do 2 eexists; split; [reflexivity|]; split; [reflexivity|]; split; [now left | reflexivity]|]. split; [reflexivity|].
  split. { intros k Hk. cbn [props_path In] in Hk. destruct Hk as [[= <-]|[[= <-]|[[= <-]|[]]]]; intros K; apply smem_iff in K; discriminate K. }
  split; [reflexivity|]. split; [exact H1|]. split; [exact H2|]. split; [intros [x [=]]|]. split; [apply doc_limits|]. split; [apply doc_limit|]. split; [apply long_doc_written|].
  split; [exists (VDict [("a", VStr "01234789"); ("b", VStr "0123456789")]); split; [apply long_doc_counted | reflexivity]|]. split; vm_compute; reflexivity.
Qed.

(** A member of the document that is there in production only. *)
Definition prod_doc : val := VDict [("a", if_ "IsProd" (VStr "0123456789") no_value); ("b", VStr "0123456789")].
Lemma prod_left b : deep (known ["IsProd"] b) prod_doc (Some (VDict [("a", if b "IsProd" then VStr "0123456789" else VNull); ("b", VStr "0123456789")])).
Proof.
  apply de_object; [cbn; intuition discriminate | discriminate|]. destruct (b "IsProd") eqn:E.
  - apply dm_keep; [apply de_then; [unfold known; cbn; now rewrite E | constructor]|]. apply dm_keep; constructor.
  - apply dm_null; [apply de_else; [unfold known; cbn; now rewrite E | constructor]|]. apply dm_keep; constructor.
Qed.
Lemma leaf_counts d : (forall k x, In (k, x) d -> is_dict x || is_list x = false) -> ~ function_call d -> subs_written (VDict d).
Proof. intros H N. apply sw_object; [exact N|]. intros k x Hx. apply sw_leaf. eauto. Qed.
Lemma json_condition_example : let t := group_template [("Doc", prod_doc)] in let props := [("Doc", prod_doc)] in
  section_of "Conditions" t env_defs /\ section_of "Parameters" t env_params /\ wf t /\ tidy (VDict props) /\ ~ is_if (VDict props) /\ NoDup ["IsProd"] /\
  (forall n, In n ["IsProd"] <-> rests_on (VDict props) n) /\ deployment toy_hash env_params env_values /\ gives env_defs env_values ["IsProd"] env_bools /\
  (forall prop ps limit x b r, assoc prop [("Doc", doc_spec)] = Some ps -> json_limit doc_max ps limit -> assoc prop props = Some x -> deep (known ["IsProd"] b) x r -> subs_written (member_left r)) /\
  deep (known ["IsProd"] env_bools) prod_doc (Some (VDict [("a", VStr "0123456789"); ("b", VStr "0123456789")])) /\
  too_long (fun q => String.length (float_dots q)) 30 (VDict [("a", VStr "0123456789"); ("b", VStr "0123456789")]) /\
  doc_run props = Ok ["Role trust policy JSON text cannot be longer than 30 characters when when condition ""IsProd"" is True"].
Proof.
  cbv zeta. assert (Hn : NoDup ["IsProd"]) by (constructor; [intros [] | constructor]).
  assert (Hd : forall n, rests_on prod_doc n <-> n = "IsProd").
  { intros n. split.
    - intros H. inversion H as [| | | |d k x n' Hx Hk Hr]; subst. destruct Hx as [[= <- <-]|[[= <- <-]|[]]]; [|inversion Hr]. inversion Hr as [|c t e n' Ht|c t e n' He| |d k x n' Hx' Hk' Hr']; subst; [reflexivity | inversion Ht | elim (proj2 (ifless_tidy no_value eq_refl) n He)|]. destruct Hx' as [[= <- <-]|[]]. elim Hk'. apply smem_iff. reflexivity.
    - intros ->. apply (ro_member _ "a" (if_ "IsProd" (VStr "0123456789") no_value)); [now left | intros K; apply smem_iff in K; discriminate K | constructor]. }
  split; [eexists; split; [reflexivity | now left]|]. split; [eexists; split; [reflexivity | now left]|]. split; [apply wfb_sound; reflexivity|].
  split. { apply ti_object; [cbn; intuition discriminate|]. intros k x [[= <- <-]|[]]. apply ti_object; [cbn; intuition discriminate|]. intros k x [[= <- <-]|[[= <- <-]|[]]]; [apply ti_if; now apply ifless_tidy | constructor]. }
  split; [intros [x [=]]|]. split; [exact Hn|]. split.
  { intros n. split.
    - intros [<-|[]]. apply (ro_member _ "Doc" prod_doc); [now left | intros K; apply smem_iff in K; discriminate K | now apply Hd].
    - intros H. inversion H as [| | | |d k x n' Hx Hk Hr]; subst. destruct Hx as [[= <- <-]|[]]. apply Hd in Hr as ->. now left. }
  split; [apply env_deployment|]. split; [apply env_one; cbn; auto|]. split.
  { intros prop ps limit x b r Hs _ Ex Hr. apply only_doc in Hs as [-> ->]. injection Ex as <-. rewrite (deep_unique _ _ _ _ _ Hn Hr (prod_left b)). cbn [member_left]. apply leaf_counts; [|intros [k [x [[=] _]]]].
    intros k x [[= <- <-]|[[= <- <-]|[]]]; [now destruct (b "IsProd") | reflexivity]. }
  split; [exact (prod_left env_bools)|]. split; [|vm_compute; reflexivity].
  exists (VDict [("a", VStr "0123456789"); ("b", VStr "0123456789")]). split; [|reflexivity]. apply co_object; [intros [k [x [[=] _]]]|]. repeat constructor.
Qed.

(** * Deviations *)
(** The text between two placeholders is left out too: a document that is too long for every value of the placeholders is not reported. *)
Lemma between_placeholders_witness : let v := sub_ "${A}0123456789012345678901234567890123456789${B}" in
  doc_checked [("Doc", VDict [("a", v)])] = Ok [] /\ forall a b, (30 < Z.of_nat (json_size (fun _ => 0%nat) (VDict [("a", VStr (a ++ "0123456789012345678901234567890123456789" ++ b))])))%Z.
Proof.
  cbv zeta. split; [vm_compute; reflexivity|]. intros a b. cbn [json_size map fst snd series list_sum fold_right List.length text_size chars_size]. unfold text_size.
  assert (E : forall x y, chars_size (x ++ y) = chars_size x + chars_size y) by (intros x y; induction x as [|c x IH]; [reflexivity | cbn [append chars_size]; rewrite IH; lia]).
  rewrite !E. change (chars_size "0123456789012345678901234567890123456789") with 40. unfold series. cbn [list_sum fold_right List.length]. lia.
Qed.
(** A reference is counted with its name, so that a document that is short for some value of the parameter is reported. *)
Lemma reference_counted_witness :
  rmap (map rm_msg) (doc_checked [("Doc", VDict [("a", VDict [("Ref", VStr "AParameterWithALongName")])])]) = Ok ["Role trust policy JSON text cannot be longer than 30 characters"] /\
  json_size (fun _ => 0) (VDict [("a", VStr "*")]) = 9.
Proof. split; vm_compute; reflexivity. Qed.
(** Quotes in a document that is given as text are counted twice. *)
Lemma text_document_witness : let s := "{""a"":""b"",""c"":""d"",""e"":""f""}" in
  rmap (map rm_msg) (doc_checked [("Doc", VStr s)]) = Ok ["Role trust policy JSON text cannot be longer than 30 characters"] /\ String.length s = 25.
Proof. split; vm_compute; reflexivity. Qed.
(** What AWS::NoValue leaves out is counted as null. *)
Lemma null_counted_witness :
  rmap (map rm_msg) (doc_checked [("Doc", VDict [("abc", if_ "IsProd" (VStr "0") no_value); ("b", VStr "012345678901")])]) =
    Ok ["Role trust policy JSON text cannot be longer than 30 characters when when condition ""IsProd"" is False"] /\
  json_size (fun _ => 0) (VDict [("b", VStr "012345678901")]) = 20.
Proof. split; vm_compute; reflexivity. Qed.
(** A condition elsewhere in the properties repeats the report for each of its values. *)
Lemma repeated_witness :
  doc_run [("Doc", long_doc); ("Other", if_ "IsProd" (VStr "x") (VStr "y"))] =
    Ok ["Role trust policy JSON text cannot be longer than 30 characters when when condition ""IsProd"" is True";
        "Role trust policy JSON text cannot be longer than 30 characters when when condition ""IsProd"" is False"].
Proof. vm_compute. reflexivity. Qed.
(** An Fn::Sub of an empty list ends the check with an exception. *)
Lemma empty_sub_witness : doc_checked [("Doc", VDict [("a", VDict [("Fn::Sub", VList [])])])] = Err EIndex.
Proof. vm_compute. reflexivity. Qed.
