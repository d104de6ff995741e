(** Samples for C29. *)
From Coq Require Import Permutation Lia QArith.
From Verif.Model Require Import Base Helpers Locate Node Conditions Search Resolve Rules Relationship Parameters PropertyRules.
From Verif.Spec Require Import Paths Branches Walk Required Truth Resolved Groups Sizes.
From Verif.Proofs Require Import BaseFacts WfDecide BranchProofs SearchProofs ConditionProofs SetProofs GroupProofs ConditionWitness Samples PropertyWitness PropertyRuleProofs SizeProofs.
Import Verif.Model.Rules.
Import ListNotations.
Local Open Scope string_scope.

Definition size_rs : rspec := mkRS
  [("AWS::X::Table", [("Names", mkPS false (Some "List") None (Some "String") [("ListValueType", "Two"); ("ValueType", "Name")] None);
                      ("Note", mkPS false None (Some "String") None [("ValueType", "Note")] None);
                      ("Size", mkPS false None (Some "Integer") None [("ValueType", "Size")] None)])]
  []
  [("Two", mkVS (Some 1%Z) (Some 2%Z) None None None None); ("Name", mkVS None None (Some 2%Z) (Some 4%Z) None None);
   ("Note", mkVS None None (Some 0%Z) (Some 3%Z) None None); ("Size", mkVS None None None None (Some (1#1, "1")) (Some (10#1, "10")))].
Definition size_specs : pspecs := specs_of "AWS::X::Table" (rs_resource_types size_rs).
(** [float(text)], for two texts. *)
Definition size_reads (s : string) : option (option QArith_base.Q) :=
  if String.eqb s "3.5" then Some (Some (7 # 2)) else if String.eqb s "nan" then Some None else None.
Definition size_props : list (string * val) :=
  [("Names", VList [VStr "abcde"; if_ "IsProd" (VStr "x") (VStr "xy")]); ("Note", VStr "ab"); ("Size", if_ "IsProd" (VInt 0%Z) (VStr "3.5"))].
Definition size_attrs : list (string * val) := [("Type", VStr "AWS::X::Table"); ("Properties", VDict size_props)].
Definition size_cfn : cfn := mkCfn "t.yaml" "us-east-1" (marked (VDict [("Resources", VDict [("T", VDict size_attrs)])])).

Lemma string_bounds_sample : string_bounds size_rs (mkPS false (Some "List") None (Some "String") [("ListValueType", "Two"); ("ValueType", "Name")] None) 2%Z 4%Z.
Proof. split; [left; split; reflexivity|]. eexists. split; [eexists; split; reflexivity|]. split; reflexivity. Qed.
Lemma number_bounds_sample : number_bounds size_rs (mkPS false None (Some "Integer") None [("ValueType", "Size")] None) (1#1, "1")%Q (10#1, "10")%Q.
Proof. split; [eexists; split; [reflexivity|]; now left|]. eexists. split; [eexists; split; reflexivity|]. split; reflexivity. Qed.
Lemma size_hypotheses :
  ~ In "" (keys (rs_value_types size_rs)) /\ ~ is_if (VDict size_props) /\ VDict size_props <> NoValue /\ NoDup (keys size_props) /\
  (forall prop x q p, assoc prop size_props = Some x -> ~ alternative x p VNull q) /\
  wf (template size_cfn) /\ (exists m d, c_tmpl size_cfn = MDict m d) /\ resource_of (template size_cfn) "T" "AWS::X::Table" size_attrs /\
  enabled default_settings (string_size_rule toy_hash 9 size_rs) = true /\ enabled default_settings (number_size_rule toy_hash 9 size_reads size_rs) = true.
Proof.
  split; [cbn; intuition discriminate|]. split; [intros [x [=]]|]. split; [discriminate|]. split; [apply nodupb_sound; reflexivity|]. split.
  { intros prop x q p Hx H. apply assoc_In in Hx. destruct Hx as [E|[E|[E|[]]]]; injection E as <- <-; inversion H; subst; try discriminate;
      match goal with K : alternative _ _ _ _ |- _ => inversion K end. }
  split; [apply wfb_sound; reflexivity|]. split; [do 2 eexists; reflexivity|]. split; [|split; reflexivity].
  do 2 eexists. split; [reflexivity|]. split; [reflexivity|]. split; [now left | reflexivity].
Qed.
Lemma size_single :
  single (VList [VStr "abcde"; if_ "IsProd" (VStr "x") (VStr "xy")]) [PKey "Names"] (VStr "x") [PKey "Names"; PIdx 1; PKey "Fn::If"; PIdx 1] /\ ~ within 2%Z 4%Z (String.length "x") /\
  single (if_ "IsProd" (VInt 0%Z) (VStr "3.5")) [PKey "Size"] (VInt 0%Z) [PKey "Size"; PKey "Fn::If"; PIdx 1] /\ out_of_range size_reads (1#1) (10#1) (VInt 0%Z).
Proof.
  split; [|split; [unfold within; cbn; lia|split]].
  - apply (sg_item _ _ [VStr "abcde"; if_ "IsProd" (VStr "x") (VStr "xy")] [PKey "Names"] 1 (if_ "IsProd" (VStr "x") (VStr "xy"))); [apply alt_leaf; [intros [x [=]] | discriminate] | reflexivity|].
    apply alt_then. cbn [app]. apply alt_leaf; [intros [x [=]] | discriminate].
  - apply sg_value; [|reflexivity]. apply alt_then. cbn [app]. apply alt_leaf; [intros [x [=]] | discriminate].
  - apply or_int. intros [H _]. now apply H.
Qed.
Lemma size_example : let k := mkColl [string_size_rule toy_hash 9 size_rs; number_size_rule toy_hash 9 size_reads size_rs; list_size_rule toy_hash (fun l => l) 9 size_rs] default_settings in
  exists raw, snd (coll_run sample_sp k size_cfn) = Ok raw /\
    map f_msg raw = ["String has to have length between 2 and 4 at Resources/T/Properties/Names/0";
                     "String has to have length between 2 and 4 at Resources/T/Properties/Names/1/Fn::If/1";
                     "Value has to be between 1 and 10 at Resources/T/Properties/Size/Fn::If/1"].
Proof. cbv zeta. eexists. split; vm_compute; reflexivity. Qed.

Definition list_props : list (string * val) := [("Names", if_ "IsProd" (VList [VStr "a"; VStr "b"; VStr "c"]) (VList [VStr "a"]))].
Lemma list_example :
  all_objects (VDict list_props) [PKey "P"] /\ branch (VDict list_props) [PKey "P"] (VDict list_props) [PKey "P"] /\ plain_object list_props /\
  (forall n, In n ["IsProd"] <-> members_look_at list_props n) /\ gives env_defs env_values ["IsProd"] env_bools /\
  deployed env_bools list_props [("Names", VList [VStr "a"; VStr "b"; VStr "c"])] /\
  list_bounds size_rs (mkPS false (Some "List") None (Some "String") [("ListValueType", "Two"); ("ValueType", "Name")] None) 1%Z 2%Z /\ ~ within 1%Z 2%Z 3 /\
  list_size_check (fun l => l) (load toy_hash 9 env) size_rs (VDict list_props) size_specs [PKey "P"] =
    Ok [mkRM [PKey "P"; PKey "Names"] "Names has to have between 1 and 2 items specified when when condition ""IsProd"" is True"] /\
  list_size_check (fun l => l) (load toy_hash 9 env) size_rs (VDict [("Names", VList [])]) size_specs [PKey "P"] =
    Ok [mkRM [PKey "P"; PKey "Names"] "Names has to have between 1 and 2 items specified"].
Proof.
  assert (Hif : ~ is_if (VDict list_props)) by (intros [x [=]]).
  assert (Hl : forall l, plain_ifs (VList (map VStr l)) /\ forall n, ~ looks_at (VList (map VStr l)) n).
  { intros l. split; [apply pi_list; intros x Hx; apply in_map_iff in Hx as [s [<- _]]; apply pi_str|]. intros n H. inversion H; subst. match goal with K : In _ (map VStr l) |- _ => apply in_map_iff in K as [s [<- _]] end.
    match goal with K : looks_at (VStr _) _ |- _ => inversion K end. }
  split; [now apply plain_objects|]. split; [apply (plain_branch list_props [PKey "P"] Hif); discriminate|].
  split; [split; [apply nodupb_sound; reflexivity | split; [intros x [=]|]]|].
  { intros k x [E|[]]. injection E as <- <-. apply pi_if; [apply (proj1 (Hl ["a"; "b"; "c"])) | apply (proj1 (Hl ["a"]))]. }
  split.
  { intros n. split.
    - intros [<-|[]]. do 2 eexists. split; [now left | apply la_here].
    - intros [k [x [Hi H]]]. destruct Hi as [E|[]]. injection E as <- <-. inversion H; subst; [now left | |].
      + exfalso. eapply (proj2 (Hl ["a"; "b"; "c"])); eassumption.
      + exfalso. eapply (proj2 (Hl ["a"])); eassumption. }
  split; [intros n [<-|[]]; apply env_gives; now left|].
  split; [apply rm_keep; [apply r_then; [reflexivity|]; apply r_list; repeat (apply ri_keep; [apply r_str|]); apply ri_nil | apply rm_nil]|].
  split; [split; [reflexivity|]; eexists; split; [eexists; split; reflexivity|]; split; reflexivity|]. split; [unfold within; lia|]. split; vm_compute; reflexivity.
Qed.

(** A lower bound of 0 switches the check of texts off. *)
Lemma c29_zero_refuted : exists rs specs ps prop s, assoc prop specs = Some ps /\ string_bounds rs ps 0%Z 3%Z /\ ~ within 0%Z 3%Z (String.length s) /\
  forall p, string_size_check rs (VDict [(prop, VStr s)]) specs p = Ok [].
Proof.
  exists size_rs, size_specs, (mkPS false None (Some "String") None [("ValueType", "Note")] None), "Note", "long text". split; [reflexivity|]. split.
  { split; [right; split; [discriminate | reflexivity]|]. eexists. split; [eexists; split; reflexivity|]. split; reflexivity. }
  split; [unfold within; cbn; lia|]. reflexivity.
Qed.
(** When the properties are a condition, no text and no number in them is looked at. *)
Lemma c29_if_refuted : exists rs specs ps prop s reads x, assoc prop specs = Some ps /\ string_bounds rs ps 2%Z 4%Z /\ ~ within 2%Z 4%Z (String.length s) /\
  (forall p, exists q, branch (If_of x) p (VDict [(prop, VStr s)]) q) /\
  forall p, string_size_check rs (If_of x) specs p = Ok [] /\ number_size_check reads rs (If_of x) specs p = Ok [].
Proof.
  exists size_rs, size_specs, (mkPS false (Some "List") None (Some "String") [("ListValueType", "Two"); ("ValueType", "Name")] None), "Names", "abcde", size_reads,
    (VList [VStr "IsProd"; VDict [("Names", VStr "abcde")]; VDict []]). split; [reflexivity|]. split; [exact string_bounds_sample|]. split; [unfold within; cbn; lia|]. split.
  - intros p. eexists. apply br_then. apply br_leaf; [intros [x [=]] | discriminate|]. apply st_dict. apply pr_keep; [discriminate | apply pr_nil].
  - intros p. apply c29_if_unchecked; [cbn; intuition discriminate|]. intros w q H. apply items_safe_spec in H. destruct H as [E|[E|[]]]; injection E as <- <-; eauto.
Qed.

(** The nested objects of the sample template. *)
Definition nested_rs : rspec := mkRS []
  [("AWS::X::Table.Rule", [("Id", mkPS false None (Some "Integer") None [("ValueType", "Size")] None); ("Text", mkPS false None (Some "String") None [("ValueType", "Name")] None)])]
  [("Name", mkVS None None (Some 2%Z) (Some 4%Z) None None); ("Size", mkVS None None None None (Some (2#1, "2")%Q) (Some (10#1, "10")%Q))].
Lemma nested_size_example : let k := mkColl [string_size_rule toy_hash 9 nested_rs; number_size_rule toy_hash 9 size_reads nested_rs] default_settings in
  exists raw, snd (coll_run sample_sp k sample_cfn) = Ok raw /\
    map f_msg raw = ["Value has to be between 2 and 10 at Resources/T/Properties/Fn::If/1/Rules/0/Id";
                     "String has to have length between 2 and 4 at Resources/T/Properties/Fn::If/1/Rules/1/Text"].
Proof. cbv zeta. eexists. split; vm_compute; reflexivity. Qed.
Lemma nested_size_hypotheses :
  exists d q ps, resource_nested sample_sp "AWS::X::Table" (VDict sample_props) [PKey "Resources"; PKey "T"; PKey "Properties"] "AWS::X::Table.Rule" (VDict d) q /\
     ~ is_if (VDict d) /\ VDict d <> NoValue /\ NoDup (keys d) /\ (forall prop x r, assoc prop d = Some x -> ~ alternative x (q ++ [PKey prop])%list VNull r) /\
     assoc "Text" d = Some (VStr "x") /\ assoc "Text" (specs_of "AWS::X::Table.Rule" (rs_property_types nested_rs)) = Some ps /\ string_bounds nested_rs ps 2%Z 4%Z /\ ~ within 2%Z 4%Z (String.length "x").
Proof.
  assert (Hb : branch (VDict sample_props) [PKey "Resources"; PKey "T"; PKey "Properties"]
    (VDict [("Name", VStr "a"); ("Rules", VList [VDict [("Id", VInt 1)]; VDict [("Text", VStr "x")]])]) [PKey "Resources"; PKey "T"; PKey "Properties"; PKey "Fn::If"; PIdx 1]).
  { apply items_safe_spec. now left. }
  exists [("Text", VStr "x")], [PKey "Resources"; PKey "T"; PKey "Properties"; PKey "Fn::If"; PIdx 1; PKey "Rules"; PIdx 1], (mkPS false None (Some "String") None [("ValueType", "Name")] None).
  split.
  - eapply rn_list with (key := "Rules") (l := [VDict [("Id", VInt 1)]; VDict [("Text", VStr "x")]]) (i := 1).
    + exact Hb.
    + exists [], []. split; [reflexivity | intros []].
    + reflexivity.
    + now right; left.
    + exists [("Name", mkPD None None)], [("Kind", mkPD None None)]. split; [reflexivity|]. cbn. intuition discriminate.
    + split; [reflexivity|]. cbn. intuition discriminate.
    + reflexivity.
    + eapply n_here; [apply tn_other; discriminate|]. exists [], []. split; [reflexivity | intros []].
  - split; [intros [x [=]]|]. split; [discriminate|]. split; [apply nodupb_sound; reflexivity|]. split.
    { intros prop x r Hx H. apply assoc_In in Hx. destruct Hx as [E|[]]. injection E as <- <-. inversion H. }
    split; [reflexivity|]. split; [reflexivity|]. split; [|unfold within; cbn; lia].
    split; [right; split; [discriminate|reflexivity]|]. eexists. split; [eexists; split; reflexivity|]. split; reflexivity.
Qed.
