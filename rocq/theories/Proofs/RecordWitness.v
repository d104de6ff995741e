(** C77: samples and deviations. *)
From Coq Require Import List Permutation ZArith Lia.
From Verif.Model Require Import Base Locate Helpers Node Conditions Search Resolve Rules Relationship PropertyRules SubProps Route53.
From Verif.Spec Require Import Paths Branches References Required Walk Values Permissions Truth Resolved Groups SubProps Nested Records.
From Verif.Proofs Require Import BaseFacts WfDecide BranchProofs ConditionWitness Samples PropertyWitness GroupWitness ValueWitness PropertyRuleProofs PermissionProofs Says IamWitness EventWitness SubPropsProofs SubPropsWitness NestedProofs DeepProofs ElbWitness RecordTexts RecordProofs RecordMain.
Import Verif.Model.Rules.
Import ListNotations.
Local Open Scope string_scope.

Definition group_name : string := "AWS::Route53::RecordSetGroup".
Definition set_name : string := "AWS::Route53::RecordSet".
Definition texts (l : list string) : val := VList (map VStr l).
Definition records_run (t : val) : res (list string) :=
  rmap (map f_msg) (snd (coll_run sample_sp (mkColl [recordset_rule (fun _ => false) toy_hash (fun l => l) 9 (VDict [])] default_settings) (cfn_of t))).
Definition records_checked (d : list (string * val)) : res (list string) :=
  let t := with_resource set_name d in rmap (map rm_msg) (recordsets_match (fun _ => false) (fun l => l) (load toy_hash 9 t) (VDict []) t).
Definition one_set (ty : string) (l : list string) : list (string * val) := [("Name", VStr "x"); ("Type", VStr ty); ("ResourceRecords", texts l)].
Definition bad_records : list (string * val) :=
  [("RecordSets", VList [VDict (one_set "A" ["1.2.3.256"; "010.1.1.1"]); VDict (one_set "CNAME" ["a.example.com"; "b c"]); VDict (one_set "TXT" ["""a"" ""b"""; "hello"])])].
Lemma texts_single l p w r : single (texts l) p w r -> exists s i, nth_error l i = Some s /\ w = VStr s /\ r = (p ++ [PIdx i])%list.
Proof.
  intros H. inversion H as [v p' w' q' K Hn|v p' l' q' i x w' r' K Hi Ha]; subst; inversion K; subst; [discriminate Hn|].
  rewrite nth_error_map in Hi. destruct (nth_error l i) as [s|] eqn:Es; [|discriminate Hi]. injection Hi as <-. inversion Ha; subst. exists s, i. auto.
Qed.
Lemma no_null l p q : ~ alternative (texts l) p VNull q.
Proof. intros K. inversion K. Qed.
Lemma bad_sets d p : record_set (with_resource group_name bad_records) d p -> exists i, p = (place_of "RecordSets" ++ [PIdx i])%list /\
  ((i = 0 /\ d = one_set "A" ["1.2.3.256"; "010.1.1.1"]) \/ (i = 1 /\ d = one_set "CNAME" ["a.example.com"; "b c"]) \/ (i = 2 /\ d = one_set "TXT" ["""a"" ""b"""; "hello"])).
Proof.
  intros H. destruct H as [n attrs d Hres Hp|n attrs pd l i d Hres Hp Hk Hi].
  - apply only_resource in Hres as [_ [E _]]. discriminate E.
  - apply only_resource in Hres as [-> [_ ->]]. injection Hp as <-. injection Hk as <-. exists i. split; [reflexivity|]. destruct i as [|[|[|i]]]; [| | |destruct i; discriminate Hi]; injection Hi as <-; auto.
Qed.
Lemma records_example : let t := with_resource group_name bad_records in
  wf (template (cfn_of t)) /\ records_shaped (template (cfn_of t)) /\ unconditional_names (template (cfn_of t)) (VDict []) /\
  (exists p d x r, record_set (template (cfn_of t)) d p /\ records_of d "A" x /\ single x (p ++ [PKey "ResourceRecords"])%list (VStr "1.2.3.256") r) /\
  (forall ipv6 q, record_fault ipv6 q "A" "1.2.3.256" "A record (1.2.3.256) is not a valid IPv4 address") /\ (forall ipv6 q words, ~ record_fault ipv6 q "A" "010.1.1.1" words) /\
  (forall ipv6 q words, ~ record_fault ipv6 q "TXT" """a"" ""b""" words) /\
  records_run t = Ok ["A record (1.2.3.256) is not a valid IPv4 address"; "A CNAME recordset can only contain 1 value"; "CNAME record (b c) does not contain a valid domain name";
    "TXT record is not structured as one or more items up to 255 characters enclosed in double quotation marks at Resources/R/Properties/RecordSets/2/ResourceRecords/1"].
Proof.
  cbv zeta. split; [apply wfb_sound; reflexivity|]. change (template (cfn_of (with_resource group_name bad_records))) with (with_resource group_name bad_records).
  split; [|split; [|split; [|split; [|split; [|split]]]]].
  - split; [|split].
    + intros n attrs H. apply only_resource in H as [_ [E _]]. discriminate E.
    + intros n attrs H. apply only_resource in H as [_ [_ ->]]. right. eexists. split; [reflexivity|]. intros l x [= <-] Hx. destruct Hx as [<-|[<-|[<-|[]]]]; eauto.
    + intros d p ty x H [Ht [_ [Hx _]]]. assert (K : exists l, x = texts l /\ ty <> "MX").
      { apply bad_sets in H as [i [_ [[_ ->]|[[_ ->]|[_ ->]]]]]; injection Ht as <-; injection Hx as <-; eexists; (split; [reflexivity | discriminate]). }
      destruct K as [l [-> Hm]]. split; [intros q; apply no_null|]. split; [|intros K; contradiction]. intros _ w r Hw. apply texts_single in Hw as [s [i [_ [-> _]]]]. left. eauto.
  - intros d p x H [Ht [_ [Hx _]]]. apply bad_sets in H as [i [-> [[_ ->]|[[-> ->]|[_ ->]]]]]; try discriminate Ht. injection Hx as <-.
    split; [intros k [E|[E|[E|[E|[E|[]]]]]]; try discriminate E; injection E as <-; cbn; intuition discriminate|]. split; [reflexivity|].
    destruct (ifless_tidy (VList [VStr "a.example.com"; VStr "b c"]) eq_refl) as [H1 H2]. split; [exact H1|]. split; [exact H2|]. left. eexists. reflexivity.
  - exists (place_of "RecordSets" ++ [PIdx 0])%list, (one_set "A" ["1.2.3.256"; "010.1.1.1"]), (texts ["1.2.3.256"; "010.1.1.1"]). eexists. split; [|split].
    + refine (rs_group _ "R" _ bad_records _ 0 _ (the_resource _ _) eq_refl eq_refl eq_refl).
    + split; [reflexivity|]. split; [now left|]. split; reflexivity.
    + eapply sg_item with (i := 0); [apply alt_leaf; [intros [y E]; discriminate E | discriminate] | reflexivity | apply alt_leaf; [intros [y E]; discriminate E | discriminate]].
  - intros ipv6 q. apply rf_a. rewrite <- ipv4_iff. discriminate.
  - intros ipv6 q words H. inversion H as [s Hn| | | | | | |]; subst. apply Hn, ipv4_iff. reflexivity.
  - intros ipv6 q words H. inversion H as [| | | | | | |s Hn]; subst. apply Hn, quoted_iff. reflexivity.
  - vm_compute. reflexivity.
Qed.
(** Words for the faults of the other types. *)
Lemma words_example :
  (forall ipv6 q, record_fault ipv6 q "CAA" "0 issue" "CAA record must contain 3 settings (flags tag ""value""), record contains 2 settings.") /\
  (forall ipv6 q, record_fault ipv6 q "CAA" "7 issue ""ca""" "Invalid CAA record flag setting (7) given, must be 0 or 128.") /\
  (forall ipv6 q, record_fault ipv6 q "MX" "70000 mail" "Invalid MX record priority setting (70000) given, must be between 0 and 65535.") /\
  (forall ipv6 q, record_fault ipv6 q "MX" "mail" "MX record must contain 2 settings (priority domainname), record contains 1 settings.") /\
  number "70000" 70000 /\ small_number "007" /\ ~ small_number "0007" /\ ~ small_number "256".
Proof.
  assert (N7 : number "7" 7) by now apply is_number_some. assert (N : number "70000" 70000) by now apply is_number_some.
  split; [|split; [|split; [|split; [|split; [|split; [|split]]]]]].
  - intros ipv6 q. constructor. apply (cf_two _ "0" "issue"); [reflexivity | apply without_iff; reflexivity | apply without_iff; reflexivity].
  - intros ipv6 q. constructor. apply (cf_other_flag _ "7" "issue" """ca""" 7); [|exact N7 | discriminate | discriminate]. split; [reflexivity|]. split; apply without_iff; reflexivity.
  - intros ipv6 q. constructor. apply (mf_large _ "70000" "mail" 70000); [reflexivity | apply without_iff; reflexivity | apply without_iff; reflexivity | exact N | reflexivity].
  - intros ipv6 q. constructor. apply (mf_count "mail" ["mail"]); [discriminate | | reflexivity | discriminate]. intros x [<-|[]]. apply without_iff. reflexivity.
  - exact N.
  - apply octet_iff. reflexivity.
  - rewrite <- octet_iff. discriminate.
  - rewrite <- octet_iff. discriminate.
Qed.
(** Records of a CNAME of which one is there in development only. *)
Definition some_names : val := VList [VStr "a"; if_ "IsDev" (VStr "b") no_value].
Definition names_template : val :=
  VDict [("Parameters", VDict env_params); ("Conditions", VDict env_defs); ("Resources", VDict [("R", VDict [("Type", VStr set_name); ("Properties", VDict [("Type", VStr "CNAME"); ("ResourceRecords", some_names)])])])].
Lemma names_example : wf names_template /\ at_path (place_of "ResourceRecords") names_template = Some some_names /\ plain_path (place_of "ResourceRecords") /\ tidy some_names /\ some_names <> no_value /\
  section_of "Conditions" names_template env_defs /\ section_of "Parameters" names_template env_params /\
  (forall n, In n ["IsDev"] <-> rests_on some_names n) /\ In "IsDev" (keys env_defs) /\ deployment toy_hash env_params env_values /\ gives env_defs env_values ["IsDev"] env_bools /\
  (forall b r, deep (known ["IsDev"] b) some_names r -> exists l, r = Some (VList l)) /\
  (forall b, b "IsDev" = true -> deep (known ["IsDev"] b) some_names (Some (VList [VStr "a"; VStr "b"]))) /\
  records_run names_template = Ok ["A CNAME recordset can only contain 1 value when condition ""IsDev"" is True at Resources/R/Properties/ResourceRecords"].
Proof.
  split; [apply wfb_sound; reflexivity|]. split; [reflexivity|]. split; [intros k [E|[E|[E|[E|[]]]]]; injection E as <-; cbn; intuition discriminate|]. split.
  { apply ti_list. intros x [<-|[<-|[]]]; [constructor|]. apply ti_if; [constructor|]. now apply ifless_tidy. }
  split; [discriminate|]. split; [eexists; split; [reflexivity | now left]|]. split; [eexists; split; [reflexivity | now left]|]. split.
  { intros n. split.
    - intros [<-|[]]. eapply ro_item; [right; now left|]. constructor.
    - intros Hr. inversion Hr as [| | |l x n' Hx Hr'|]; subst. destruct Hx as [<-|[<-|[]]]; [inversion Hr'|].
      inversion Hr' as [|c t e n' Ht|c t e n' He| |d k x n' Hx' Hk' Hr'']; subst; [now left | inversion Ht | elim (proj2 (ifless_tidy no_value eq_refl) n He)|]. destruct Hx' as [[= <- <-]|[]]. elim Hk'. apply smem_iff. reflexivity. }
  split; [cbn; auto|]. split; [apply env_deployment|]. split; [apply env_one; cbn; auto|]. split; [|split].
  - intros b r H. inversion H; subst. eauto.
  - intros b Hb. apply de_list. apply di_keep; [constructor|]. apply di_keep; [|constructor]. apply de_then; [unfold known; cbn; now rewrite Hb | constructor].
  - vm_compute. reflexivity.
Qed.

(** * Deviations *)
(** A bad name in an MX record with a good priority ends the check with an exception; after a bad priority it is called a bad priority. *)
Lemma mx_name_witness : records_checked (one_set "MX" ["10 "]) = Err (EOther "UnboundLocalError") /\
  records_checked (one_set "MX" ["x "]) = Ok ["MX record priority setting (x) should be of type Integer."; "MX record priority setting () should be of type Integer."].
Proof. split; vm_compute; reflexivity. Qed.
(** Records of CNAME and TXT that are numbers end the check with an exception. *)
Lemma number_record_witness : let d ty := [("Type", VStr ty); ("ResourceRecords", VList [VInt 5])] in
  records_checked (d "TXT") = Err ETypeErr /\ records_checked (d "CNAME") = Err ETypeErr /\ records_checked (d "A") = Ok [].
Proof. cbv zeta. split; [|split]; vm_compute; reflexivity. Qed.
(** An empty tag and a value that is one quotation mark are accepted in a CAA record. *)
Lemma caa_witness : records_checked (one_set "CAA" ["0  """]) = Ok [].
Proof. vm_compute. reflexivity. Qed.
(** The name of a host may be any characters that can be seen. *)
Lemma host_witness : records_checked (one_set "NS" ["..""!;$(rm)"]) = Ok [].
Proof. vm_compute. reflexivity. Qed.
(** A record set of a group that is no object ends the check, and one that is a condition is not looked at. *)
Lemma group_item_witness : let check x := let t := with_resource group_name [("RecordSets", VList [x])] in recordsets_match (fun _ => false) (fun l => l) (load toy_hash 9 t) (VDict []) t in
  check (VStr "x") = Err ETemplateAttribute /\ check (if_ "IsDev" (VDict (one_set "A" ["x"])) (VDict (one_set "A" ["y"]))) = Ok [] /\ check (VDict (one_set "A" ["x"])) <> Ok [].
Proof. cbv zeta. split; [|split]; vm_compute; [reflexivity | reflexivity | discriminate]. Qed.
(** Records of a CNAME that are gone in a scenario end the check with an exception. *)
Lemma names_gone_witness : let t := VDict [("Parameters", VDict env_params); ("Conditions", VDict env_defs); ("Resources", VDict [("R", VDict [("Type", VStr set_name);
    ("Properties", VDict [("Type", VStr "CNAME"); ("ResourceRecords", if_ "IsDev" (VList [VStr "a"]) no_value)])])])] in
  recordsets_match (fun _ => false) (fun l => l) (load toy_hash 9 t) (VDict []) t = Err ETypeErr.
Proof. vm_compute. reflexivity. Qed.
(** A type in a condition is not looked at. *)
Lemma conditional_type_witness : records_checked [("Type", if_ "IsDev" (VStr "A") (VStr "A")); ("ResourceRecords", texts ["x"])] = Ok [].
Proof. vm_compute. reflexivity. Qed.
