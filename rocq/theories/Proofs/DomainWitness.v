(** C78: samples and deviations. *)
From Coq Require Import List Permutation Lia.
From Verif.Model Require Import Base Locate Helpers Node Conditions Search Resolve Rules Relationship PropertyRules SubProps Route53 Domains.
From Verif.Spec Require Import Paths Branches References Required Walk Values Truth Resolved Groups Domains.
From Verif.Proofs Require Import BaseFacts WfDecide BranchProofs ConditionWitness Samples PropertyWitness GroupWitness PropertyRuleProofs IamWitness SubPropsWitness RecordTexts SetProofs GroupProofs DomainProofs.
Import Verif.Model.Rules.
Import ListNotations.
Local Open Scope string_scope.

Definition zone_type_name : string := "AWS::Route53::RecordSet".
Definition certificate_name : string := "AWS::CertificateManager::Certificate".
Definition zoned (n z : val) : list (string * val) := [("Name", n); ("HostedZoneName", z)].
Definition optioned (n v : val) : list (string * val) := [("DomainName", n); ("ValidationDomain", v)].
Definition domains_run (t : val) : res (list string) :=
  rmap (map f_msg) (snd (coll_run sample_sp (mkColl [zone_rule toy_hash (fun l => l) 9; option_rule toy_hash (fun l => l) 9] default_settings) (cfn_of t))).

Lemma texts_plain k1 k2 a b : k1 <> k2 -> plain_object [(k1, VStr a); (k2, VStr b)] /\ forall n, ~ members_look_at [(k1, VStr a); (k2, VStr b)] n.
Proof.
  intros Hk. split; [split; [|split]|].
  - cbn. constructor; [intros [E|[]]; now apply Hk | constructor; [intros [] | constructor]].
  - discriminate.
  - intros k x [[= <- <-]|[[= <- <-]|[]]]; apply pi_str.
  - intros n [k [x [Hi H]]]. destruct Hi as [E|[E|[]]]; injection E as <- <-; inversion H.
Qed.
Lemma group_members d g n : group_looks_at d g n -> members_look_at d n.
Proof. intros [k [x [H1 [_ H2]]]]. exists k, x. auto. Qed.
Lemma zone_example : let pd := zoned (VStr "www.example.org.") (VStr "example.com") in let t := with_resource zone_type_name pd in
  wf (template (cfn_of t)) /\ plain_object pd /\ VDict pd <> no_value /\ (forall n, ~ group_looks_at pd ["Name"; "HostedZoneName"] n) /\ zone_shaped pd /\
  zone_fault pd "HostedZoneName" "HostedZoneName must end in a dot at " /\ zone_fault pd "Name" "Name must be a superdomain of HostedZoneName at " /\
  (forall key words, ~ zone_fault (zoned (VStr "www.example.com") (VStr "example.com.")) key words) /\
  domains_run t = Ok ["HostedZoneName must end in a dot at Resources/R/Properties"; "Name must be a superdomain of HostedZoneName at Resources/R/Properties"].
Proof.
  cbv zeta. split; [apply wfb_sound; reflexivity|].
  destruct (texts_plain "Name" "HostedZoneName" "www.example.org." "example.com" ltac:(discriminate)) as [H1 H2].
  assert (E : forall s t, cut_end "." s = None -> s <> t ++ ".") by (intros s t H; rewrite cut_none in H; apply H).
  split; [exact H1|]. split; [discriminate|]. split; [intros n K; apply group_members in K; exact (H2 n K)|]. split; [intros n z [= <-] [= <-]; split; discriminate|]. split; [|split; [|split]].
  - apply (zf_dot _ "www.example.org." "example.com"); [reflexivity | reflexivity|]. now apply cut_none.
  - apply (zf_name _ "www.example.org." "example.com" "www.example.org" "example.com"); [reflexivity | reflexivity | now left | right; split; [reflexivity | now apply cut_none]|]. left. now apply cut_none.
  - intros key words K. destruct K as [n z [= <-] [= <-] K|n z n' z' [= <-] [= <-] U1 U2 K]; [now apply (K "example.com")|].
    apply chop_iff in U1, U2. cbn in U1, U2. subst n' z'. destruct K as [K|[K _]]; [now apply (K "www.") | discriminate K].
  - vm_compute. reflexivity.
Qed.
Definition zoned_by : list (string * val) := zoned (if_ "IsProd" (VStr "a.example.com") (VStr "a.example.org")) (VStr "example.org.").
Lemma zone_conditional_example :
  section_of "Conditions" env env_defs /\ section_of "Parameters" env env_params /\ plain_object zoned_by /\
  (forall n, In n ["IsProd"] <-> group_looks_at zoned_by ["Name"; "HostedZoneName"] n) /\ deployment toy_hash env_params env_values /\ gives env_defs env_values ["IsProd"] env_bools /\
  (forall b d', deployed b zoned_by d' -> zone_shaped d') /\
  (exists d', deployed env_bools zoned_by d' /\ zone_fault d' "Name" "Name must be a superdomain of HostedZoneName at ") /\
  rmap (map rm_msg) (zones_match (fun l => l) (load toy_hash 9 env) (VDict zoned_by) (props_path "R")) =
    Ok ["Name must be a superdomain of HostedZoneName at Resources/R/Properties when condition ""IsProd"" is True"].
Proof.
  split; [apply toy_conditions|]. split; [apply toy_parameters|]. split; [|split; [|split; [exact env_deployment | split; [apply env_one; now left | split; [|split]]]]].
  - split; [apply nodupb_sound; reflexivity|]. split; [discriminate|]. intros k x [[= <- <-]|[[= <- <-]|[]]]; [apply pi_if; apply pi_str | apply pi_str].
  - intros n. split.
    + intros [<-|[]]. exists "Name". eexists. split; [now left|]. split; [now left | apply la_here].
    + intros [k [x [Hi [_ H]]]]. destruct Hi as [E|[E|[]]]; injection E as <- <-; inversion H; subst; try (now left); match goal with K : looks_at _ _ |- _ => inversion K end.
  - intros b d' H. inversion H as [|k x y d e H1 H2|k x d e H1 H2]; subst.
    + inversion H2 as [|k' x' y' d1 e1 H3 H4|k' x' d1 e1 H3 H4]; subst; [|inversion H3].
      inversion H3; subst. inversion H4; subst. intros n z E1 E2. injection E2 as <-. split; [|discriminate]. injection E1 as ->.
      inversion H1 as [c t f r K1 K2|c t f r K1 K2|c t f K1| | | | | | | |]; subst; [inversion K2; subst; discriminate | inversion K2; subst; discriminate].
    + inversion H1 as [c t f r K1 K2|c t f r K1 K2|c t f K1| | | | | | | |]; subst; inversion K2.
  - exists (zoned (VStr "a.example.com") (VStr "example.org.")). split.
    + apply rm_keep; [apply r_then; [reflexivity | apply r_str] | apply rm_keep; [apply r_str | apply rm_nil]].
    + apply (zf_name _ "a.example.com" "example.org." "a.example.com" "example.org"); [reflexivity | reflexivity | right; split; [reflexivity | now apply cut_none] | now left|]. left. now apply cut_none.
  - vm_compute. reflexivity.
Qed.
Definition bad_options : list (string * val) :=
  [("DomainName", VStr "x"); ("DomainValidationOptions", VList [VDict (optioned (VStr "www.example.com") (VStr "example.org")); VDict (optioned (VStr "www.example.com") (VStr "example.com"))])].
Lemma option_example : let t := with_resource certificate_name bad_options in let here := (props_path "R" ++ [PKey "DomainValidationOptions"])%list in
  wf (template (cfn_of t)) /\
  (forall x, assoc "DomainValidationOptions" bad_options = Some x -> (forall q, ~ alternative x here VNull q) /\
     forall e q, single x here (VDict e) q -> ~ is_call (VDict e) -> plain_object e /\ forall n, ~ members_look_at e n) /\
  (exists x q, assoc "DomainValidationOptions" bad_options = Some x /\ single x here (VDict (optioned (VStr "www.example.com") (VStr "example.org"))) q /\ ~ is_call (VDict (optioned (VStr "www.example.com") (VStr "example.org")))) /\
  option_fault (optioned (VStr "www.example.com") (VStr "example.org")) "DomainName" "ValidationDomain must be a superdomain of DomainName at " /\
  (forall key words, ~ option_fault (optioned (VStr "www.example.com") (VStr "example.com")) key words) /\
  option_fault (optioned (VStr "notexample.com") (VStr "example.com")) "DomainName" "ValidationDomain must be a superdomain of DomainName at " /\
  domains_run t = Ok ["ValidationDomain must be a superdomain of DomainName at Resources/R/Properties/DomainValidationOptions/0"].
Proof.
  cbv zeta. split; [apply wfb_sound; reflexivity|]. split; [|split; [|split; [|split; [|split]]]].
  - intros x [= <-]. split; [intros q K; inversion K|]. intros e q Hs _.
    inversion Hs as [v p' w' q' K Hn|v p' l' q' i x w' r' K Hi Ha]; subst; inversion K; subst.
    destruct i as [|[|[|i]]]; try discriminate Hi; injection Hi as <-; inversion Ha; subst; apply texts_plain; discriminate.
  - eexists. eexists. split; [reflexivity|]. split.
    + eapply sg_item with (i := 0); [apply alt_leaf; [intros [y E]; discriminate E | discriminate] | reflexivity | apply alt_leaf; [intros [y E]; discriminate E | discriminate]].
    + intros [fn [a [E _]]]. discriminate E.
  - apply (of_domain _ "www.example.com" "example.org"); [reflexivity | reflexivity|]. rewrite below_iff. intros [K|[u K]]; discriminate K.
  - intros key words K. destruct K as [n v [= <-] [= <-] K]. apply K. right. now exists "www".
  - apply (of_domain _ "notexample.com" "example.com"); [reflexivity | reflexivity|]. rewrite below_iff. intros [K|[u K]]; discriminate K.
  - vm_compute. reflexivity.
Qed.
Definition optioned_by : list (string * val) := optioned (if_ "IsProd" (VStr "a.example.com") (VStr "a.example.org")) (VStr "example.org").
Lemma option_conditional_example :
  plain_object optioned_by /\ (forall n, In n ["IsProd"] <-> members_look_at optioned_by n) /\
  (exists d', deployed env_bools optioned_by d' /\ option_fault d' "DomainName" "ValidationDomain must be a superdomain of DomainName at ") /\
  rmap (map rm_msg) (check_option (fun l => l) (load toy_hash 9 env) (VDict optioned_by) (props_path "R")) =
    Ok ["ValidationDomain must be a superdomain of DomainName at Resources/R/Properties when condition ""IsProd"" is True"].
Proof.
  split; [|split; [|split]].
  - split; [apply nodupb_sound; reflexivity|]. split; [discriminate|]. intros k x [[= <- <-]|[[= <- <-]|[]]]; [apply pi_if; apply pi_str | apply pi_str].
  - intros n. split.
    + intros [<-|[]]. exists "DomainName". eexists. split; [now left | apply la_here].
    + intros [k [x [Hi H]]]. destruct Hi as [E|[E|[]]]; injection E as <- <-; inversion H; subst; try (now left); match goal with K : looks_at _ _ |- _ => inversion K end.
  - exists (optioned (VStr "a.example.com") (VStr "example.org")). split.
    + apply rm_keep; [apply r_then; [reflexivity | apply r_str] | apply rm_keep; [apply r_str | apply rm_nil]].
    + apply (of_domain _ "a.example.com" "example.org"); [reflexivity | reflexivity|]. rewrite below_iff. intros [K|[u K]]; discriminate K.
  - vm_compute. reflexivity.
Qed.
(** A name that only ends in the letters of the zone is accepted. *)
Lemma zone_boundary_witness : ~ below_domain "example.com" "notexample.com" /\
  zones_match (fun l => l) (load toy_hash 9 env) (VDict (zoned (VStr "notexample.com.") (VStr "example.com."))) (props_path "R") = Ok [].
Proof. split; [rewrite below_iff; intros [K|[u K]]; discriminate K | vm_compute; reflexivity]. Qed.
(** Every name is in the root zone, and is reported there. *)
Lemma root_zone_witness : rmap (map rm_msg) (zones_match (fun l => l) (load toy_hash 9 env) (VDict (zoned (VStr "com.") (VStr "."))) (props_path "R")) =
  Ok ["Name must be a superdomain of HostedZoneName at Resources/R/Properties"].
Proof. vm_compute. reflexivity. Qed.
(** Empty texts end the check with an exception. *)
Lemma empty_name_witness : forall n z, n = "" \/ z = "" -> zones_match (fun l => l) (load toy_hash 9 env) (VDict (zoned (VStr n) (VStr z))) (props_path "R") = Err EIndex.
Proof.
  intros n z H. unfold zones_match. rewrite (sets_plain (fun l => l) (fun l => Permutation_refl l)).
  - cbn [bind concat_res]. unfold zone_of_set. cbn [snd fst vget bind zoned]. change (assoc "Name" (zoned (VStr n) (VStr z))) with (Some (VStr n)). change (assoc "HostedZoneName" (zoned (VStr n) (VStr z))) with (Some (VStr z)). cbv iota.
    destruct (SubProps.last_char z) eqn:Ez; [|reflexivity]. destruct H as [-> | ->]; [reflexivity | discriminate Ez].
  - now apply texts_plain.
  - apply zone_part_if.
  - intros k K. apply part_group in K; [|discriminate]. apply group_members in K. revert K. now apply texts_plain.
  - discriminate.
Qed.
