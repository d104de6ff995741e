(** Cases for C103. *)
From Coq Require Import List Arith Lia Bool ZArith Ascii String.
From Verif.Model Require Import Base Node Locate Helpers Rules Runner Config Core Refs Startup Overriding.
From Verif.Spec Require Import Paths Options Patterns Overriding.
From Verif.Proofs Require Import BaseFacts WfDecide PatternProofs OverridingProofs.
Import Verif.Model.Rules.
Import ListNotations.
Local Open Scope string_scope.

Definition old_specs : specs :=
  [("us-east-1", VDict [("ResourceTypes", VDict [("AWS::EC2::VPC", VDict [("Documentation", VStr "vpc")]); ("AWS::S3::Bucket", VDict [("Documentation", VStr "s3")])]); ("PropertyTypes", VDict [])]);
   ("eu-west-1", VDict [("ResourceTypes", VDict [("AWS::S3::Bucket", VDict [])])])].
Definition new_doc : list (string * val) :=
  [("ExcludeResourceTypes", VList [VStr "AWS::EC2::*"]);
   ("ResourceTypes", VDict [("AWS::EC2::Host", VDict [("Documentation", VStr "x")]); ("AWS::S3::Bucket", VDict [("Documentation", VStr "mine")])])].
Definition read_new (f : string) : reading := if String.eqb f "spec.json" then Read (VDict new_doc) else IOErr 2.
Lemma new_fits : wf (VDict new_doc) /\ fitting new_doc [] ["AWS::EC2::*"] old_specs.
Proof.
  split; [apply wfb_sound; reflexivity|]. split; [left; split; reflexivity|]. split; [right; reflexivity|]. split; [intros x [= <-]; eexists; reflexivity|].
  intros region v [[= <- <-] | [[= <- <-] | []]]; (split; [cbn; tauto|]); eexists; reflexivity.
Qed.
Lemma new_specs : override_specs read_new "spec.json" old_specs =
  Now [("us-east-1", VDict [("ResourceTypes", VDict [("AWS::S3::Bucket", VDict [("Documentation", VStr "mine")])]); ("PropertyTypes", VDict [])]);
       ("eu-west-1", VDict [("ResourceTypes", VDict [("AWS::S3::Bucket", VDict [("Documentation", VStr "mine")])])])].
Proof. reflexivity. Qed.
(** A pattern that is not in a list: its characters are the patterns, so that every type is there or none. *)
Lemma chars_star p : has_char "*" p = true -> In "*" (chars_of p).
Proof. induction p as [|c p IH]; [discriminate|]. cbn [has_char chars_of]. intros H. destruct (char_eqb c "*") eqn:E; [left; apply Ascii.eqb_eq in E; now subst | right; now apply IH]. Qed.
Lemma chars_single p x : In x (chars_of p) -> exists c, x = String c "" /\ (has_char "*" p = false -> c <> "*"%char).
Proof.
  induction p as [|c p IH]; intros []; cbn [has_char].
  - subst x. exists c. split; [reflexivity|]. intros H ->. discriminate H.
  - destruct (IH H) as (c' & -> & K). exists c'. split; [reflexivity|]. intros L. apply K. destruct (char_eqb c "*"); [discriminate L | exact L].
Qed.
Lemma single_fits c t : c <> "*"%char -> fits (String c "") t -> t = String c "".
Proof. intros N H. inversion H as [|c' p s Hc Hp|]; subst; [|now destruct N]. inversion Hp; subst. reflexivity. Qed.
Lemma text_pattern p types t d : p <> "" -> (forall n v, In (n, v) types -> 2 <= String.length n) ->
  assoc "ResourceTypes" d = Some (VDict types) ->
  exists out, set_region [("IncludeResourceTypes", VStr p)] (VDict d) = Ok out /\
    (at_keys ["ResourceTypes"; t] out <> None <-> has_char "*" p = true /\ at_keys ["ResourceTypes"; t] (VDict d) <> None).
Proof.
  intros N L T. unfold set_region. cbn [remove_key filter negb String.eqb fst]. cbn. rewrite T. destruct (String.eqb_spec p "") as [|_]; [contradiction|]. cbn.
  exists (VDict (set_assoc "ResourceTypes" (VDict (filter (fun kv => smem (fst kv) (spec_selected (chars_of p) [] (keys types))) types)) d)). split; [reflexivity|]. rewrite keep_filter. cbn [at_keys]. rewrite assoc_set_same,  (assoc_filter_keys (passing (chars_of p) [])). destruct (passing (chars_of p) [] t) eqn:P.
  - apply passing_iff in P. destruct P as [[P | (i & Hi & Fi)] _]; [destruct p; [now destruct N | discriminate P]|]. split; [|tauto]. intros K. split; [|exact K].
    destruct (has_char "*" p) eqn:S; [reflexivity|]. exfalso. destruct (chars_single _ _ Hi) as (c & -> & Hc). apply (single_fits c t (Hc S)) in Fi. subst t.
    destruct (assoc (String c "") types) as [x|] eqn:A; [|now apply K]. apply assoc_In in A. apply L in A. cbn in A. lia.
  - split; [congruence|]. intros [S _]. exfalso. enough (passing (chars_of p) [] t = true) by congruence. apply passing_iff. split; [|intros e []]. right. exists "*". split; [now apply chars_star|].
    rewrite <- (append_nil_r t). apply ft_star. constructor.
Qed.
(** A document that is no object. *)
Lemma other_document read f l s : read f = Read (VList l) -> l <> [] -> s <> [] -> exists e, override_specs read f s = Throws e.
Proof.
  intros R N M. unfold override_specs. rewrite R. cbn [set_all_specs]. destruct (existsb _ l); [now eexists|]. destruct l; [now destruct N|]. destruct s as [|[r x] s]; [now destruct M|]. now eexists.
Qed.
