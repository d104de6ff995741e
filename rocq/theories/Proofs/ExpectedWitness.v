(** Samples and counterexamples for C65. *)
From Coq Require Import List String Bool Lia PeanoNat ZArith.
From Verif.Model Require Import Base Locate Helpers Node Conditions Search Resolve Rules Refs Relationship Limits Parameters JsonDump PropertyRules Functions ValueRules PropertyTree.
From Verif.Spec Require Import Paths Branches References Attributes Expected.
From Verif.Proofs Require Import BaseFacts WfDecide SearchProofs ValueProofs ValueRefProofs ExpectedProofs ValueWitness.
Import Verif.Model.Rules.
Import ListNotations.
Local Open Scope string_scope.

(** * A sample *)
Definition text_prop : mspec := mkMS None None (Some "String") None.
Definition tree_resources : list (string * ospec) :=
  [("AWS::Test::Server", mkOS [("Name", text_prop); ("Options", mkMS None None (Some "Json") None); ("Tags", mkMS (Some "List") (Some "Tag") None None);
                               ("Zones", mkMS (Some "List") None None (Some "String")); ("Code", mkMS (Some "Code") None None None)] None None false);
   ("AWS::CloudFormation::CustomResource", mkOS [("ServiceToken", text_prop)] None None true)].
Definition tree_properties : list (string * ospec) :=
  [("Tag", mkOS [("Key", text_prop); ("Value", text_prop)] None None false);
   ("AWS::Test::Server.Code", mkOS [("Bucket", text_prop)] None None false)].
Definition tree_intrinsics : list (string * list string) := [("Fn::Sub", ["Singular"]); ("Fn::If", ["List"; "Singular"]); ("Fn::GetAZs", ["List"])].
Definition server_of (props : list (string * val)) : val := VDict [("Type", VStr "AWS::Test::Server"); ("Properties", VDict props)].
Definition tag (k v : val) : val := VDict [("Key", k); ("Value", v)].
Definition tree_template (props : list (string * val)) : val :=
  VDict [("Parameters", VDict [("One", VDict [("Type", VStr "String")]); ("Many", VDict [("Type", VStr "CommaDelimitedList")])]);
         ("Resources", VDict [("Custom", VDict [("Type", VStr "Custom::Thing"); ("Properties", VDict [("Anything", VStr "x")])]);
                              ("Generic", VDict [("Type", VStr "AWS::CloudFormation::CustomResource")]);
                              ("Server", server_of props)])].
Definition run_tree (props : list (string * val)) : res (list rulematch) := properties_match tree_resources tree_properties tree_intrinsics (tree_template props).
Definition at_prop (rest : list pelem) : path := (PKey "Resources" :: PKey "Server" :: PKey "Properties" :: rest)%list.

Definition good_props : list (string * val) :=
  [("Name", alt "C" (VStr "a") (VDict [("Fn::Sub", VStr "b")])); ("Options", VDict [("x", VInt 1); ("y", VInt 2)]);
   ("Tags", alt "C" (VList [tag (VStr "k") (VStr "v")]) (getatt "Custom.Tags")); ("Zones", ref "Many"); ("Code", VDict [("Bucket", ref "One")])].
Lemma good_run : run_tree good_props = Ok [].
Proof. reflexivity. Qed.
Definition bad_props : list (string * val) :=
  [("Name", alt "C" (VList []) (VDict [("Fn::Odd", VStr "b")])); ("Typo", VStr "x");
   ("Tags", alt "C" (VList [VDict [("Key", VStr "k"); ("Val", VStr "v")]; VStr "text"]) (getatt "Server.Tags")); ("Zones", ref "One"); ("Code", VInt 3)].
Definition bad_found : list rulematch :=
  [mkRM (at_prop [PKey "Name"; PKey "Fn::If"; PIdx 1]) "Property should be of type String not List at Resources/Server/Properties/Name/Fn::If/1";
   mkRM (at_prop [PKey "Name"; PKey "Fn::If"; PIdx 2]) "Property Resources/Server/Properties/Name/Fn::If/2 has an illegal function Fn::Odd";
   mkRM (at_prop [PKey "Typo"]) "Invalid Property Resources/Server/Properties/Typo";
   mkRM (at_prop [PKey "Tags"; PKey "Fn::If"; PIdx 1; PIdx 0; PKey "Val"]) "Invalid Property Resources/Server/Properties/Tags/Fn::If/1/0/Val";
   mkRM (at_prop [PKey "Tags"; PKey "Fn::If"; PIdx 1; PIdx 1]) "Expecting an object at Resources/Server/Properties/Tags/Fn::If/1/1";
   mkRM (at_prop [PKey "Tags"; PKey "Fn::If"; PIdx 2]) "Property Tags should be of type List for resource Server at Resources/Server/Properties/Tags/Fn::If/2";
   mkRM (at_prop [PKey "Zones"]) "Property Zones should be of type List or Parameter should be a list for resource Server";
   mkRM (at_prop [PKey "Code"]) "Expecting an object at Resources/Server/Properties/Code"].
Lemma bad_run : run_tree bad_props = Ok bad_found.
Proof. reflexivity. Qed.

(** ** The hypotheses *)
Lemma tree_wf : wf (tree_template bad_props).
Proof. apply wfb_sound. reflexivity. Qed.
Lemma tree_plain : plain_sections (tree_template bad_props).
Proof.
  eexists. split; [reflexivity|]. intros section s Hs E. destruct Hs as [<-|[<-|[]]]; injection E as <-; eexists; (split; [reflexivity|]).
  - intros n x [[= <- <-]|[[= <- <-]|[]]]; eexists; (split; [reflexivity|]); (split; [discriminate | reflexivity]).
  - intros n x [[= <- <-]|[[= <- <-]|[[= <- <-]|[]]]]; eexists; (split; [reflexivity|]); (split; [|reflexivity]); intros _ t [= <-]; eauto.
Qed.
Lemma tree_types : text_types (tree_template bad_props).
Proof.
  intros name x [d [ps [[= <-] [[= <-] E]]]]. cbn [assoc] in E. destruct (String.eqb name "One"); [|destruct (String.eqb name "Many"); [|discriminate]]; injection E as <-; eexists; eexists; split; reflexivity.
Qed.
Lemma tree_complete parent : In parent (keys tree_resources) -> complete tree_resources tree_properties parent.
Proof.
  intros Hp. destruct Hp as [<-|[<-|[]]]; intros root t os _ Hos.
  - destruct root.
    + injection Hos as <-. split; [|split].
      * intros t' Hm. inversion Hm as [prop ms t2 A B C D|prop ms t2 A B C D|t2 A]; subst; [| |discriminate]; cbn [os_props assoc] in A;
          destruct (String.eqb prop "Name"); [injection A as <-; discriminate| |injection A as <-; discriminate|];
          (destruct (String.eqb prop "Options"); [injection A as <-; discriminate|]);
          (destruct (String.eqb prop "Tags"); [injection A as <-|]).
        -- injection B as <-. congruence.
        -- destruct (String.eqb prop "Zones"); [injection A as <-; injection B as <-; congruence|]. destruct (String.eqb prop "Code"); [|discriminate]. injection A as <-. injection B as <-. eexists. left. reflexivity.
        -- injection D as <-. eexists. right. split; [|reflexivity]. intros [K|[K|[]]]; discriminate.
        -- destruct (String.eqb prop "Zones"); [injection A as <-; discriminate|]. destruct (String.eqb prop "Code"); [injection A as <-; discriminate | discriminate].
      * intros prop ms A B C. cbn [os_props assoc] in A. destruct (String.eqb prop "Name"); [injection A as <-; discriminate|]. destruct (String.eqb prop "Options"); [injection A as <-; discriminate|].
        destruct (String.eqb prop "Tags"); [injection A as <-; discriminate|]. destruct (String.eqb prop "Zones"); [injection A as <-; discriminate|]. destruct (String.eqb prop "Code"); [injection A as <-; discriminate | discriminate].
      * discriminate.
    + assert (Hcase : os = mkOS [("Key", text_prop); ("Value", text_prop)] None None false \/ os = mkOS [("Bucket", text_prop)] None None false).
      { destruct Hos as [E|[_ E]]; apply assoc_In in E; destruct E as [[= _ <-]|[[= _ <-]|[]]]; auto. }
      assert (Hprim : forall prop ms, assoc prop (os_props os) = Some ms -> ms_type ms = None).
      { intros prop ms A. apply assoc_In in A. destruct Hcase as [-> | ->]; cbn [os_props In] in A; [destruct A as [[= _ <-]|[[= _ <-]|[]]] | destruct A as [[= _ <-]|[]]]; reflexivity. }
      assert (Hne : os_props os <> []) by (destruct Hcase as [-> | ->]; discriminate).
      split; [|split].
      * intros t' Hm. inversion Hm as [prop ms t2 A B|prop ms t2 A B|t2 A]; subst; [rewrite (Hprim _ _ A) in B; discriminate | rewrite (Hprim _ _ A) in B; discriminate | contradiction].
      * intros prop ms A B. rewrite (Hprim _ _ A) in B. discriminate.
      * contradiction.
  - assert (Hcase : os = mkOS [("ServiceToken", text_prop)] None None true \/ os = mkOS [("Key", text_prop); ("Value", text_prop)] None None false \/ os = mkOS [("Bucket", text_prop)] None None false).
    { destruct root; [injection Hos as <-; auto|]. destruct Hos as [E|[_ E]]; apply assoc_In in E; destruct E as [[= _ <-]|[[= _ <-]|[]]]; auto. }
    assert (Hprim : forall prop ms, assoc prop (os_props os) = Some ms -> ms_type ms = None).
    { intros prop ms A. apply assoc_In in A. destruct Hcase as [-> |[-> | ->]]; cbn [os_props In] in A; [destruct A as [[= _ <-]|[]] | destruct A as [[= _ <-]|[[= _ <-]|[]]] | destruct A as [[= _ <-]|[]]]; reflexivity. }
    assert (Hne : os_props os <> []) by (destruct Hcase as [-> |[-> | ->]]; discriminate).
    split; [|split].
    + intros t' Hm. inversion Hm as [prop ms t2 A B|prop ms t2 A B|t2 A]; subst; [rewrite (Hprim _ _ A) in B; discriminate | rewrite (Hprim _ _ A) in B; discriminate | contradiction].
    + intros prop ms A B. rewrite (Hprim _ _ A) in B. discriminate.
    + contradiction.
Qed.
Lemma inside_sub v w : inside v w -> In w (subvals v).
Proof. induction 1 as [v|l x w Hx _ IH|d k x w Hx _ IH]; [apply sub_self | eapply sub_item; eassumption | eapply sub_member; eassumption]. Qed.
Definition judgeableb (template w : val) : bool :=
  match w with
  | VDict [(k, x)] =>
      if String.eqb k "Fn::If" then is_list x
      else if String.eqb k "Fn::GetAtt" then
        match getatt_owner x with
        | Ok (Some n) => match n, resource_type_of template n with VStr _, Ok (VStr _) => true | _, _ => false end
        | _ => false
        end
      else true
  | _ => true
  end.
Lemma judgeableb_sound template v : forallb (judgeableb template) (subvals v) = true -> judgeable template v.
Proof.
  rewrite forallb_forall. intros H. split; intros x Hx; apply inside_sub, H in Hx.
  - cbn in Hx. destruct x; try discriminate. eauto.
  - unfold judgeableb in Hx. cbn [String.eqb] in Hx. change (match getatt_owner x with
        | Ok (Some n) => match n, resource_type_of template n with VStr _, Ok (VStr _) => true | _, _ => false end
        | _ => false end = true) in Hx. destruct (getatt_owner x) as [[n|]|] eqn:Eo; try discriminate. destruct n as [| | | |n| |]; try discriminate.
    destruct (resource_type_of template (VStr n)) as [[| | | |t| |]|] eqn:Et; try discriminate. apply resource_type_text in Et. exists n, t. split; [|exact Et].
    destruct x as [| | | |s|l|]; try discriminate.
    + apply owner_text. cbn [getatt_owner] in Eo. destruct (split_on "." s) as [|z rest] eqn:Er; [discriminate|]. exists rest. congruence.
    + cbn [getatt_owner] in Eo. destruct l as [|z rest]; [discriminate|]. injection Eo as ->. constructor.
Qed.
Lemma tree_judgeable name rt props : described_resource tree_resources (tree_template bad_props) name rt props -> judgeable (tree_template bad_props) props.
Proof.
  intros [o [rt' [[d [s [[= <-] [[= <-] E]]]] [_ [Ep _]]]]]. cbn [assoc] in E. destruct (String.eqb name "Custom"); [injection E as <-; injection Ep as <-; apply judgeableb_sound; reflexivity|].
  destruct (String.eqb name "Generic"); [injection E as <-; discriminate|]. destruct (String.eqb name "Server"); [|discriminate]. injection E as <-. injection Ep as <-. apply judgeableb_sound. reflexivity.
Qed.

(** * Counterexamples *)
(** A Fn::GetAtt of a resource that is not there raises an exception. *)
Lemma c65_getatt_refuted : exists props, run_tree props = Err EAttribute.
Proof. exists [("Tags", getatt "Missing.Tags")]. reflexivity. Qed.
(** A text as a branch of a condition is accepted where a text alone is reported. *)
Lemma c65_branch_refuted : exists c a b, run_tree [("Code", alt c a b)] = Ok [] /\ (exists m, run_tree [("Code", a)] = Ok [m]) /\ exists m, run_tree [("Code", b)] = Ok [m].
Proof. exists "C", (VStr "a"), (VStr "b"). split; [reflexivity|]. split; eexists; reflexivity. Qed.
(** What is found in a condition inside a condition is reported at a place that is not in the template. *)
Definition nested_tags : list (string * val) := [("Tags", alt "C" (alt "D" (VStr "a") (VList [])) (VList []))].
Lemma c65_place_refuted : exists m, run_tree nested_tags = Ok [m] /\ at_path (rm_path m) (tree_template nested_tags) = None.
Proof. eexists. split; reflexivity. Qed.
(** A custom resource of the generic type may give a list, but not as a branch. *)
Lemma c65_generic_refuted : run_tree [("Tags", getatt "Generic.Tags")] = Ok [] /\ exists m, run_tree [("Tags", alt "C" (getatt "Generic.Tags") (VList []))] = Ok [m].
Proof. split; [reflexivity|]. eexists. reflexivity. Qed.
(** A property with part of the word Ref for a name passes for no value. *)
Lemma c65_part_refuted : run_tree [("R", VStr "AWS::NoValue")] = Ok [] /\ exists m, run_tree [("R", VStr "x")] = Ok [m].
Proof. split; [reflexivity|]. eexists. reflexivity. Qed.
(** The branches of a condition for a list of texts are not looked at. *)
Lemma c65_texts_refuted : exists x, (exists m, run_tree [("Zones", x)] = Ok [m]) /\ run_tree [("Zones", alt "C" x x)] = Ok [].
Proof. exists (VList [VList []]). split; [eexists; reflexivity | reflexivity]. Qed.
