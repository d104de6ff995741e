(** The rules about intrinsic functions as a whole (C32, C52 to C56), witnesses and counterexamples. *)
From Coq Require Import Lia ZArith QArith Permutation.
From Verif.Model Require Import Base Helpers Rules Search Refs ConditionRules Relationship Limits Parameters Policies Functions.
From Verif.Spec Require Import Paths References ParameterUse ConditionUse FunctionArguments Attributes.
From Verif.Proofs Require Import BaseFacts SearchProofs ConditionUseProofs PlaceholderProofs WfDecide FunctionProofs CidrProofs MapProofs AttributeProofs JoinProofs SubProofs.
Import Verif.Model.Rules.
Local Open Scope string_scope.

Section Main.
Variables template globals : val.
Hypothesis Hw : wf template.
Hypothesis Hg : wf globals.
Lemma total_judged f check fault : checks f check fault -> (forall p v, exists ms, check p v = Ok ms) ->
  exists ms, each template globals f check = Ok ms /\ judged f template globals fault ms.
Proof using Hw Hg.
  intros Hc Ht. destruct (each_total template globals Hw Hg f check) as [ms E]; [intros p v _; apply Ht|]. exists ms. split; [exact E|]. now apply (judged_each template globals Hw Hg f check).
Qed.
End Main.
Lemma c32_base64 template globals : wf template -> wf globals -> exists ms, base64_match template globals = Ok ms /\ judged "Fn::Base64" template globals (unless base64_ok) ms.
Proof. intros Hw Hg. apply total_judged; auto; [exact base64_checks | intros p v; eexists; reflexivity]. Qed.
Lemma c32_not template globals : wf template -> wf globals -> exists ms, not_match template globals = Ok ms /\ judged "Fn::Not" template globals (unless list_ok) ms.
Proof. intros Hw Hg. apply total_judged; auto; [exact not_checks | intros p v; eexists; reflexivity]. Qed.
Lemma c32_ref template globals : wf template -> wf globals -> exists ms, ref_text_match template globals = Ok ms /\ judged "Ref" template globals (unless text) ms.
Proof. intros Hw Hg. apply total_judged; auto; [exact ref_checks | intros p v; eexists; reflexivity]. Qed.
Lemma c32_getaz template globals regions : wf template -> wf globals -> exists ms, getaz_match template globals regions = Ok ms /\
  judged "Fn::GetAZs" template globals (fun p v r => r = [] /\ (text v \/ object v) /\ ~ getaz_ok regions v) ms.
Proof. intros Hw Hg. apply total_judged; auto; [exact (getaz_checks regions) | intros p v; eexists; reflexivity]. Qed.
Lemma c32_import template globals : wf template -> wf globals -> exists ms, import_match template globals = Ok ms /\ judged "Fn::ImportValue" template globals import_fault ms.
Proof. intros Hw Hg. apply total_judged; auto; [exact import_checks | intros p v; eexists; reflexivity]. Qed.
Lemma c32_split template globals : wf template -> wf globals -> exists ms, split_match template globals = Ok ms /\ judged "Fn::Split" template globals split_fault ms.
Proof. intros Hw Hg. apply total_judged; auto; [exact split_checks | intros p v; eexists; reflexivity]. Qed.
Lemma c32_select template globals py_int ms : wf template -> wf globals -> select_match template globals py_int = Ok ms ->
  judged "Fn::Select" template globals (unless (select_ok py_int)) ms.
Proof. intros Hw Hg. apply judged_each; auto. apply select_checks. Qed.
Lemma concat_res_all {A B} (f : A -> res (list B)) l ys x : concat_res f l = Ok ys -> In x l -> exists a, f x = Ok a.
Proof. intros E Hi. apply concat_res_inv in E as [g [Hg _]]. exists (g x). now apply Hg. Qed.
Lemma c32_select_fails template globals py_int : wf template -> wf globals ->
  ((exists ms, select_match template globals py_int = Ok ms) <->
   forall p i l, occurs "Fn::Select" template globals p (VList [i; l]) -> i <> VNull /\ ~ list_ok i).
Proof.
  intros Hw Hg. split.
  - intros [ms E] p i l Ho. unfold select_match, each in E.
    assert (Hi : In ((p ++ [PKey "Fn::Select"])%list, VList [i; l]) (search_deep_keys "Fn::Select" template globals)) by (apply in_search_deep; eauto).
    destruct (concat_res_all _ _ _ _ E Hi) as [a Ea]. cbn [fst snd select_check] in Ea. split; [intros -> | intros [l' ->]]; discriminate.
  - intros H. apply each_total; auto. intros p v Ho. destruct v as [| | | | |l|]; try (eexists; reflexivity). destruct l as [|i [|l [|? ?]]]; try (eexists; reflexivity).
    destruct (H p i l Ho) as [H1 H2]. cbn [select_check]. destruct i as [| | | | |x|[|[k x] [|? ?]]]; try (eexists; reflexivity); [contradiction | exfalso; apply H2; eexists; reflexivity].
Qed.
(** I1022: joining with the empty text. *)
Lemma c32_not_join template globals ms : wf template -> wf globals -> sub_not_join_match template globals = Ok ms ->
  judged "Fn::Join" template globals (fun p v r => r = [] /\ exists rest, v = VList (VStr "" :: rest)) ms.
Proof.
  intros Hw Hg. apply judged_each; auto. apply checks_places. intros p v a E.
  assert (Hn : (forall rest, v <> VList (VStr "" :: rest)) -> a = [] -> places (p ++ [PKey "Fn::Join"])%list a (fun r => r = [] /\ exists rest, v = VList (VStr "" :: rest))).
  { intros H ->. apply places_nil. intros r [_ [rest ->]]. now apply (H rest). }
  destruct v as [|b|z|q|s|l|d]; try (injection E as <-; apply Hn; [discriminate | reflexivity]). destruct l as [|x l]; [discriminate|].
  destruct x as [|b|z|q|s|l'|d]; try (injection E as <-; apply Hn; [discriminate | reflexivity]). cbn [sub_not_join_check] in E.
  destruct (String.eqb_spec s "") as [->|Hs]; injection E as <-; [|apply Hn; [intros rest [= -> _]; contradiction | reflexivity]].
  apply places_here. intros r. split; [now intros [-> _] | intros ->; eauto].
Qed.

(** * Samples *)
Definition shop_types : list (string * option (list (string * attspec))) :=
  [("AWS::EC2::Subnet", Some [("AvailabilityZone", mkAtt None None); ("Ipv6CidrBlocks", mkAtt (Some "List") (Some "String"))]);
   ("AWS::SC::Product", Some [("Outputs", mkAtt (Some "Map") None); ("Id", mkAtt None None)]);
   ("AWS::SNS::Topic", None)].
Lemma plain_attributes (atts : list (string * attspec)) : NoDup (map fst atts) -> ~ In "*" (map fst atts) -> (forall a, In a (map fst atts) -> split_dot a = None) ->
  NoDup (map fst atts) /\ ~ In "*" (map fst atts) /\ forall a b, dotless a -> In a (map fst atts) -> ~ In (a ++ "." ++ b) (map fst atts).
Proof. intros H1 H2 H3. split; [exact H1|]. split; [exact H2|]. intros a b _ _ Hi. apply (dot_dotless a b). apply split_dot_none. now apply H3. Qed.
Lemma shop_types_plain : plain_types shop_types.
Proof.
  intros t atts H. unfold shop_types in H. cbn [assoc] in H. apply plain_attributes; (destruct (String.eqb t "AWS::EC2::Subnet"); [injection H as <-|destruct (String.eqb t "AWS::SC::Product"); [injection H as <-|destruct (String.eqb t "AWS::SNS::Topic"); discriminate]]);
    cbn [map fst].
  1-2: repeat constructor; cbn; intuition discriminate.
  1-2: cbn; intuition discriminate.
  1-2: intros a [<-|[<-|[]]]; reflexivity.
Qed.
Definition call (f : string) (v : val) : val := VDict [(f, v)].
(** A template whose topic has the given properties. *)
Definition shop (ps : list (string * val)) : val :=
  VDict [("Parameters", VDict [("Count", VDict [("Type", VStr "Number"); ("MinValue", VInt 1); ("MaxValue", VInt 300)]); ("Zones", VDict [("Type", VStr "List<String>")])]);
         ("Mappings", VDict [("Images", VDict [("east", VDict [("arm", VStr "ami-1")])])]);
         ("Conditions", VDict [("Odd", call "Fn::Equals" (VList [call "Ref" (VStr "Net"); VStr "x"]))]);
         ("Resources", VDict [("Net", VDict [("Type", VStr "AWS::EC2::Subnet")]); ("Product", VDict [("Type", VStr "AWS::SC::Product")]); ("Own", VDict [("Type", VStr "Custom::Thing")]);
                              ("Topic", VDict [("Type", VStr "AWS::SNS::Topic"); ("Properties", VDict ps)])])].
Definition at_topic (p : path) : path := ([PKey "Resources"; PKey "Topic"; PKey "Properties"] ++ p)%list.
Definition nothing : val := VDict [].
Definition show (v : val) : string := "?".
Definition digits (s : string) : bool := match s with String a "" => char_eqb a "1" | _ => false end.
Definition finds (ms : res (list rulematch)) (ps : list path) : Prop := match ms with Ok ms => map rm_path ms = ps | Err _ => False end.

Definition shapes : val := shop [
  ("A", call "Fn::Base64" (VList [])); ("B", call "Fn::Base64" (VStr "x"));
  ("C", call "Fn::Not" (VStr "x")); ("D", call "Ref" (VList []));
  ("E", call "Fn::GetAZs" (VStr "moon-1")); ("F", call "Fn::GetAZs" (call "Ref" (VStr "AWS::Region")));
  ("G", call "Fn::ImportValue" (call "Fn::GetAtt" (VStr "Net.AvailabilityZone"))); ("H", call "Fn::ImportValue" (VStr "Other"));
  ("I", call "Fn::Select" (VList [VStr "one"; VList []])); ("J", call "Fn::Select" (VList [VStr "1"; call "Fn::GetAZs" (VStr "")]));
  ("K", call "Fn::Split" (VList [VInt 1; call "Fn::Nope" VNull])); ("L", call "Fn::Split" (VList [VStr ","; VStr "a,b"]));
  ("M", call "Fn::Cidr" (VList [VStr "10.0.0.0/16"; call "Ref" (VStr "Count"); VInt 8])); ("N", call "Fn::Cidr" (VList [VStr "10.0.0.256/16"; VInt 1; VInt 8]));
  ("O", call "Fn::FindInMap" (VList [VStr "Images"; VStr "east"; VStr "arm"])); ("P", call "Fn::FindInMap" (VList [VStr "None"; VStr "west"; VList []]));
  ("Q", call "Fn::FindInMap" (VList [VStr "Images"; VStr "west"; VStr "arm"]))].
Lemma shapes_wf : wf shapes.
Proof. apply wfb_sound. reflexivity. Qed.
Lemma nothing_wf : wf nothing.
Proof. apply wfb_sound. reflexivity. Qed.
Lemma shop_plain ps : plain_sections (shop ps).
Proof.
  eexists. split; [reflexivity|]. intros section s Hi Hs. assert (Ho : forall l : list (string * val), (forall n x, In (n, x) l -> exists o, x = VDict o /\ (forall t, assoc "Type" o = Some t -> exists u, t = VStr u) /\ ends_with ".*" n = false) ->
    exists m, VDict l = VDict m /\ forall n x, In (n, x) m -> exists o, x = VDict o /\ (section = "Resources" -> forall t, assoc "Type" o = Some t -> exists u, t = VStr u) /\ ends_with ".*" n = false).
  { intros l H. exists l. split; [reflexivity|]. intros n x Hn. destruct (H n x Hn) as [o [E [H1 H2]]]. exists o. auto. }
  destruct Hi as [<-|[<-|[]]]; injection Hs as <-; apply Ho; clear; cbn [In]; intros n x H.
  - destruct H as [[= <- <-]|[[= <- <-]|[]]]; (eexists; split; [reflexivity|]; split; [intros t [= <-]; eauto | reflexivity]).
  - destruct H as [[= <- <-]|[[= <- <-]|[[= <- <-]|[[= <- <-]|[]]]]]; (eexists; split; [reflexivity|]; split; [intros t [= <-]; eauto | reflexivity]).
Qed.
Lemma shop_dotless ps : dotless_parameters (shop ps).
Proof.
  intros n o [d [s [E1 [E2 E3]]]]. injection E1 as <-. injection E2 as <-. cbn [assoc] in E3. apply split_dot_none.
  destruct (String.eqb_spec n "Count") as [->|_]; [reflexivity|]. destruct (String.eqb_spec n "Zones") as [->|_]; [reflexivity | discriminate].
Qed.
Lemma shop_mappings ps : plain_maps (shop ps) /\ plain_mappings (shop ps) /\ plain_parameters (shop ps).
Proof.
  split; [|split]; (eexists; split; [reflexivity|]; intros x [= <-]).
  - eexists. split; [reflexivity|]. intros n y [[= <- <-]|[]]. eexists. split; [reflexivity|]. intros k z [[= <- <-]|[]]. eexists. reflexivity.
  - eexists. reflexivity.
  - eexists. split; [reflexivity|]. intros n y [[= <- <-]|[[= <- <-]|[]]]; eexists; reflexivity.
Qed.
Definition ref_fault : path := at_topic [PKey "D"; PKey "Ref"].
Lemma shapes_found :
  finds (base64_match shapes nothing) [at_topic [PKey "A"; PKey "Fn::Base64"]] /\
  finds (not_match shapes nothing) [at_topic [PKey "C"; PKey "Fn::Not"]] /\
  finds (ref_text_match shapes nothing) [ref_fault] /\
  finds (getaz_match shapes nothing ["us-east-1"]) [at_topic [PKey "E"; PKey "Fn::GetAZs"]] /\
  finds (import_match shapes nothing) [at_topic [PKey "G"; PKey "Fn::ImportValue"]] /\
  finds (select_match shapes nothing digits) [at_topic [PKey "I"; PKey "Fn::Select"]] /\
  finds (split_match shapes nothing) [at_topic [PKey "K"; PKey "Fn::Split"; PIdx 0]; at_topic [PKey "K"; PKey "Fn::Split"; PKey "Fn::Nope"]] /\
  finds (cidr_match shapes nothing show (fun l => l)) [at_topic [PKey "N"; PKey "Fn::Cidr"; PIdx 0]; [PKey "Parameters"; PKey "Count"; PKey "MaxValue"]] /\
  finds (find_in_map_match shapes nothing) [at_topic [PKey "P"; PKey "Fn::FindInMap"; PIdx 0]; at_topic [PKey "P"; PKey "Fn::FindInMap"; PIdx 2]].
Proof. repeat (apply conj); vm_compute; reflexivity. Qed.
Lemma keys_found : finds (find_keys_match shapes nothing show) [at_topic [PKey "Q"; PKey "Fn::FindInMap"; PIdx 1]].
Proof. vm_compute. reflexivity. Qed.

Definition joins : val := shop [
  ("A", call "Fn::Join" (VList [VStr ","; VList [VStr "a"; call "Ref" (VStr "Count"); call "Fn::GetAtt" (VStr "Net.AvailabilityZone")]]));
  ("B", call "Fn::Join" (VList [VStr ","; call "Ref" (VStr "Zones")]));
  ("C", call "Fn::Join" (VList [VStr ","; call "Fn::GetAtt" (VList [VStr "Net"; VStr "Ipv6CidrBlocks"])]));
  ("D", call "Fn::Join" (VList [VStr ","; call "Fn::GetAtt" (VStr "Own.Anything")]));
  ("E", call "Fn::Join" (VList [VStr ","; call "Ref" (VStr "Count")]));
  ("F", call "Fn::Join" (VList [VStr ""; VList [call "Fn::GetAtt" (VStr "Net.Ipv6CidrBlocks")]]));
  ("G", call "Fn::Join" (VList [VStr ","; VList [call "Fn::GetAZs" (VStr "")]]))].
Lemma joins_wf : wf joins.
Proof. apply wfb_sound. reflexivity. Qed.
Lemma joins_found : finds (join_match joins nothing shop_types) [at_topic [PKey "E"; PKey "Fn::Join"]; at_topic [PKey "F"; PKey "Fn::Join"]; at_topic [PKey "G"; PKey "Fn::Join"]] /\
  finds (sub_not_join_match joins nothing) [at_topic [PKey "F"; PKey "Fn::Join"]].
Proof. repeat (apply conj); vm_compute; reflexivity. Qed.

Definition getatts_sample : val := shop [
  ("A", call "Fn::GetAtt" (VStr "Net.AvailabilityZone")); ("B", call "Fn::GetAtt" (VList [VStr "Net"; VStr "AvailabilityZone"]));
  ("C", call "Fn::GetAtt" (VStr "Product.Outputs.Url")); ("D", call "Fn::GetAtt" (VStr "Own.Some.Thing")); ("E", call "Fn::GetAtt" (VList [VStr "Net"; call "Ref" (VStr "Count")]));
  ("F", call "Fn::GetAtt" (VStr "Net.Colour")); ("G", call "Fn::GetAtt" (VStr "Product.Id.Url")); ("H", call "Fn::GetAtt" (VStr "Topic.TopicName")); ("I", call "Fn::GetAtt" (VList [VStr "Net"; call "Fn::Sub" (VStr "x")]))].
Lemma getatts_wf : wf getatts_sample.
Proof. apply wfb_sound. reflexivity. Qed.
Lemma getatts_found : finds (getatt_match getatts_sample nothing show shop_types)
  [at_topic [PKey "F"; PKey "Fn::GetAtt"]; at_topic [PKey "G"; PKey "Fn::GetAtt"]; at_topic [PKey "G"; PKey "Fn::GetAtt"]; at_topic [PKey "H"; PKey "Fn::GetAtt"]; at_topic [PKey "I"; PKey "Fn::GetAtt"]].
Proof. vm_compute. reflexivity. Qed.

Definition subs : val := shop [
  ("A", call "Fn::Sub" (VStr "${AWS::Region} ${Net} ${Net.AvailabilityZone} ${ Count } ${Product.Outputs.Url} ${!Nobody}"));
  ("B", call "Fn::Sub" (VList [VStr "${x}-${y}"; VDict [("x", call "Ref" (VStr "Net")); ("y", VStr "1")]]));
  ("C", call "Fn::Sub" (VStr "${Zones}")); ("D", call "Fn::Sub" (VStr "${Nobody}"));
  ("E", call "Fn::Sub" (VList [VStr "${x} ${z}"; VDict [("x", VList []); ("y", call "Ref" (VStr "Nobody"))]]));
  ("F", call "Fn::Sub" (VStr "plain"))].
Lemma subs_wf : wf subs.
Proof. apply wfb_sound. reflexivity. Qed.
Lemma subs_closed : closed_subs subs nothing.
Proof.
  intros p v s Ho Ht. assert (Hi : In v (map snd (search_deep_keys "Fn::Sub" subs nothing))).
  { apply in_map_iff. exists ((p ++ [PKey "Fn::Sub"])%list, v). split; [reflexivity|]. apply in_search_deep; [exact subs_wf | exact nothing_wf | eauto]. }
  clear Ho. vm_compute in Hi. destruct Hi as [<-|[<-|[<-|[<-|[<-|[<-|[]]]]]]]; inversion Ht; subst; apply closedb_sound; reflexivity.
Qed.
Lemma subs_found : finds (sub_match subs nothing show shop_types)
  [at_topic [PKey "C"; PKey "Fn::Sub"]; at_topic [PKey "D"; PKey "Fn::Sub"]; at_topic [PKey "E"; PKey "Fn::Sub"; PIdx 0]; at_topic [PKey "E"; PKey "Fn::Sub"; PKey "x"]; at_topic [PKey "E"; PKey "Fn::Sub"]].
Proof. vm_compute. reflexivity. Qed.
Lemma sub_uses_found : finds (sub_used_match subs nothing) [at_topic [PKey "E"; PKey "Fn::Sub"; PIdx 1]] /\ finds (sub_unneeded_match subs) [at_topic [PKey "F"; PKey "Fn::Sub"]].
Proof. split; vm_compute; reflexivity. Qed.
Lemma conditions_found : finds (ref_condition_match shapes nothing) [[PKey "Conditions"; PKey "Odd"; PKey "Fn::Equals"; PIdx 0; PKey "Ref"]].
Proof. vm_compute. reflexivity. Qed.

(** * What the rules get wrong *)
(** Two arguments of Fn::Cidr are enough for CloudFormation; the rule reports a third one, at a place that does not exist. *)
Lemma c32_cidr_refuted : exists p v ms q, wf v /\ occurs "Fn::Cidr" v nothing p (VList [VStr "10.0.0.0/16"; VInt 2]) /\
  cidr_match v nothing show (fun l => l) = Ok ms /\ map rm_path ms = [q] /\ at_path q v = None.
Proof.
  exists [PKey "Resources"; PKey "Topic"; PKey "Properties"; PKey "X"], (shop [("X", call "Fn::Cidr" (VList [VStr "10.0.0.0/16"; VInt 2]))]).
  eexists. eexists. split; [apply wfb_sound; reflexivity|]. split; [|split; [vm_compute; reflexivity|split; reflexivity]].
  match goal with |- occurs ?f ?t ?g ?p ?v => assert (H : In ((p ++ [PKey f])%list, v) (search_deep_keys f t g)) by (vm_compute; auto);
    apply in_search_deep in H as [p' [E H]]; [apply app_inj_tail in E as [<- _]; exact H | apply wfb_sound; reflexivity | exact nothing_wf] end.
Qed.
(** Numbers and lists are accepted as the argument of Fn::GetAZs. *)
Lemma c32_getaz_refuted : exists t, wf t /\ (exists p v, occurs "Fn::GetAZs" t nothing p v /\ list_ok v) /\ getaz_match t nothing ["us-east-1"] = Ok [].
Proof.
  exists (shop [("X", call "Fn::GetAZs" (VList [VInt 1]))]). split; [apply wfb_sound; reflexivity|]. split; [|vm_compute; reflexivity].
  exists [PKey "Resources"; PKey "Topic"; PKey "Properties"; PKey "X"], (VList [VInt 1]). split; [|eexists; reflexivity].
  match goal with |- occurs ?f ?t ?g ?p ?v => assert (H : In ((p ++ [PKey f])%list, v) (search_deep_keys f t g)) by (vm_compute; auto);
    apply in_search_deep in H as [p' [E H]]; [apply app_inj_tail in E as [<- _]; exact H | apply wfb_sound; reflexivity | exact nothing_wf] end.
Qed.
(** Fn::Select with a list as index raises an exception. *)
Lemma c32_select_refuted : exists t, wf t /\ select_match t nothing digits = Err ETypeErr.
Proof. exists (shop [("X", call "Fn::Select" (VList [VList []; VList []]))]). split; [apply wfb_sound; reflexivity | vm_compute; reflexivity]. Qed.
(** Fn::FindInMap with one argument is reported at a second one ... *)
Lemma c32_map_short_refuted : exists t ms q, wf t /\ find_in_map_match t nothing = Ok ms /\ map rm_path ms = [q] /\ at_path q t = None.
Proof.
  exists (shop [("X", call "Fn::FindInMap" (VList [VStr "Images"]))]). eexists. eexists. split; [apply wfb_sound; reflexivity|]. split; [vm_compute; reflexivity|]. split; reflexivity.
Qed.
(** ... and a text raises an exception if it is inside a list. *)
Lemma c32_map_crash_refuted : exists t, wf t /\ find_in_map_match t nothing = Err ETypeErr.
Proof. exists (shop [("X", VList [call "Fn::FindInMap" (VStr "Images")])]). split; [apply wfb_sound; reflexivity | vm_compute; reflexivity]. Qed.
(** Objects that are no calls are accepted as arguments of Fn::Cidr, and so is a line feed. *)
Lemma c32_cidr_lax_refuted : exists t, wf t /\ (exists p, occurs "Fn::Cidr" t nothing p (VList [VStr ("10.0.0.0/16" ++ String "010" ""); VDict []; VDict []])) /\
  cidr_match t nothing show (fun l => l) = Ok [].
Proof.
  exists (shop [("X", call "Fn::Cidr" (VList [VStr ("10.0.0.0/16" ++ String "010" ""); VDict []; VDict []]))]). split; [apply wfb_sound; reflexivity|]. split; [|vm_compute; reflexivity].
  exists [PKey "Resources"; PKey "Topic"; PKey "Properties"; PKey "X"].
  match goal with |- occurs ?f ?t ?g ?p ?v => assert (H : In ((p ++ [PKey f])%list, v) (search_deep_keys f t g)) by (vm_compute; auto);
    apply in_search_deep in H as [p' [E H]]; [apply app_inj_tail in E as [<- _]; exact H | apply wfb_sound; reflexivity | exact nothing_wf] end.
Qed.
(** A Fn::GetAtt without an attribute raises an exception, and one without a resource is accepted. *)
Lemma c52_refuted : (exists t, wf t /\ plain_sections t /\ getatt_match t nothing show shop_types = Err EValue) /\
  (exists t p, wf t /\ plain_sections t /\ occurs "Fn::GetAtt" t nothing p (VStr ".Arn") /\ getatt_match t nothing show shop_types = Ok []).
Proof.
  split; [exists (shop [("X", call "Fn::GetAtt" (VStr "Net"))]) | exists (shop [("X", call "Fn::GetAtt" (VStr ".Arn"))]), [PKey "Resources"; PKey "Topic"; PKey "Properties"; PKey "X"]];
    (split; [apply wfb_sound; reflexivity|]; split; [apply shop_plain|]); [vm_compute; reflexivity|].
  split; [|vm_compute; reflexivity].
  match goal with |- occurs ?f ?t ?g ?p ?v => assert (H : In ((p ++ [PKey f])%list, v) (search_deep_keys f t g)) by (vm_compute; auto);
    apply in_search_deep in H as [p' [E H]]; [apply app_inj_tail in E as [<- _]; exact H | apply wfb_sound; reflexivity | exact nothing_wf] end.
Qed.
(** A Fn::Sub whose text is no text raises an exception. *)
Lemma c53_refuted : exists t, wf t /\ plain_sections t /\ sub_match t nothing show shop_types = Err ETypeErr.
Proof. exists (shop [("X", call "Fn::Sub" (VList [VInt 1; VDict []]))]). split; [apply wfb_sound; reflexivity|]. split; [apply shop_plain | vm_compute; reflexivity]. Qed.
