(** Samples and counterexamples for C57 to C64. *)
From Coq Require Import Lia ZArith QArith.
From Verif.Model Require Import Base Locate Helpers Node Conditions Search Resolve Rules Refs Relationship Limits Parameters JsonDump PropertyRules Functions ValueRules.
From Verif.Spec Require Import Paths Branches Required References ConditionUse Attributes Values ValueRefs Sensitive.
From Verif.Proofs Require Import BaseFacts BranchProofs SearchProofs WfDecide PropertyRuleProofs GroupProofs SizeProofs ConditionUseProofs ValueProofs PrimitiveProofs DynRefProofs ValueRefProofs SensitiveProofs.
Import Verif.Model.Rules.
Import ListNotations.
Local Open Scope string_scope.

(** * All values inside a value *)
Fixpoint subvals (v : val) : list val :=
  v :: match v with
       | VList l => flat_map subvals l
       | VDict d => flat_map (fun kv => subvals (snd kv)) d
       | _ => []
       end.
Lemma sub_self v : In v (subvals v).
Proof. destruct v; now left. Qed.
Lemma sub_member d k x w : In (k, x) d -> In w (subvals x) -> In w (subvals (VDict d)).
Proof. intros H1 H2. right. apply in_flat_map. exists (k, x). auto. Qed.
Lemma sub_item l x w : In x l -> In w (subvals x) -> In w (subvals (VList l)).
Proof. intros H1 H2. right. apply in_flat_map. eauto. Qed.
Lemma sub_trans v : forall w u, In w (subvals v) -> In u (subvals w) -> In u (subvals v).
Proof.
  induction v as [|b|z|q|s|l IH|d IH] using val_ind'; intros w u H1 H2; try (destruct H1 as [<-|[]]; exact H2).
  - destruct H1 as [<-|H1]; [exact H2|]. apply in_flat_map in H1 as [x [Hx H1]]. apply (sub_item l x u Hx). rewrite Forall_forall in IH. exact (IH x Hx w u H1 H2).
  - destruct H1 as [<-|H1]; [exact H2|]. apply in_flat_map in H1 as [[k x] [Hx H1]]. apply (sub_member d k x u Hx). rewrite Forall_forall in IH. exact (IH (k, x) Hx w u H1 H2).
Qed.
Lemma sub_branches c a b w : In w (subvals a) \/ In w (subvals b) -> In w (subvals (If_of (VList [c; a; b]))).
Proof.
  intros H. apply (sub_member _ "Fn::If" (VList [c; a; b])); [now left|]. destruct H as [H|H]; [apply (sub_item _ a) | apply (sub_item _ b)]; cbn; auto.
Qed.
Lemma alternative_sub x p w r : alternative x p w r -> In w (subvals x).
Proof. induction 1; [apply sub_branches; auto | apply sub_branches; auto | apply sub_self]. Qed.
Lemma single_sub x p w r : single x p w r -> In w (subvals x).
Proof.
  intros [v p' w' q H _|v p' l q i y w' r' H Hi H2]; [now apply alternative_sub in H|].
  apply alternative_sub in H, H2. apply (sub_trans v (VList l) w' H). apply (sub_item l y); [now apply nth_error_In in Hi | exact H2].
Qed.
Lemma pruned_sub d d' : pruned d d' -> forall k x, In (k, x) d' -> In (k, x) d.
Proof. induction 1 as [|k d d' H IH|k x d d' Hx H IH]; intros k' x' Hi; [exact Hi | right; now apply IH |]. destruct Hi as [E|Hi]; [now left | right; now apply IH]. Qed.
Lemma property_sub v p prop x q : property_of v p prop x q -> In x (subvals v).
Proof.
  intros [d [H Hx]]. remember (VDict d) as w eqn:Ew. induction H as [c a b p w q H IH|c a b p w q H IH|v w p Hi Hn Hs]; [apply sub_branches; auto | apply sub_branches; auto |].
  subst w. inversion Hs as [d0 d' Hd|v' Hv]; subst; [|discriminate]. apply assoc_In in Hx. apply (sub_member d0 prop x); [now apply (pruned_sub d0 d Hd) | apply sub_self].
Qed.
Lemma no_null_sub v p : ~ In VNull (subvals v) -> no_null_property v p.
Proof. intros H prop x q r Hp Ha. apply H. exact (sub_trans v x VNull (property_sub _ _ _ _ _ Hp) (alternative_sub _ _ _ _ Ha)). Qed.
Lemma no_null_member props p : ~ In VNull (subvals (VDict props)) -> forall prop x q, assoc prop props = Some x -> ~ alternative x (p ++ [PKey prop])%list VNull q.
Proof. intros H prop x q Hx Ha. apply H. apply (sub_member props prop x); [now apply assoc_In | now apply alternative_sub in Ha]. Qed.
Definition nulls (v : val) : bool := existsb (fun w => match w with VNull => true | _ => false end) (subvals v).
Lemma nulls_sound v : nulls v = false -> ~ In VNull (subvals v).
Proof. intros E H. assert (nulls v = true) by (apply existsb_exists; exists VNull; auto). congruence. Qed.

(** * A sample *)
Definition ref (n : string) : val := VDict [("Ref", VStr n)].
Definition getatt (s : string) : val := VDict [("Fn::GetAtt", VStr s)].
Definition alt (c : string) (a b : val) : val := VDict [("Fn::If", VList [VStr c; a; b])].
Definition value_rules : list (string * vrule) :=
  [("Mode", mkVR ["on"; "off"] "" None None None);
   ("Name", mkVR [] "^[a-z]+$" (Some "letters") None None);
   ("Subnet", mkVR [] "" None (Some (mkRefSpec ["SubnetKind"] ["AWS::EC2::Subnet"])) (Some [("AWS::Own::Net", AttOne "SubnetId"); ("AWS::EC2::Subnet", AttSome ["Id"; "Ref.Id"])]));
   ("Subnets", mkVR [] "" None (Some (mkRefSpec ["SubnetListKind"] [])) (Some []))].
Definition subnets_spec : pspec := mkPS false (Some "List") None (Some "String") [("ListValueType", "Subnets"); ("ValueType", "Subnet")] None.
Definition value_specs : pspecs :=
  [("Mode", mkPS false None (Some "String") None [("ValueType", "Mode")] None);
   ("Name", mkPS false None (Some "String") None [("ValueType", "Name")] None);
   ("Count", mkPS false None (Some "Integer") None [] None);
   ("Tags", mkPS false (Some "Map") None (Some "Boolean") [] None);
   ("Secret", mkPS false None (Some "String") None [] None);
   ("Subnets", subnets_spec)].
Definition kinds_table : list (string * list string) := [("SubnetKind", ["AWS::EC2::Subnet::Id"; "String"]); ("SubnetListKind", ["List<AWS::EC2::Subnet::Id>"])].
(** [re.match] for one pattern, [int()] and [str()] of objects, as far as the sample needs them. *)
Fixpoint lower_only (s : string) : bool :=
  match s with EmptyString => true | String a s' => (Nat.leb 97 (nat_of_ascii a) && Nat.leb (nat_of_ascii a) 122 && lower_only s')%bool end.
Definition sample_match (regex s : string) : bool := (String.eqb regex "^[a-z]+$" && negb (String.eqb s "") && lower_only s)%bool.
Definition sample_int (s : string) : bool := String.eqb s "12".
Definition sample_str (v : val) : string := match v with VList _ => "[...]" | _ => "{...}" end.
Definition value_props : list (string * val) :=
  [("Mode", alt "C" (VStr "on") (VStr "maybe")); ("Name", VStr "Bad1"); ("Count", VStr "x"); ("Tags", VDict [("a", VStr "true"); ("b", VStr "no")]);
   ("Secret", VDict [("Fn::Sub", VList [VStr "{{resolve:ssm-secure:db/pass:1}}"; VDict []])]);
   ("Subnets", alt "C" (VList [ref "Net"; ref "Vpc"; ref "One"; getatt "Net.Ref.Id"; getatt "Vpc.Id"; getatt "Net.Arn"; getatt "Mine.Any"])
                       (alt "D" (ref "All") (alt "E" (ref "Vpc") (getatt "Other.Outputs.X"))))].
Definition value_template : val :=
  VDict [("Parameters", VDict [("One", VDict [("Type", VStr "Number")]); ("All", VDict [("Type", VStr "CommaDelimitedList")]); ("Image", VDict [("Type", VStr "AWS::EC2::Image::Id")]);
                               ("Hidden", VDict [("Type", VStr "String"); ("NoEcho", VBool true)])]);
         ("Resources", VDict [("Net", VDict [("Type", VStr "AWS::EC2::Subnet")]); ("Vpc", VDict [("Type", VStr "AWS::EC2::VPC")]);
                              ("Mine", VDict [("Type", VStr "Custom::Any")]); ("Other", VDict [("Type", VStr "AWS::CloudFormation::Stack")]);
                              ("Server", VDict [("Type", VStr "AWS::X::Server"); ("Properties", VDict [
                                 ("Password", VStr "secret"); ("DbPassword", ref "One"); ("AdminPassword", ref "Hidden"); ("KdcAdminPassword", VStr "{{resolve:ssm:pass:1}}");
                                 ("AccountPassword", VStr "{{resolve:ssm-secure:pass:1}}"); ("MasterUserPassword", VDict []);
                                 ("ImageId", ref "One"); ("Other", VDict [("ImageId", ref "Image")]); ("More", VDict [("ImageId", VDict [])])])])])].
Definition at_server : path := [PKey "Resources"; PKey "Server"; PKey "Properties"].

Lemma value_plain : plain_sections value_template.
Proof.
  eexists. split; [reflexivity|]. intros section s [<-|[<-|[]]] [= <-]; eexists; (split; [reflexivity|]); intros n x Hi.
  - destruct Hi as [E|[E|[E|[E|[]]]]]; injection E as <- <-; eexists; (split; [reflexivity|]); (split; [discriminate | reflexivity]).
  - destruct Hi as [E|[E|[E|[E|[E|[]]]]]]; injection E as <- <-; eexists; (split; [reflexivity|]); (split; [|reflexivity]); intros _ t [= <-]; eauto.
Qed.
Lemma value_wf : wf value_template /\ wf (VDict []).
Proof. split; apply wfb_sound; reflexivity. Qed.
Lemma value_hypotheses : ~ In "" (keys value_rules) /\ ~ In "Fn::If" (keys value_specs) /\ all_objects (VDict value_props) at_server /\ no_null_property (VDict value_props) at_server /\
  (forall prop x q, assoc prop value_props = Some x -> ~ alternative x (at_server ++ [PKey prop])%list VNull q) /\
  (forall prop x r, assoc prop value_props = Some x -> ~ single x (at_server ++ [PKey prop])%list (VDict [("Fn::Sub", VList [])]) r) /\
  kinds_known value_rules kinds_table /\ judgeable (VDict value_props) at_server.
Proof.
  split; [cbn; intuition discriminate|]. split; [cbn; intuition discriminate|]. split; [apply plain_objects; intros [x [=]]|]. split; [apply no_null_sub, nulls_sound; reflexivity|].
  split; [apply no_null_member, nulls_sound; reflexivity|]. split.
  { intros prop x r Hx H. apply single_sub in H. assert (K : In (VDict [("Fn::Sub", VList [])]) (subvals (VDict value_props))) by (apply (sub_member _ prop x); [now apply assoc_In | exact H]).
    cbn in K. repeat (destruct K as [K|K]; [discriminate K|]). destruct K. }
  split.
  - intros t vr sp k Ht Hr Hk. apply assoc_In in Ht. destruct Ht as [E|[E|[E|[E|[]]]]]; injection E as <- <-; try discriminate; injection Hr as <-; destruct Hk as [<-|[]]; cbn; tauto.
  - intros prop x q r Hp. apply property_sub in Hp. split.
    + intros y H. apply single_sub in H. pose proof (sub_trans _ _ _ Hp H) as K. clear -K. cbn in K. repeat (destruct K as [K|K]; [first [discriminate K | injection K as <-; eauto]|]). destruct K.
    + intros y H. apply single_sub in H. pose proof (sub_trans _ _ _ Hp H) as K. clear -K. cbn in K.
      assert (G : forall a b, dotless a -> dotless b -> exists n parts, getatt_parts (VStr (a ++ "." ++ b)) n parts).
      { intros a b Ha Hb. exists a, [b]. apply gp_text; [exact Ha|]. split; [discriminate|]. split; [reflexivity|]. apply Forall_cons; [exact Hb | apply Forall_nil]. }
      assert (G3 : forall a b c, dotless a -> dotless b -> dotless c -> exists n parts, getatt_parts (VStr (a ++ "." ++ b ++ "." ++ c)) n parts).
      { intros a b c Ha Hb Hc. exists a, [b; c]. apply gp_text; [exact Ha|]. split; [discriminate|]. split; [reflexivity|]. repeat apply Forall_cons; auto. }
      repeat (destruct K as [K|K]; [first [discriminate K | injection K as <-;
        first [apply (G3 "Net" "Ref" "Id") | apply (G "Vpc" "Id") | apply (G "Net" "Arn") | apply (G "Mine" "Any") | apply (G3 "Other" "Outputs" "X")]; unfold dotless; cbn; intuition discriminate]|]). destruct K.
Qed.
Lemma values_found :
  allowed_value_check value_rules sample_str (VDict value_props) value_specs at_server =
    Ok [mkRM [PKey "Resources"; PKey "Server"; PKey "Properties"; PKey "Mode"; PKey "Fn::If"; PIdx 2] "You must specify a valid value for Mode (maybe). Valid values are [""on"", ""off""]"] /\
  allowed_pattern_check value_rules sample_str sample_match (VDict value_props) value_specs at_server =
    Ok [mkRM [PKey "Resources"; PKey "Server"; PKey "Properties"; PKey "Name"] "Name contains invalid characters (Pattern: letters) at Resources/Server/Properties/Name"] /\
  primitive_check sample_int sample_int false "AWS::X::Server" (VDict value_props) value_specs at_server =
    Ok [mkRM [PKey "Resources"; PKey "Server"; PKey "Properties"; PKey "Count"] "Property Resources/Server/Properties/Count should be of type Integer";
        mkRM [PKey "Resources"; PKey "Server"; PKey "Properties"; PKey "Tags"; PKey "b"] "Property Resources/Server/Properties/Tags/b should be of type Boolean"] /\
  secure_check "AWS::X::Server" (VDict value_props) value_specs at_server =
    Ok [mkRM [PKey "Resources"; PKey "Server"; PKey "Properties"; PKey "Secret"; PKey "Fn::Sub"; PIdx 0]
          "Dynamic Reference secure strings are not supported for this property at Resources/Server/Properties/Secret/Fn::Sub/0"].
Proof. split; [|split; [|split]]; vm_compute; reflexivity. Qed.
Lemma references_found : exists ms, ref_getatt_check value_rules sample_str value_template kinds_table (VDict value_props) value_specs at_server = Ok ms /\
  map rm_msg ms =
    ["Property ""Subnets"" can Ref to resources of types [AWS::EC2::Subnet] at Resources/Server/Properties/Subnets/Fn::If/1/1/Ref";
     "Property ""Subnets"" can Ref to parameter of types [AWS::EC2::Subnet::Id, String] at Resources/Server/Properties/Subnets/Fn::If/1/2/Ref";
     "Property ""Subnets"" can Fn::GetAtt to a resource of types [AWS::Own::Net, AWS::EC2::Subnet] at Resources/Server/Properties/Subnets/Fn::If/1/4/Fn::GetAtt";
     "Property ""Subnets"" can Fn::GetAtt to a resource attribute ""[...]"" at Resources/Server/Properties/Subnets/Fn::If/1/5/Fn::GetAtt";
     "Property ""Subnets"" can Ref to parameter of types [List<AWS::EC2::Subnet::Id>] at Resources/Server/Properties/Subnets/Fn::If/2/Fn::If/1/Ref";
     "Property ""Subnets"" has no valid Refs to Resources at Resources/Server/Properties/Subnets/Fn::If/2/Fn::If/2/Fn::If/1/Ref";
     "CloudFormation stack outputs need to be strings not lists at Resources/Server/Properties/Subnets/Fn::If/2/Fn::If/2/Fn::If/2/Fn::GetAtt"].
Proof. eexists. split; vm_compute; reflexivity. Qed.

Definition zone_props : list (string * val) := [("AvailabilityZone", alt "C" (VStr "us-east-1a") (VStr "all")); ("AvailabilityZones", VList [VStr "eu-west-1b"; ref "Zone"]); ("Code", VStr "./src")].
Lemma zones_found : (forall key x q, assoc key zone_props = Some x -> ~ alternative x (at_server ++ [PKey key])%list VNull q) /\
  zone_check sample_str (VDict zone_props) at_server =
    Ok [mkRM (at_server ++ [PKey "AvailabilityZone"; PKey "Fn::If"; PIdx 1])%list "Don't hardcode us-east-1a for AvailabilityZones";
        mkRM (at_server ++ [PKey "AvailabilityZones"; PIdx 0])%list "Don't hardcode eu-west-1b for AvailabilityZones"] /\
  templated_check "AWS::Lambda::Function" (VDict zone_props) at_server =
    Ok [mkRM (at_server ++ [PKey "Code"])%list "This code may only work with `package` cli command as the property (Resources/Server/Properties/Code) is a string"].
Proof. split; [apply no_null_member, nulls_sound; reflexivity|]. split; vm_compute; reflexivity. Qed.
Lemma value_stray : no_stray value_template (VDict []).
Proof.
  intros prop [H|H]; [|discriminate]. cbn [app at_path value_template] in H. cbn [assoc] in H. cbn in H.
  repeat (match type of H with context [String.eqb prop ?k] => destruct (String.eqb prop k); [discriminate H|] end). discriminate H.
Qed.
Lemma passwords_found : exists ms, password_match value_template (VDict []) = Ok ms /\
  map rm_msg ms =
    ["Password should use a secure dynamic reference for Resources/Server/Properties/KdcAdminPassword"; "Password shouldn't be hardcoded for Resources/Server/Properties/Password";
     "Inappropriate map found for password on Resources/Server/Properties/MasterUserPassword"; "Parameter One used as DbPassword, therefore NoEcho should be True"].
Proof. eexists. split; vm_compute; reflexivity. Qed.
Lemma image_only : image_parameters_only value_template.
Proof.
  intros n o t [d [s [[= <-] [[= <-] E]]]] Et Hi. apply assoc_In in E. destruct E as [E|[E|[E|[E|[E|[]]]]]]; injection E as <- <-; injection Et as <-; cbn in Hi; intuition discriminate.
Qed.
Lemma images_found : image_match value_template (VDict []) =
  Ok [mkRM [PKey "Parameters"; PKey "One"] "Parameter One should be of type [AWS::EC2::Image::Id, AWS::SSM::Parameter::Value<AWS::EC2::Image::Id>]";
      mkRM (at_server ++ [PKey "More"; PKey "ImageId"])%list "Inappropriate map found for ImageId on Resources/Server/Properties/More/ImageId"].
Proof. vm_compute. reflexivity. Qed.
Lemma image_refs : forall p y, occurs "ImageId" value_template (VDict []) p (VDict [("Ref", y)]) -> into_resources p ->
  exists n, y = VStr n /\ (unambiguous value_template n \/ unknown value_template n).
Proof.
  intros p y Ho _. assert (Hi : In ((p ++ [PKey "ImageId"])%list, VDict [("Ref", y)]) (search_deep_keys "ImageId" value_template (VDict []))) by (apply in_search_deep; [apply value_wf | apply value_wf | eauto]).
  assert (Hmod : forall m, ~ module value_template m).
  { intros m [o [t [[d [s [[= <-] [[= <-] E]]]] [Et Em]]]]. apply assoc_In in E. destruct E as [E|[E|[E|[E|[E|[]]]]]]; injection E as <- <-; injection Et as <-; discriminate. }
  assert (Hu : forall n o t, defined_in "Parameters" value_template n o -> assoc "Type" o = Some t -> ~ In n ["Net"; "Vpc"; "Mine"; "Other"; "Server"] -> ~ In n PSEUDOPARAMS -> unambiguous value_template n).
  { intros n o t Hd Ht Hr Hp. split; [eapply nm_parameter; eauto|]. split.
    - intros o1 o2 [_ [d [s [[= <-] [[= <-] E]]]]]. apply Hr. apply assoc_In in E. destruct E as [E|[E|[E|[E|[E|[]]]]]]; injection E as <- _; cbn; tauto.
    - split; [intros o' K; contradiction|]. intros m rest K. destruct (Hmod m K). }
  clear Ho. vm_compute in Hi. destruct Hi as [E|[E|[E|[]]]]; try discriminate E; injection E as _ <-; eexists; (split; [reflexivity|]); left.
  - eapply (Hu "One"); [do 2 eexists; split; [reflexivity|]; split; reflexivity | reflexivity | cbn; intuition discriminate | cbn; intuition discriminate].
  - eapply (Hu "Image"); [do 2 eexists; split; [reflexivity|]; split; reflexivity | reflexivity | cbn; intuition discriminate | cbn; intuition discriminate].
Qed.

(** * What goes wrong *)
(** A call of Fn::Transform, which gives some text, is judged by the way Python shows it. *)
Lemma c57_transform_refuted : exists vs specs ps prop vr y, assoc prop specs = Some ps /\ restricts vs "ValueType" ps vr /\
  forall p, allowed_value_check vs sample_str (VDict [(prop, VDict [("Fn::Transform", y)])]) specs p =
    Ok [mkRM (p ++ [PKey prop])%list ("You must specify a valid value for Mode ({...}). Valid values are [""on"", ""off""]")].
Proof.
  exists value_rules, value_specs, (mkPS false None (Some "String") None [("ValueType", "Mode")] None), "Mode", (mkVR ["on"; "off"] "" None None None), (VDict [("Name", VStr "AWS::Include")]).
  split; [reflexivity|]. split; [eexists; split; reflexivity|]. intros p. unfold allowed_value_check, per_value, per_property. cbn. reflexivity.
Qed.
(** When the properties are a condition, no primitive type and no dynamic reference in them is looked at. *)
Lemma c59_if_refuted : exists specs ps prop w x, assoc prop specs = Some ps /\ has_primitive ps "Integer" /\ ~ of_type sample_int sample_int true "Integer" w /\
  (forall p, exists q, branch (If_of x) p (VDict [(prop, w)]) q) /\ forall p, primitive_check sample_int sample_int true "AWS::X::Server" (If_of x) specs p = Ok [].
Proof.
  exists value_specs, (mkPS false None (Some "Integer") None [] None), "Count", (VStr "x"), (VList [VStr "C"; VDict [("Count", VStr "x")]; VDict []]).
  split; [reflexivity|]. split; [split; [discriminate | now left]|]. split; [intros H; inversion H as [| | | | | | | | |t v Hn _| | | | | | ]; try discriminate; apply Hn; cbn; tauto|]. split.
  - intros p. eexists. apply br_then. apply br_leaf; [intros [x [=]] | discriminate|]. apply st_dict. apply pr_keep; [discriminate | apply pr_nil].
  - reflexivity.
Qed.
(** [true] passes for a number, even when types are strict. *)
Lemma c59_bool_refuted : exists specs ps prop, assoc prop specs = Some ps /\ has_primitive ps "Integer" /\
  forall p b, primitive_check sample_int sample_int true "AWS::X::Server" (VDict [(prop, VBool b)]) specs p = Ok [].
Proof.
  exists value_specs, (mkPS false None (Some "Integer") None [] None), "Count". split; [reflexivity|]. split; [split; [discriminate | now left]|]. intros p [|]; reflexivity.
Qed.
Lemma c60_if_refuted : exists specs ps prop s x, assoc prop specs = Some ps /\ has_primitive ps "String" /\ versioned_reference "ssm-secure" s /\
  (forall p, exists q, branch (If_of x) p (VDict [(prop, VStr s)]) q) /\ forall p, secure_check "AWS::X::Server" (If_of x) specs p = Ok [].
Proof.
  exists value_specs, (mkPS false None (Some "String") None [] None), "Secret", "{{resolve:ssm-secure:a:1}}", (VList [VStr "C"; VDict [("Secret", VStr "{{resolve:ssm-secure:a:1}}")]; VDict []]).
  split; [reflexivity|]. split; [split; [discriminate | now left]|]. split; [apply dyn_ref_secure_iff; reflexivity|]. split.
  - intros p. eexists. apply br_then. apply br_leaf; [intros [x [=]] | discriminate|]. apply st_dict. apply pr_keep; [discriminate | apply pr_nil].
  - reflexivity.
Qed.
Lemma c60_sub_refuted : exists specs ps prop, assoc prop specs = Some ps /\ forall p, secure_check "AWS::X::Server" (VDict [(prop, VDict [("Fn::Sub", VList [])])]) specs p = Err EIndex.
Proof. exists value_specs, (mkPS false None (Some "String") None [] None), "Secret". split; reflexivity. Qed.
(** A Fn::GetAtt with an object or an empty list raises an exception. *)
Lemma c61_refuted : exists vs specs prop kinds template e, plain_sections template /\
  (forall p, ref_getatt_check vs sample_str template kinds (VDict [(prop, VDict [("Fn::GetAtt", VDict [])])]) specs p = Err e) /\
  (forall p, ref_getatt_check vs sample_str template kinds (VDict [(prop, VDict [("Fn::GetAtt", VList [])])]) specs p = Err EIndex).
Proof. exists value_rules, value_specs, "Subnets", kinds_table, value_template. eexists. split; [exact value_plain|]. split; intros p; reflexivity. Qed.
(** A password that is a number is not reported, and a parameter with the text "false" for NoEcho passes for hidden. *)
Definition server_with (props : list (string * val)) (params : list (string * val)) : val :=
  VDict [("Parameters", VDict params); ("Resources", VDict [("S", VDict [("Type", VStr "AWS::X::Server"); ("Properties", VDict props)])])].
Lemma c63_number_refuted : exists template p, wf template /\ occurs "Password" template (VDict []) p (VInt 1234%Z) /\ into_properties p /\ password_match template (VDict []) = Ok [].
Proof.
  exists (server_with [("Password", VInt 1234%Z)] []), [PKey "Resources"; PKey "S"; PKey "Properties"]. split; [apply wfb_sound; reflexivity|]. split; [left; reflexivity|]. split; [do 2 eexists; reflexivity | vm_compute; reflexivity].
Qed.
Lemma c63_noecho_refuted : exists template p o, wf template /\ occurs "Password" template (VDict []) p (ref "P") /\ into_properties p /\
  defined_in "Parameters" template "P" o /\ assoc "NoEcho" o = Some (VStr "false") /\ password_match template (VDict []) = Ok [].
Proof.
  exists (server_with [("Password", ref "P")] [("P", VDict [("Type", VStr "String"); ("NoEcho", VStr "false")])]), [PKey "Resources"; PKey "S"; PKey "Properties"], [("Type", VStr "String"); ("NoEcho", VStr "false")].
  split; [apply wfb_sound; reflexivity|]. split; [left; reflexivity|]. split; [do 2 eexists; reflexivity|]. split; [do 2 eexists; split; [reflexivity|]; split; reflexivity|]. split; [reflexivity | vm_compute; reflexivity].
Qed.
(** A password chosen by a condition is not looked at. *)
Lemma c63_if_refuted : exists template p s, wf template /\ occurs "Password" template (VDict []) p (alt "C" (VStr s) (VStr s)) /\ into_properties p /\ ~ dynamic_reference s /\
  password_match template (VDict []) = Ok [].
Proof.
  exists (server_with [("Password", alt "C" (VStr "secret") (VStr "secret"))] []), [PKey "Resources"; PKey "S"; PKey "Properties"], "secret". split; [apply wfb_sound; reflexivity|]. split; [left; reflexivity|].
  split; [do 2 eexists; reflexivity|]. split; [rewrite <- dyn_ref_iff; discriminate | vm_compute; reflexivity].
Qed.
(** An ImageId that refers to a resource is reported at a parameter that does not exist, and one that refers to a number raises an exception. *)
Lemma c64_place_refuted : exists template m, wf template /\ plain_sections template /\ image_match template (VDict []) = Ok [m] /\ at_path (rm_path m) template = None.
Proof.
  exists (server_with [("ImageId", ref "S")] []). eexists. split; [apply wfb_sound; reflexivity|]. split.
  { eexists. split; [reflexivity|]. intros section s [<-|[<-|[]]] [= <-]; eexists; (split; [reflexivity|]); intros n x Hi; [destruct Hi|]. destruct Hi as [E|[]]. injection E as <- <-. eexists. split; [reflexivity|]. split; [|reflexivity]. intros _ t [= <-]. eauto. }
  split; [vm_compute; reflexivity | reflexivity].
Qed.
Lemma c64_number_refuted : exists template, wf template /\ image_match template (VDict []) = Err ETypeErr.
Proof. exists (server_with [("ImageId", VDict [("Ref", VInt 1%Z)])] []). split; [apply wfb_sound; reflexivity | vm_compute; reflexivity]. Qed.
