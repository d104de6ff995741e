(** Model of the pure parts of src/cfnlint/helpers.py. *)
From Verif.Model Require Import Base.

(** CONDITION_FUNCTIONS, FUNCTIONS, PSEUDOPARAMS: helpers.py:67, 82-85, 98-107. *)
Definition CONDITION_FUNCTIONS : list string := ["Fn::If"].
Definition FUNCTIONS : list string :=
  ["Fn::Base64"; "Fn::GetAtt"; "Fn::GetAZs"; "Fn::ImportValue"; "Fn::Join"; "Fn::Split"; "Fn::FindInMap";
   "Fn::Select"; "Ref"; "Fn::If"; "Fn::Contains"; "Fn::Sub"; "Fn::Cidr"].
Definition PSEUDOPARAMS : list string :=
  ["AWS::AccountId"; "AWS::NotificationARNs"; "AWS::NoValue"; "AWS::Partition"; "AWS::Region"; "AWS::StackId";
   "AWS::StackName"; "AWS::URLSuffix"].

(** REGIONS = list(SPEC_REGIONS.keys()): helpers.py:37-63, 68. *)
Definition REGIONS : list string :=
  ["af-south-1"; "ap-east-1"; "ap-northeast-1"; "ap-northeast-2"; "ap-northeast-3"; "ap-south-1"; "ap-southeast-1";
   "ap-southeast-2"; "ca-central-1"; "cn-north-1"; "cn-northwest-1"; "eu-central-1"; "eu-north-1"; "eu-south-1";
   "eu-west-1"; "eu-west-2"; "eu-west-3"; "me-south-1"; "sa-east-1"; "us-east-1"; "us-east-2"; "us-gov-east-1";
   "us-gov-west-1"; "us-west-1"; "us-west-2"].

(** LIMITS: helpers.py:109-134 (the threshold 0.9 is handled where it is used). *)
Record limits := mkLimits { lim_number : Z; lim_name : Z }.
Definition LIMITS_Mappings := mkLimits 200 255.
Definition LIMIT_Mappings_attributes : Z := 200.
Definition LIMITS_Outputs := mkLimits 200 255.
Definition LIMIT_Outputs_description : Z := 1024.
Definition LIMITS_Parameters := mkLimits 200 255.
Definition LIMIT_Parameters_value : Z := 4096.
Definition LIMITS_Resources := mkLimits 500 255.
Definition LIMIT_template_body : Z := 1000000.
Definition LIMIT_template_description : Z := 1024.

(** valid_snapshot_types: helpers.py:136-144. *)
Definition valid_snapshot_types : list string :=
  ["AWS::EC2::Volume"; "AWS::ElastiCache::CacheCluster"; "AWS::ElastiCache::ReplicationGroup";
   "AWS::Neptune::DBCluster"; "AWS::RDS::DBCluster"; "AWS::RDS::DBInstance"; "AWS::Redshift::Cluster"].

(** VALID_PARAMETER_TYPES_SINGLE: helpers.py:146-173. *)
Definition VALID_PARAMETER_TYPES_SINGLE : list string :=
  ["AWS::EC2::AvailabilityZone::Name"; "AWS::EC2::Image::Id"; "AWS::EC2::Instance::Id"; "AWS::EC2::KeyPair::KeyName";
   "AWS::EC2::SecurityGroup::GroupName"; "AWS::EC2::SecurityGroup::Id"; "AWS::EC2::Subnet::Id"; "AWS::EC2::VPC::Id";
   "AWS::EC2::Volume::Id"; "AWS::Route53::HostedZone::Id"; "AWS::SSM::Parameter::Name"; "Number"; "String";
   "AWS::SSM::Parameter::Value<AWS::EC2::AvailabilityZone::Name>"; "AWS::SSM::Parameter::Value<AWS::EC2::Image::Id>";
   "AWS::SSM::Parameter::Value<AWS::EC2::Instance::Id>"; "AWS::SSM::Parameter::Value<AWS::EC2::KeyPair::KeyName>";
   "AWS::SSM::Parameter::Value<AWS::EC2::SecurityGroup::GroupName>";
   "AWS::SSM::Parameter::Value<AWS::EC2::SecurityGroup::Id>"; "AWS::SSM::Parameter::Value<AWS::EC2::Subnet::Id>";
   "AWS::SSM::Parameter::Value<AWS::EC2::VPC::Id>"; "AWS::SSM::Parameter::Value<AWS::EC2::Volume::Id>";
   "AWS::SSM::Parameter::Value<AWS::Route53::HostedZone::Id>"; "AWS::SSM::Parameter::Value<AWS::SSM::Parameter::Name>";
   "AWS::SSM::Parameter::Value<Number>"; "AWS::SSM::Parameter::Value<String>"].

(** VALID_PARAMETER_TYPES_LIST: helpers.py:175-200. *)
Definition VALID_PARAMETER_TYPES_LIST : list string :=
  ["CommaDelimitedList"; "List<AWS::EC2::AvailabilityZone::Name>"; "List<AWS::EC2::Image::Id>";
   "List<AWS::EC2::Instance::Id>"; "List<AWS::EC2::SecurityGroup::GroupName>"; "List<AWS::EC2::SecurityGroup::Id>";
   "List<AWS::EC2::Subnet::Id>"; "List<AWS::EC2::VPC::Id>"; "List<AWS::EC2::Volume::Id>";
   "List<AWS::Route53::HostedZone::Id>"; "List<Number>"; "List<String>";
   "AWS::SSM::Parameter::Value<CommaDelimitedList>";
   "AWS::SSM::Parameter::Value<List<AWS::EC2::AvailabilityZone::Name>>";
   "AWS::SSM::Parameter::Value<List<AWS::EC2::Image::Id>>"; "AWS::SSM::Parameter::Value<List<AWS::EC2::Instance::Id>>";
   "AWS::SSM::Parameter::Value<List<AWS::EC2::SecurityGroup::GroupName>>";
   "AWS::SSM::Parameter::Value<List<AWS::EC2::SecurityGroup::Id>>";
   "AWS::SSM::Parameter::Value<List<AWS::EC2::Subnet::Id>>"; "AWS::SSM::Parameter::Value<List<AWS::EC2::VPC::Id>>";
   "AWS::SSM::Parameter::Value<List<AWS::EC2::Volume::Id>>";
   "AWS::SSM::Parameter::Value<List<AWS::Route53::HostedZone::Id>>"; "AWS::SSM::Parameter::Value<List<Number>>";
   "AWS::SSM::Parameter::Value<List<String>>"].

(** bool_compare, helpers.py:390-399.  [first is second] on Python singletons: two booleans are identical when equal;
    None is None; for the remaining values identity is not determined by the value and is taken to be false. *)
Definition str_to_bool (v : val) : val :=
  match v with
  | VStr s => VBool (smem (lower s) ["true"; "True"])
  | _ => v
  end.
Definition bool_compare (first second : val) : bool :=
  match str_to_bool first, str_to_bool second with
  | VBool a, VBool b => Bool.eqb a b
  | VNull, VNull => true
  | _, _ => false
  end.

(** is_custom_resource, helpers.py:385-387. *)
Definition is_custom_resource (t : string) : bool :=
  negb (String.eqb t "") &&
  (String.eqb t "AWS::CloudFormation::CustomResource" || starts_with "Custom::" t).

(** RegexDict, helpers.py:204-223, for keys that are plain names, i.e. contain no regular-expression metacharacter,
    and for the keys 'name.*' that get_valid_refs adds for modules (template.py:153): [re.match] anchors only at the
    start of the string, so both match exactly the strings the name is a prefix of ('.' does not match a newline, but
    '.*' also matches the empty string, so a newline after the name makes no difference). *)
Definition regex_key_name (k : string) : string :=
  if ends_with ".*" k then String.substring 0 (String.length k - 2) k else k.
Definition regex_matches (k item : string) : bool := starts_with (regex_key_name k) item.

(** RegexDict.__contains__, helpers.py:213-217. *)
Definition regex_contains {A} (d : list (string * A)) (item : string) : bool :=
  existsb (fun kv => regex_matches (fst kv) item) d.

(** RegexDict.__getitem__/get, helpers.py:206-211, 219-223: the value of the longest matching key; sorting is stable, so
    among keys of equal length the last one in insertion order is taken. *)
Fixpoint regex_best {A} (d : list (string * A)) (item : string) (best : option (nat * A)) : option (nat * A) :=
  match d with
  | [] => best
  | (k, v) :: d' =>
      regex_best d' item
        (if regex_matches k item then
           match best with
           | Some (n, _) => if Nat.leb n (String.length k) then Some (String.length k, v) else best
           | None => Some (String.length k, v)
           end
         else best)
  end.
Definition regex_get {A} (d : list (string * A)) (item : string) : option A :=
  match regex_best d item None with Some (_, v) => Some v | None => None end.

(** merge_spec, helpers.py:324-334: merge [source] into [destination].  [destination.setdefault(key, {})] may find a
    value that is not a dict; merging a non-empty dict into it raises (a list or scalar cannot be assigned by a string
    key: TypeError; and its .setdefault is an AttributeError). *)
Fixpoint merge_spec (source destination : val) {struct source} : res val :=
  match source with
  | VDict src =>
      (fix go (src : list (string * val)) (dst : val) : res val :=
         match src with
         | [] => Ok dst
         | (key, value) :: rest =>
             match dst with
             | VDict d =>
                 match value with
                 | VDict _ =>
                     let node := match assoc key d with Some n => n | None => VDict [] end in
                     do node' <- merge_spec value node;
                     go rest (VDict (set_assoc key node' d))
                 | _ => go rest (VDict (set_assoc key value d))
                 end
             | _ => match value with VDict _ => Err EAttribute | _ => Err ETypeErr end
             end
         end) src destination
  | _ => Err EAttribute
  end.

(** The regular expression set_specs builds from a pattern, helpers.py:363 and 373: a star becomes a group matching any text and a '$' is
    appended.  Modelled for patterns without other metacharacters and for names without a newline. *)
Fixpoint wild_match (p s : string) {struct p} : bool :=
  match p with
  | EmptyString => match s with EmptyString => true | _ => false end
  | String c p' =>
      if char_eqb c "*" then
        (fix star (s : string) : bool :=
           wild_match p' s || match s with EmptyString => false | String _ s' => star s' end) s
      else match s with
           | EmptyString => false
           | String a s' => char_eqb a c && wild_match p' s'
           end
  end.

(** [resources.remove(match)]: delete the first occurrence. *)
Fixpoint remove_first (x : string) (l : list string) : list string :=
  match l with
  | [] => []
  | y :: ys => if String.eqb x y then ys else y :: remove_first x ys
  end.

(** The selection part of set_specs, helpers.py:355-382: which of [all_resources] survive.  [includes] and [excludes]
    are the popped lists, empty when absent. *)
Definition spec_included (includes all_resources : list string) : list string :=
  match includes with
  | [] => all_resources
  | _ => flat_map (fun inc => filter (wild_match inc) all_resources) includes
  end.
Fixpoint spec_exclude (excludes resources : list string) : list string :=
  match excludes with
  | [] => resources
  | e :: es =>
      spec_exclude es (fold_left (fun rs m => remove_first m rs) (filter (wild_match e) resources) resources)
  end.
Definition spec_selected (includes excludes all_resources : list string) : list string :=
  let resources := spec_exclude excludes (spec_included includes all_resources) in
  filter (fun r => smem r resources) all_resources.

(** set_specs, helpers.py:337-382, for one region: [override] is the override document, [spec] the region's
    specification.  Members of the override documents other than the two lists are merged first. *)
Definition str_list (v : val) : list string :=
  match v with
  | VList l => flat_map (fun x => match x with VStr s => [s] | _ => [] end) l
  | _ => []
  end.
Definition remove_key (k : string) (d : list (string * val)) : list (string * val) :=
  filter (fun kv => negb (String.eqb k (fst kv))) d.
Definition set_specs (override : list (string * val)) (spec : val) : res val :=
  let excludes := match assoc "ExcludeResourceTypes" override with Some v => str_list v | None => [] end in
  let includes := match assoc "IncludeResourceTypes" override with Some v => str_list v | None => [] end in
  let rest := remove_key "IncludeResourceTypes" (remove_key "ExcludeResourceTypes" override) in
  do merged <- (match rest with [] => Ok spec | _ => merge_spec (VDict rest) spec end);
  match merged with
  | VDict d =>
      match assoc "ResourceTypes" d with
      | Some (VDict types) =>
          let keep := spec_selected includes excludes (keys types) in
          Ok (VDict (set_assoc "ResourceTypes" (VDict (filter (fun kv => smem (fst kv) keep) types)) d))
      | Some _ => Err EAttribute
      | None => Err EKey
      end
  | _ => Err ETypeErr
  end.
