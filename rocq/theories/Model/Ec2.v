(** Models of rules/resources/ectwo/RouteTableAssociation.py (E3022) and rules/resources/ectwo/SecurityGroupIngress.py (E2506). *)
From Verif.Model Require Import Base Helpers Search Rules Refs ConditionRules Relationship PropertyRules SubProps.
Import Verif.Model.Rules.
Local Open Scope string_scope.

(** * E3022 *)
(** A value of a subnet with the condition of its resource and of its Fn::If, the tuples of RouteTableAssociation.py:49. *)
Definition tuple : Type := val * val * val.
(** [value[1]] and ['.'.join(value)] of RouteTableAssociation.py:46-48; the text "a.b" is joined character by character. *)
Definition joined_attribute (x : val) : res (option string) :=
  match x with
  | VList l =>
      match nth_error l 1 with
      | None => Err EIndex
      | Some (VStr _) => do ts <- map_res (fun y => match y with VStr s => Ok s | _ => Err ETypeErr end) l; Ok (Some (join_str "." ts))
      | Some _ => Ok None
      end
  | VStr s =>
      match list_ascii_of_string s with
      | _ :: _ :: _ => Ok (Some (join_str "." (map (fun a => String a "") (list_ascii_of_string s))))
      | _ => Err EIndex
      end
  | VDict _ => Err EKey
  | _ => Err ETypeErr
  end.
(** RouteTableAssociation.get_values, RouteTableAssociation.py:29-53. *)
Fixpoint subnet_values (v rc pc : val) {struct v} : res (list tuple) :=
  match v with
  | VDict [(k, x)] =>
      if String.eqb k "Fn::If" then
        match x with
        | VList [c; a; b] => do l <- subnet_values a rc c; do r <- subnet_values b rc c; Ok (l ++ r)%list
        | _ => Ok []
        end
      else if String.eqb k "Ref" then subnet_values x rc pc
      else if String.eqb k "Fn::GetAtt" then
        do t <- joined_attribute x; Ok (match t with Some s => [(rc, pc, VStr s)] | None => [] end)
      else Ok []
  | VDict _ => Ok []
  | _ => Ok [(rc, pc, v)]
  end.
(** A tuple is a key of a dictionary, RouteTableAssociation.py:61. *)
Definition tuple_hashable (x : tuple) : bool := let '(rc, pc, v) := x in hashable rc && hashable pc && hashable v.
Definition tuple_eq (x y : tuple) : bool := let '(rc, pc, v) := x in let '(rc', pc', v') := y in py_eq rc rc' && py_eq pc pc' && py_eq v v'.
(** The first loop of RouteTableAssociation.match and check_values, RouteTableAssociation.py:55-72: the tuples of one resource. *)
Definition associate (nr : string * val) : res (list (string * tuple)) :=
  do props <- vget "Properties" (snd nr);
  if truthy props then
    do rc <- vget "Condition" (snd nr);
    do sid <- vget "SubnetId" props;
    do vs <- subnet_values sid rc VNull;
    if forallb tuple_hashable vs then Ok (map (fun x => (fst nr, x)) vs) else Err ETypeErr
  else Ok [].
(** [self.associated_resources[value]]. *)
Definition sharers (all : list (string * tuple)) (x : tuple) : list string := map fst (filter (fun ny => tuple_eq (snd ny) x) all).
(** RouteTableAssociation.py:75-84. *)
Definition other_resources (all : list (string * tuple)) (nx : string * tuple) : list string :=
  let '(name, x) := nx in
  let nothing := (VNull, VNull, snd x) in
  ((if Nat.ltb 1 (List.length (sharers all x)) then filter (fun o => negb (String.eqb o name)) (sharers all x) else [])
   ++ (if tuple_eq x nothing then [] else sharers all nothing))%list.
(** The second loop of RouteTableAssociation.match, RouteTableAssociation.py:73-91. *)
Definition association_one (all : list (string * tuple)) (nx : string * tuple) : list rulematch :=
  match other_resources all nx with
  | [] => []
  | os => [mkRM [PKey "Resources"; PKey (fst nx); PKey "Properties"; PKey "SubnetId"] ("SubnetId in " ++ fst nx ++ " is also associated with " ++ join_str ", " os)]
  end.
(** RouteTableAssociation.match, RouteTableAssociation.py:63-93.  The state is emptied by initialize for each template. *)
Definition associations_match (template : val) : res (list rulematch) :=
  do all <- concat_res associate (resources_of ["AWS::EC2::SubnetRouteTableAssociation"] template);
  Ok (flat_map (association_one all) all).
Definition association_rule : rule :=
  mkRule "E3022" false [] [] [] [] (fun _ => ([], [])) (Some (fun _ c => associations_match (template c))) None None.

(** * E2506 *)
(** SecurityGroupIngress.check_ingress_rule, SecurityGroupIngress.py:20-45. *)
Definition check_ingress (in_vpc : bool) (props : val) (p : path) : res (list rulematch) :=
  let key := if in_vpc then "SourceSecurityGroupName" else "SourceSecurityGroupId" in
  let q := (p ++ [PKey key])%list in
  do x <- vget key props;
  Ok (if truthy x then [mkRM q (key ++ " shouldn't be specified for " ++ (if in_vpc then "Vpc" else "Non-Vpc") ++ " Security Group at " ++ path_text q)] else []).
(** The first loop of SecurityGroupIngress.match, SecurityGroupIngress.py:52-71. *)
Definition group_ingress (nr : string * val) : res (list rulematch) :=
  do props <- vget_def "Properties" (VDict []) (snd nr);
  if truthy props then
    do vpc <- vget "VpcId" props;
    do rules <- vget "SecurityGroupIngress" props;
    match rules with
    | VList l => concat_res (fun ix => check_ingress (truthy vpc) (snd ix) [PKey "Resources"; PKey (fst nr); PKey "Properties"; PKey "SecurityGroupIngress"; PIdx (fst ix)]) (enum l)
    | _ => Ok []
    end
  else Ok [].
(** The second loop, SecurityGroupIngress.py:73-93. *)
Definition single_ingress (nr : string * val) : res (list rulematch) :=
  do props <- vget_def "Properties" (VDict []) (snd nr);
  do group <- vget "GroupId" props;
  if truthy props then check_ingress (truthy group) props [PKey "Resources"; PKey (fst nr); PKey "Properties"] else Ok [].
Definition ingress_match (template : val) : res (list rulematch) :=
  do a <- concat_res group_ingress (resources_of ["AWS::EC2::SecurityGroup"] template);
  do b <- concat_res single_ingress (resources_of ["AWS::EC2::SecurityGroupIngress"] template);
  Ok (a ++ b)%list.
Definition ingress_rule : rule :=
  mkRule "E2506" false [] [] [] [] (fun _ => ([], [])) (Some (fun _ c => ingress_match (template c))) None None.
