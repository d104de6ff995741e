(** Model of rules/resources/elb/Elb.py (E2503). *)
From Verif.Model Require Import Base Helpers Conditions Search Resolve Rules Refs Relationship PropertyRules SubProps.
Import Verif.Model.Rules.
Local Open Scope string_scope.

(** * Listeners *)
(** Elb.check_protocol_value, Elb.py:24-39.  [upper] is that of ASCII letters. *)
Definition check_protocol (known secure : list string) (certificates v : val) (p : path) : res (list rulematch) :=
  Ok (match v with
      | VStr s =>
          if negb (smem (upper s) known) then [mkRM p ("Protocol must be " ++ join_str ", " known ++ " is invalid at " ++ path_text p)]
          else if smem (upper s) secure && negb (truthy certificates) then [mkRM p ("Certificates should be specified when using HTTPS for " ++ path_text p)]
          else []
      | _ => []
      end).
(** Elb.match, Elb.py:123-150: the listeners that are resources and those that are in load balancers. *)
Definition check_listener (known secure : list string) (certificate : string) (p : path) (listener : val) : res (list rulematch) :=
  do certificates <- vget certificate listener;
  check_value listener "Protocol" p (check_protocol known secure certificates) [].
Definition listeners_match (template : val) : res (list rulematch) :=
  do a <- (do l <- get_resource_properties "AWS::ElasticLoadBalancingV2::Listener" [] template;
           concat_res (fun pv => check_listener ["GENEVE"; "HTTP"; "HTTPS"; "TCP"; "TCP_UDP"; "TLS"; "UDP"] ["HTTPS"; "TLS"] "Certificates" (fst pv) (snd pv)) l);
  do b <- (do l <- get_resource_properties "AWS::ElasticLoadBalancing::LoadBalancer" ["Listeners"] template;
           concat_res (fun pv =>
             match snd pv with
             | VList items => concat_res (fun ix => check_listener ["HTTP"; "HTTPS"; "TCP"; "SSL"] ["HTTPS"; "SSL"] "SSLCertificateId" (fst pv ++ [PIdx (fst ix)])%list (snd ix)) (enum items)
             | _ => Ok []
             end) l);
  Ok (a ++ b)%list.

(** * Load balancers *)
(** Elb.get_loadbalancer_type, Elb.py:41-48. *)
Definition balancer_type (props : val) : res (option string) :=
  do ty <- vget_def "Type" (VStr "application") props;
  Ok (match ty with VStr s => Some (if String.eqb s "application" then "application" else "network") | _ => None end).
(** A match at [p] with the text of the scenario, if there is one that is not empty, or at [q]. *)
Definition balancer_match (words : string) (p q : path) (sc : option scenario) : rulematch :=
  match sc with
  | Some (x :: s) => mkRM p (words ++ " " ++ scenario_text (x :: s))
  | _ => mkRM q words
  end.
(** Elb.check_alb_subnets, Elb.py:50-77. *)
Definition check_few (key : string) (props : val) (p : path) (sc : option scenario) : res (list rulematch) :=
  do x <- vget key props;
  Ok (match x with
      | VList l => if Nat.ltb (List.length l) 2
                   then [balancer_match ("You must specify at least two " ++ key ++ " for load balancers with type ""application""") p (p ++ [PKey key])%list sc] else []
      | _ => []
      end).
Definition check_subnets (props : val) (p : path) (sc : option scenario) : res (list rulematch) :=
  do ty <- balancer_type props;
  match ty with
  | Some "application" => do a <- check_few "Subnets" props p sc; do b <- check_few "SubnetMappings" props p sc; Ok (a ++ b)%list
  | _ => Ok []
  end.
(** Elb.check_loadbalancer_allowed_attributes, Elb.py:79-121. *)
Definition allowed_attributes (ty : string) : list string :=
  ["access_logs.s3.enabled"; "access_logs.s3.bucket"; "access_logs.s3.prefix"; "deletion_protection.enabled"] ++
  (if String.eqb ty "application"
   then ["idle_timeout.timeout_seconds"; "routing.http.desync_mitigation_mode"; "routing.http.drop_invalid_header_fields.enabled"; "routing.http2.enabled"; "waf.fail_open.enabled"]
   else ["load_balancing.cross_zone.enabled"]).
Definition check_attribute (props : val) (p : path) (sc : option scenario) (item : val) : res (list rulematch) :=
  do key <- vget "Key" item;
  do value <- vget "Value" item;
  match key, value with
  | VStr k, (VStr _ | VBool _ | VInt _) =>
      do ty <- balancer_type props;
      Ok (match ty with
          | Some ty => if smem k (allowed_attributes ty) then []
                       else [balancer_match ("Attribute """ ++ k ++ """ not allowed for load balancers with type """ ++ ty ++ """") p p sc]
          | None => []
          end)
  | _, _ => Ok []
  end.
Definition check_attributes (props : val) (p : path) (sc : option scenario) : res (list rulematch) :=
  do l <- vget "LoadBalancerAttributes" props;
  match l with VList items => concat_res (check_attribute props p sc) items | _ => Ok [] end.
(** The check of security groups, Elb.py:161-170: the matches and the path that the rest of the loop uses. *)
Definition check_groups (props : val) (p : path) (sc : option scenario) : res (list rulematch * path) :=
  do ty <- balancer_type props;
  match ty with
  | Some "network" =>
      do groups <- vget "SecurityGroups" props;
      let q := (p ++ [PKey "SecurityGroups"])%list in
      Ok (if truthy groups
          then ([balancer_match "Security groups are not supported for load balancers with type ""network""" p q sc], match sc with Some (_ :: _) => p | _ => q end)
          else ([], p))
  | _ => Ok ([], p)
  end.
(** The loop of Elb.match_resource_properties, Elb.py:158-176. *)
Fixpoint check_balancers (sets : list (option scenario * val)) (p : path) : res (list rulematch) :=
  match sets with
  | [] => Ok []
  | (sc, props) :: rest =>
      do g <- check_groups props p sc;
      do a <- check_subnets props (snd g) sc;
      do b <- check_attributes props (snd g) sc;
      do r <- check_balancers rest (snd g);
      Ok (fst g ++ a ++ b ++ r)%list
  end.
Definition balancer_check (order : list string -> list string) (c : conditions) (template globals props : val) (p : path) : res (list rulematch) :=
  do sets <- get_object_without_nested_conditions order c template globals props p;
  check_balancers sets p.
(** [globals]: what Template.search_deep_keys searches besides the template, template.py:311-321. *)
Definition elb_rule (hash : val -> string) (order : list string -> list string) (fuel : nat) (globals : val) : rule :=
  mkRule "E2503" false [] [] ["AWS::ElasticLoadBalancingV2::LoadBalancer"] [] (fun _ => ([], []))
    (Some (fun _ c => listeners_match (template c)))
    (Some (fun _ c props _ p => balancer_check order (load hash fuel (template c)) (template c) globals props p)) None.
