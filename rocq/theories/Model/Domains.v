(** Models of rules/resources/route53/RecordSetName.py (E3041) and rules/resources/certificatemanager/DomainValidationOptions.py (E3503). *)
From Verif.Model Require Import Base Helpers Conditions Search Resolve Rules Refs Relationship PropertyRules SubProps Route53.
Import Verif.Model.Rules.
Local Open Scope string_scope.

(** The messages of both rules: the path of the object and, after a space, the scenario. *)
Definition domain_match (p : path) (sc : option scenario) (key words : string) : rulematch :=
  mkRM (p ++ [PKey key])%list (words ++ path_text p ++ match sc with None => "" | Some s => " " ++ scenario_text s end).
(** [s[:-1]] for a text that ends in a dot, RecordSetName.py:43-46. *)
Definition chop (s : string) : string := match cut_end "." s with Some u => u | None => s end.
(** [s[-n:]], which is all of [s] for [n = 0]. *)
Definition last_n (n : nat) (s : string) : string := match n with 0 => s | _ => substring (String.length s - n) n s end.
(** The body of the loop of RecordSetName.match_resource_properties, RecordSetName.py:28-57.  The last character of an empty text is an
    IndexError. *)
Definition zone_of_set (p : path) (so : option scenario * val) : res (list rulematch) :=
  do name <- vget "Name" (snd so);
  do zone <- vget "HostedZoneName" (snd so);
  match name, zone with
  | VStr n, VStr z =>
      match last_char z with
      | None => Err EIndex
      | Some a =>
          let first := if char_eqb a "." then [] else [domain_match p (fst so) "HostedZoneName" "HostedZoneName must end in a dot at "] in
          match last_char n with
          | None => Err EIndex
          | Some _ =>
              let n' := chop n in let z' := chop z in
              Ok (first ++ (if String.eqb z' n' || String.eqb z' (last_n (String.length z') n') then [] else [domain_match p (fst so) "Name" "Name must be a superdomain of HostedZoneName at "]))%list
          end
      end
  | _, _ => Ok []
  end.
(** RecordSetName.match_resource_properties, RecordSetName.py:23-59. *)
Definition zones_match (order : list string -> list string) (c : conditions) (props : val) (p : path) : res (list rulematch) :=
  do sets <- get_object_without_conditions order c props ["Name"; "HostedZoneName"];
  concat_res (zone_of_set p) sets.
Definition zone_rule (hash : val -> string) (order : list string -> list string) (fuel : nat) : rule :=
  mkRule "E3041" false [] [] ["AWS::Route53::RecordSet"] [] (fun _ => ([], [])) None
    (Some (fun _ c props _ p => zones_match order (load hash fuel (template c)) props p)) None.

(** The body of the loop of DomainValidationOptions.check_value, DomainValidationOptions.py:29-47. *)
Definition option_check (p : path) (so : option scenario * val) : res (list rulematch) :=
  do name <- vget "DomainName" (snd so);
  do domain <- vget "ValidationDomain" (snd so);
  Ok (match name, domain with
      | VStr n, VStr v =>
          if String.eqb n v then []
          else match cut_end ("." ++ v) n with Some _ => [] | None => [domain_match p (fst so) "DomainName" "ValidationDomain must be a superdomain of DomainName at "] end
      | _, _ => []
      end).
(** DomainValidationOptions.check_value, DomainValidationOptions.py:24-48. *)
Definition check_option (order : list string -> list string) (c : conditions) (v : val) (p : path) : res (list rulematch) :=
  if is_dict v then do sets <- get_object_without_conditions order c v []; concat_res (option_check p) sets else Ok [].
(** DomainValidationOptions.match_resource_properties, DomainValidationOptions.py:50-58. *)
Definition options_match (order : list string -> list string) (c : conditions) (props : val) (p : path) : res (list rulematch) :=
  check_value props "DomainValidationOptions" p (check_option order c) [].
Definition option_rule (hash : val -> string) (order : list string -> list string) (fuel : nat) : rule :=
  mkRule "E3503" false [] [] ["AWS::CertificateManager::Certificate"] [] (fun _ => ([], [])) None
    (Some (fun _ c props _ p => options_match order (load hash fuel (template c)) props p)) None.
