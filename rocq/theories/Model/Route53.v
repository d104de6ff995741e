(** Model of rules/resources/route53/RecordSet.py (E3020). *)
From Coq Require Import ZArith.
From Verif.Model Require Import Base Helpers Conditions Search Resolve Rules Refs Relationship Parameters Limits Functions PropertyRules Events SubProps.
Import Verif.Model.Rules.
Local Open Scope string_scope.

(** * Patterns *)
(** REGEX_IPV4, helpers.py:73-74. *)
Definition octet_zeros (s : string) : bool :=
  match s with
  | String a EmptyString => is_digit a
  | String a (String b EmptyString) => is_digit a && is_digit b
  | String a (String b (String c EmptyString)) =>
      (char_eqb a "2" && char_eqb b "5" && in_range 48 53 c) || (char_eqb a "2" && in_range 48 52 b && is_digit c) || (in_range 48 49 a && is_digit b && is_digit c)
  | _ => false
  end.
Definition ipv4_matches (s : string) : bool :=
  match split_on "." (drop_last_newline s) with [a; b; c; d] => octet_zeros a && octet_zeros b && octet_zeros c && octet_zeros d | _ => false end.
(** REGEX_ALPHANUMERIC, helpers.py:70. *)
Definition alphanumeric (s : string) : bool := str_forall is_alnum (drop_last_newline s).
(** REGEX_DOMAINNAME, RecordSet.py:21-22: its class holds the characters from ! to ~. *)
Definition host_matches (s : string) : bool := let t := drop_last_newline s in negb (String.eqb t "") && str_forall (in_range 33 126) t.
(** REGEX_CNAME_VALIDATIONS, RecordSet.py:24. *)
Fixpoint cut_end (e s : string) : option string :=
  if String.eqb s e then Some "" else match s with String a s' => option_map (String a) (cut_end e s') | EmptyString => None end.
Definition validation_matches (s : string) : bool :=
  let t := drop_last_newline s in
  let u := match cut_end "." t with Some u => u | None => t end in
  match cut_end ".acm-validations.aws" u with Some v => negb (has_char newline v) | None => false end.
(** REGEX_TXT, RecordSet.py:23, on the parts between quotation marks. *)
Definition quoted_part (s : string) : bool := Nat.leb 1 (String.length s) && Nat.leb (String.length s) 255.
Fixpoint txt_parts (l : list string) : bool :=
  match l with
  | inside :: gap :: rest =>
      quoted_part inside && match rest with [] => String.eqb gap "" | _ => str_forall (char_eqb " ") gap && txt_parts rest end
  | _ => false
  end.
Definition txt_matches (s : string) : bool :=
  match split_on """" (drop_last_newline s) with start :: rest => String.eqb start "" && txt_parts rest | [] => false end.

(** * Records *)
Section Records.
Variable ipv6 : string -> bool.

(** RecordSet.check_record, RecordSet.py:51-57. *)
Definition check_text (matches : string -> bool) (ty what : string) (v : val) (p : path) : res (list rulematch) :=
  Ok (match v with VStr s => if matches s then [] else [mkRM p (ty ++ " record (" ++ s ++ ") is not a valid " ++ what)] | _ => [] end).
(** RecordSet.check_caa_record, RecordSet.py:65-99; [value.split(' ', 2)]. *)
Definition split_twice (s : string) : list string :=
  match split_on " " s with a :: b :: c :: rest => [a; b; join_str " " (c :: rest)] | l => l end.
Definition is_number (s : string) : option Z := if all_digits s then parse_digits s 0 else None.
Definition starts_quote (s : string) : bool := match s with String a _ => char_eqb a """" | EmptyString => false end.
Definition ends_quote (s : string) : bool := match cut_end """" s with Some _ => true | None => false end.
Definition check_caa (v : val) (p : path) : res (list rulematch) :=
  Ok (match v with
      | VStr s =>
          match split_twice s with
          | [a; b; c] =>
              (match is_number a with
               | None => [mkRM p ("CAA record flag setting (" ++ a ++ ") should be of type Integer.")]
               | Some z => if Z.eqb z 0 || Z.eqb z 128 then [] else [mkRM p ("Invalid CAA record flag setting (" ++ a ++ ") given, must be 0 or 128.")]
               end ++
               (if alphanumeric b then [] else [mkRM p ("Invalid CAA record tag setting " ++ b ++ ". Value has to be alphanumeric.")]) ++
               (if negb (starts_quote c) || negb (ends_quote c) then [mkRM p "CAA record value setting has to be enclosed in double quotation marks ("")."] else []))%list
          | l => [mkRM p ("CAA record must contain 3 settings (flags tag ""value""), record contains " ++ str_of_Z (Z.of_nat (List.length l)) ++ " settings.")]
          end
      | _ => []
      end).
(** RecordSet.check_cname_record, RecordSet.py:101-114: matching anything but a text is a TypeError. *)
Definition check_cname (v : val) (p : path) : res (list rulematch) :=
  match v with
  | VDict _ => Ok []
  | VStr s => Ok (if host_matches s || validation_matches s then [] else [mkRM p ("CNAME record (" ++ s ++ ") does not contain a valid domain name")])
  | _ => Err ETypeErr
  end.
(** RecordSet.check_mx_record, RecordSet.py:116-145: the message for a bad name is the one before, if there is one. *)
Definition check_mx (v : val) (p : path) : res (list rulematch) :=
  match v with
  | VStr s =>
      match split_on " " s with
      | [a; b] =>
          let message := match is_number a with
                         | None => Some (fun x => "MX record priority setting (" ++ x ++ ") should be of type Integer.")
                         | Some z => if Z.leb z 65535 then None else Some (fun x => "Invalid MX record priority setting (" ++ x ++ ") given, must be between 0 and 65535.")
                         end in
          let first := match message with Some f => [mkRM p (f a)] | None => [] end in
          if host_matches b then Ok first
          else match message with Some f => Ok (first ++ [mkRM p (f b)])%list | None => Err (EOther "UnboundLocalError") end
      | l => Ok [mkRM p ("MX record must contain 2 settings (priority domainname), record contains " ++ str_of_Z (Z.of_nat (List.length l)) ++ " settings.")]
      end
  | _ => Ok []
  end.
(** RecordSet.check_txt_record, RecordSet.py:153-168. *)
Definition check_txt (v : val) (p : path) : res (list rulematch) :=
  match v with
  | VDict _ => Ok []
  | VStr s => Ok (if txt_matches s then []
                  else [mkRM p ("TXT record is not structured as one or more items up to 255 characters enclosed in double quotation marks at " ++ path_text p)])
  | _ => Err ETypeErr
  end.
(** The checks by type, RecordSet.py:184-243. *)
Definition record_check (ty : string) : option (val -> path -> res (list rulematch)) :=
  assoc ty [("A", check_text ipv4_matches "A" "IPv4 address"); ("AAAA", check_text ipv6 "AAAA" "IPv6 address"); ("CAA", check_caa); ("CNAME", check_cname); ("MX", check_mx);
            ("NS", check_text host_matches "NS" "domain name"); ("PTR", check_text host_matches "PTR" "domain name"); ("TXT", check_txt)].

(** * Record sets *)
(** RecordSet.count_c_names, RecordSet.py:26-49. *)
Definition count_names (order : list string -> list string) (c : conditions) (template globals records : val) (p : path) : res (list rulematch) :=
  do sets <- get_object_without_nested_conditions order c template globals records p;
  concat_res (fun so =>
    do n <- py_len (snd so);
    Ok (if Z.ltb 1 n
        then [mkRM p (match fst so with
                      | None => "A CNAME recordset can only contain 1 value"
                      | Some sc => "A CNAME recordset can only contain 1 value " ++ scenario_text sc ++ " at " ++ path_text p
                      end)] else [])) sets.
(** RecordSet.check_recordset, RecordSet.py:170-245. *)
Definition check_recordset (order : list string -> list string) (c : conditions) (template globals : val) (p : path) (recordset : val) : res (list rulematch) :=
  do ty <- vget "Type" recordset;
  if is_dict ty then Ok [] else
  do alias <- vget "AliasTarget" recordset;
  if truthy alias then Ok [] else
  do records <- vget "ResourceRecords" recordset;
  if negb (truthy records) then Ok [] else
  match ty with
  | VStr ty =>
      match record_check ty with
      | Some f =>
          do a <- (if String.eqb ty "CNAME" then count_names order c template globals records (p ++ [PKey "ResourceRecords"])%list else Ok []);
          do b <- check_value recordset "ResourceRecords" p f [];
          Ok (a ++ b)%list
      | None => Ok []
      end
  | _ => Ok []
  end.
(** RecordSet.match, RecordSet.py:247-275. *)
Definition recordsets_match (order : list string -> list string) (c : conditions) (globals template : val) : res (list rulematch) :=
  do a <- concat_res (fun nr =>
            do props <- vget "Properties" (snd nr);
            if truthy props then check_recordset order c template globals [PKey "Resources"; PKey (fst nr); PKey "Properties"] props else Ok [])
            (resources_of ["AWS::Route53::RecordSet"] template);
  do b <- (do l <- get_resource_properties "AWS::Route53::RecordSetGroup" ["RecordSets"] template;
           concat_res (fun pv =>
             match snd pv with
             | VList items => concat_res (fun ix => check_recordset order c template globals (fst pv ++ [PIdx (fst ix)])%list (snd ix)) (enum items)
             | _ => Ok []
             end) l);
  Ok (a ++ b)%list.
Definition recordset_rule (hash : val -> string) (order : list string -> list string) (fuel : nat) (globals : val) : rule :=
  mkRule "E3020" false [] [] [] [] (fun _ => ([], []))
    (Some (fun _ c => recordsets_match order (load hash fuel (template c)) globals (template c))) None None.
End Records.
