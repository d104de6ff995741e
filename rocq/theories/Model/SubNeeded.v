(** Model of rules/functions/SubNeeded.py (E1029): variables in texts that no Fn::Sub substitutes. *)
From Verif.Model Require Import Base Helpers Node Conditions Search Rules Refs Relationship.
Import Verif.Model.Rules.
Local Open Scope string_scope.

(** The characters of [A-Za-z0-9_:\.], SubNeeded.py:66. *)
Definition variable_char (a : ascii) : bool :=
  is_upper a || is_lower a || is_digit a || char_eqb a "_" || char_eqb a ":" || char_eqb a ".".
(** The rest of a variable: characters of names and a closing brace. *)
Fixpoint close_variable (s : string) : option string :=
  match s with
  | String a s' =>
      if char_eqb a "}" then Some ""
      else if variable_char a then match close_variable s' with Some n => Some (String a n) | None => None end
      else None
  | EmptyString => None
  end.
(** The name of the variable a text begins with. *)
Definition leading_variable (s : string) : option string :=
  match s with
  | String a (String b s') =>
      if char_eqb a "$" && char_eqb b "{" then
        match close_variable s' with Some (String c n) => Some (String c n) | _ => None end
      else None
  | _ => None
  end.
(** [re.findall(r'(\$\{[A-Za-z0-9_:\.]+\})', text)], SubNeeded.py:85, as the names between the braces.  A variable has no dollar sign
    inside, so that looking for the next one at the following character finds the same as looking for it behind the brace. *)
Fixpoint variables (s : string) : list string :=
  match s with
  | EmptyString => []
  | String _ s' => ((match leading_variable s with Some n => [n] | None => [] end) ++ variables s')%list
  end.
Definition braced (n : string) : string := "${" ++ n ++ "}".

(** SubNeeded._match_values, SubNeeded.py:68-88: the paths without their last element, the variable, which is given by its name. *)
Fixpoint match_values (v : val) (p : path) {struct v} : list (path * string) :=
  match v with
  | VDict d =>
      (fix god (d : list (string * val)) : list (path * string) :=
         match d with [] => [] | (k, x) :: r => match_values x (p ++ [PKey k]) ++ god r end) d
  | VList l =>
      (fix gol (i : nat) (l : list val) : list (path * string) :=
         match l with [] => [] | x :: r => match_values x (p ++ [PIdx i]) ++ gol (S i) r end) 0 l
  | VStr s => map (fun n => (p, n)) (variables s)
  | _ => []
  end%list.

Section SubNeeded.
Variable template : val.
(** SubNeeded.match_values, SubNeeded.py:90-98. *)
Definition all_variables : res (list (path * string)) :=
  do g <- vget_def "Globals" (VDict []) template;
  Ok (match_values template [] ++ match_values g [])%list.

Definition resource_excludes : list string :=
  ["aws:CurrentTime"; "aws:EpochTime"; "aws:TokenIssueTime"; "aws:principaltype"; "aws:SecureTransport"; "aws:SourceIp"; "aws:UserAgent";
   "aws:userid"; "aws:username"; "ec2:SourceInstanceARN"; "iot:Connection.Thing.ThingName"; "iot:Connection.Thing.ThingTypeName";
   "iot:Connection.Thing.IsAttached"; "iot:ClientId"; "transfer:HomeBucket"; "transfer:HomeDirectory"; "transfer:HomeFolder";
   "transfer:UserName"; "redshift:DbUser"; "cognito-identity.amazonaws.com:aud"; "cognito-identity.amazonaws.com:sub";
   "cognito-identity.amazonaws.com:amr"].
Definition condition_excludes : list string := ["redshift:DbUser"].
Definition excludes : list string :=
  ["UserData"; "ZipFile"; "Condition"; "AWS::CloudFormation::Init"; "CloudWatchAlarmDefinition"; "TopicRulePayload"; "BuildSpec";
   "RequestMappingTemplate"; "LogFormat"; "TemplateBody"; "ResponseMappingTemplate"; "RouteSelectionExpression"].
Definition api_excludes : list string := ["Uri"; "Body"; "ConnectionId"].

(** [key in path]: the variable at the end of the path begins with a dollar sign and is none of the keys asked for. *)
Definition on_path (k : string) (p : path) : bool := existsb (pelem_eqb (PKey k)) p.
(** SubNeeded.py:120-134. *)
Definition is_excluded (p : path) (n : string) : bool :=
  (match p with PKey k :: _ => String.eqb k "Parameters" | _ => false end)
  || (on_path "Resource" p && smem n resource_excludes)
  || (on_path "NotResource" p && smem n resource_excludes)
  || (on_path "Condition" p && smem n condition_excludes).

(** The parts of the path before the first 'DefinitionString' and behind it. *)
Fixpoint cut_definition (p : path) : option (path * path) :=
  match p with
  | [] => None
  | e :: r =>
      if pelem_eqb (PKey "DefinitionString") e then Some ([], r)
      else match cut_definition r with Some (a, b) => Some (e :: a, b) | None => None end
  end.
(** [reduce(lambda c, k: c.get(k, {}), path, template)], SubNeeded.py:145.  A position in a list is a key that no object has. *)
Fixpoint follow (p : path) (v : val) : res val :=
  match p with
  | [] => Ok v
  | PKey k :: r => do x <- vget_def k (VDict []) v; follow r x
  | PIdx _ :: r => do x <- match v with VDict _ => Ok (VDict []) | _ => vget_def "" (VDict []) v end; follow r x
  end.
(** SubNeeded.py:139-146: whether the variable is substituted, and the path, in which 'DefinitionString' has been replaced. *)
Definition definition_string (p : path) (n : string) : res (bool * path) :=
  match cut_definition p with
  | None => Ok (false, p)
  | Some (a, b) =>
      do x <- follow (a ++ [PKey "DefinitionSubstitutions"; PKey n])%list template;
      Ok (truthy x, (a ++ PKey "DefinitionSubstitutions" :: b)%list)
  end.

(** [matches regex text]: re.match finds a match at the start of the text. *)
Variable matches : string -> string -> bool.
(** SubNeeded._variable_custom_excluded, SubNeeded.py:105-111.  A value that is no text is no pattern. *)
Definition custom_excluded (config : config) (n : string) : res bool :=
  match assoc "custom_excludes" config with
  | None => Err EKey
  | Some v =>
      if truthy v then match v with VStr r => Ok (matches r (braced n)) | _ => Err ETypeErr end else Ok false
  end.
(** SubNeeded._api_exceptions and the loop over the steps, SubNeeded.py:100-103 and 158-165.  The test for literals in lines 153-155
    is left out: no variable found begins with an exclamation mark. *)
Definition stage_variable (n : string) : bool := starts_with "stageVariables." n.
Definition step_excuses (n : string) (e : pelem) : bool :=
  match e with
  | PKey k => if smem k api_excludes then stage_variable n else String.eqb k "Fn::Sub" || smem k excludes
  | PIdx _ => false
  end.
Definition needed_match (p : path) (n : string) : rulematch :=
  mkRM p ("Found an embedded parameter """ ++ braced n ++ """ outside of an ""Fn::Sub"" at " ++ path_text p).
(** SubNeeded.match, SubNeeded.py:113-175. *)
Definition variable_check (config : config) (pn : path * string) : res (list rulematch) :=
  if is_excluded (fst pn) (snd pn) then Ok []
  else
    do d <- definition_string (fst pn) (snd pn);
    if fst d then Ok []
    else
      do b <- custom_excluded config (snd pn);
      Ok (if b || existsb (step_excuses (snd pn)) (snd d) then [] else [needed_match (snd d) (snd pn)]).
Definition sub_needed_match (config : config) : res (list rulematch) :=
  do l <- all_variables;
  concat_res (variable_check config) l.
End SubNeeded.

(** The rule as the collection holds it. *)
Definition sub_needed_rule (matches : string -> string -> bool) (config : config) : rule :=
  mkRule "E1029" false [("custom_excludes", (CString, VStr ""))] config [] [] (fun _ => ([], []))
    (Some (fun cfg c => sub_needed_match (template c) matches cfg)) None None.
