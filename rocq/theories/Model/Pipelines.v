(** Models of rules/resources/codepipeline/CodepipelineStages.py (E2540) and CodepipelineStageActions.py (E2541). *)
From Verif.Model Require Import Base Helpers Node Conditions Search Resolve Rules Refs Relationship Limits Functions ConditionRules PropertyRules SubProps.
Import Verif.Model.Rules.
Local Open Scope string_scope.

(** * Stages *)
(** CodepipelineStages._format_error_message, CodepipelineStages.py:19-26. *)
Definition outcome_text (sc : scenario) : string :=
  join_str " and " (map (fun kb => "condition """ ++ fst kb ++ """ is " ++ bool_text (snd kb)) sc).
Definition stage_message (words : string) (sc : option scenario) : string :=
  match sc with
  | Some (x :: s) => words ++ " When " ++ outcome_text (x :: s)
  | _ => words
  end.
(** check_stage_count, CodepipelineStages.py:28-37. *)
Definition check_stage_count (stages : list val) (p : path) (sc : option scenario) : res (list rulematch) :=
  Ok (if Nat.ltb (List.length stages) 2
      then [mkRM p (stage_message ("CodePipeline has " ++ str_of_Z (Z.of_nat (List.length stages)) ++ " stages. There must be at least two stages.") sc)]
      else []).
(** [obj['Actions']]. *)
Definition actions_at (stage : val) : res val :=
  match stage with
  | VDict d => match assoc "Actions" d with Some x => Ok x | None => Err EKey end
  | _ => Err ETypeErr
  end.
(** [a.get('ActionTypeId').get('Category')]. *)
Definition category_of (action : val) : res val := do t <- vget "ActionTypeId" action; vget "Category" t.
(** Adding a value to a set, which it must be hashable for. *)
Definition set_add (v : val) (s : list val) : res (list val) :=
  if hashable v then Ok (if py_in v s then s else v :: s) else Err ETypeErr.
(** The list of categories is built before the set is. *)
Fixpoint set_of (l : list val) : res (list val) :=
  match l with
  | [] => Ok []
  | x :: xs => do s <- set_of xs; set_add x s
  end.
(** check_first_stage, CodepipelineStages.py:39-60. *)
Definition check_first_stage (stages : list val) (p : path) (sc : option scenario) : res (list rulematch) :=
  match stages with
  | [] => Ok []
  | stage :: _ =>
      do actions <- actions_at stage;
      do actions <- iterate_values actions;
      do categories <- map_res category_of actions;
      do first <- set_of categories;
      let q := (p ++ [PIdx 0; PKey "Name"])%list in
      Ok ((match first with
           | [] => []
           | _ => if py_in (VStr "Source") first then [] else [mkRM q (stage_message "The first stage of a pipeline must contain at least one source action." sc)]
           end) ++
          (if Nat.eqb (List.length first) 1 then [] else [mkRM q (stage_message "The first stage of a pipeline must contain only source actions." sc)]))%list
  end.
(** check_source_actions, CodepipelineStages.py:62-85: the loop over the actions of a stage and that over the stages, each with the
    categories that were seen. *)
Fixpoint source_actions (p : path) (sc : option scenario) (sidx aidx : nat) (actions : list val) (seen : list val) : res (list rulematch * list val) :=
  match actions with
  | [] => Ok ([], seen)
  | action :: rest =>
      do category <- category_of action;
      do seen <- set_add category seen;
      let here := if Nat.ltb 0 sidx && eq_str "Source" category
                  then [mkRM (p ++ [PIdx sidx; PKey "Actions"; PIdx aidx])%list (stage_message "Only the first stage of a pipeline may contain source actions." sc)]
                  else [] in
      do r <- source_actions p sc sidx (S aidx) rest seen;
      Ok ((here ++ fst r)%list, snd r)
  end.
Fixpoint source_stages (p : path) (sc : option scenario) (sidx : nat) (stages : list val) (seen : list val) : res (list rulematch * list val) :=
  match stages with
  | [] => Ok ([], seen)
  | stage :: rest =>
      do actions <- vget_def "Actions" (VList []) stage;
      do actions <- iterate_values actions;
      do a <- source_actions p sc sidx 0 actions seen;
      do r <- source_stages p sc (S sidx) rest (snd a);
      Ok ((fst a ++ fst r)%list, snd r)
  end.
Definition check_source_actions (stages : list val) (p : path) (sc : option scenario) : res (list rulematch) :=
  match stages with
  | [] => Ok []
  | _ =>
      do r <- source_stages p sc 0 stages [];
      Ok (fst r ++ (if forallb (eq_str "Source") (snd r)
                    then [mkRM p (stage_message "At least one stage in pipeline must contain an action that is not a source action." sc)] else []))%list
  end.
(** check_names_unique, CodepipelineStages.py:87-104. *)
Fixpoint unique_stages (p : path) (sc : option scenario) (sidx : nat) (stages : list val) (seen : list string) : res (list rulematch) :=
  match stages with
  | [] => Ok []
  | stage :: rest =>
      do n <- vget "Name" stage;
      match n with
      | VStr s =>
          let here := if smem s seen then [mkRM (p ++ [PIdx sidx; PKey "Name"])%list (stage_message ("All stage names within a pipeline must be unique. (" ++ s ++ ")") sc)] else [] in
          do r <- unique_stages p sc (S sidx) rest (s :: seen);
          Ok (here ++ r)%list
      | _ => unique_stages p sc (S sidx) rest seen
      end
  end.
(** The try block of CodepipelineStages.match, CodepipelineStages.py:122-137: an AttributeError ends it. *)
Definition attribute_error (e : exn) : bool := match e with EAttribute | ETemplateAttribute => true | _ => false end.
Fixpoint tried (checks : list (res (list rulematch))) : res (list rulematch) :=
  match checks with
  | [] => Ok []
  | Ok ms :: rest => do r <- tried rest; Ok (ms ++ r)%list
  | Err e :: _ => if attribute_error e then Ok [] else Err e
  end.
Definition check_stages (p : path) (set : option scenario * val) : res (list rulematch) :=
  match snd set with
  | VList l => tried [check_stage_count l p (fst set); check_first_stage l p (fst set); check_source_actions l p (fst set); unique_stages p (fst set) 0 l []]
  | _ => Ok []
  end.
(** CodepipelineStages.match, CodepipelineStages.py:106-139. *)
Definition stages_match (order : list string -> list string) (c : conditions) (template globals : val) : res (list rulematch) :=
  do l <- get_resource_properties "AWS::CodePipeline::Pipeline" [] template;
  concat_res (fun pv =>
    let p := (fst pv ++ [PKey "Stages"])%list in
    do stages <- vget "Stages" (snd pv);
    do sets <- get_object_without_nested_conditions order c template globals stages p;
    concat_res (check_stages p) sets) l.
Definition stages_rule (hash : val -> string) (order : list string -> list string) (fuel : nat) (globals : val) : rule :=
  mkRule "E2540" false [] [] [] [] (fun _ => ([], []))
    (Some (fun _ c => stages_match order (load hash fuel (template c)) (template c) globals)) None None.

(** * Actions *)
(** CONSTRAINTS, CodepipelineStageActions.py:19-122: by owner, category and provider the numbers of input and of output artifacts, as a
    least and a greatest number.  [exactly n] is the number [n] of the table, [between a b] the pair. *)
Inductive range := exactly (n : nat) | between (a b : nat).
Definition CONSTRAINTS : list (string * list (string * list (string * (range * range)))) :=
  [("AWS",
    [("Source", [("S3", (exactly 0, exactly 1)); ("CodeCommit", (exactly 0, exactly 1)); ("ECR", (exactly 0, exactly 1))]);
     ("Test", [("CodeBuild", (between 1 5, between 0 5)); ("DeviceFarm", (exactly 1, exactly 0))]);
     ("Build", [("CodeBuild", (between 1 5, between 0 5))]);
     ("Approval", [("Manual", (exactly 0, exactly 0))]);
     ("Deploy", [("S3", (exactly 1, exactly 0)); ("CloudFormation", (between 0 10, between 0 1)); ("CodeDeploy", (exactly 1, exactly 0));
                 ("ElasticBeanstalk", (exactly 1, exactly 0)); ("OpsWorks", (exactly 1, exactly 0)); ("ECS", (exactly 1, exactly 0));
                 ("ServiceCatalog", (exactly 1, exactly 0))]);
     ("Invoke", [("Lambda", (between 0 5, between 0 5))])]);
   ("ThirdParty", [("Source", [("GitHub", (exactly 0, exactly 1))]); ("Deploy", [("AlexaSkillsKit", (between 0 2, exactly 0))])]);
   ("Custom", [("Build", [("Jenkins", (between 0 5, between 0 5))]); ("Test", [("Jenkins", (between 0 5, between 0 5))])])].
(** [table.get(key, {})], where the key must be hashable. *)
Definition row {A} (table : list (string * list A)) (key : val) : res (list A) :=
  if hashable key then Ok (match key with VStr s => match assoc s table with Some l => l | None => [] end | _ => [] end) else Err ETypeErr.
Definition constraints_of (owner category provider : val) : res (option (range * range)) :=
  do a <- row CONSTRAINTS owner;
  do b <- row a category;
  if hashable provider then Ok (match provider with VStr s => assoc s b | _ => None end) else Err ETypeErr.
(** check_artifact_counts, CodepipelineStageActions.py:124-181: [inputs] says for which of the two kinds; [show] is what format gives for
    a name that is not a text. *)
Definition artifacts_of (inputs : bool) : string := if inputs then "InputArtifacts" else "OutputArtifacts".
Definition action_name (show : val -> string) (action : val) : res string :=
  match action with
  | VDict d => match assoc "Name" d with Some (VStr s) => Ok s | Some v => Ok (show v) | None => Err EKey end
  | _ => Err ETypeErr
  end.
Definition num (n : nat) : string := str_of_Z (Z.of_nat n).
Definition check_artifact_counts (show : val -> string) (inputs : bool) (action : val) (p : path) : res (list rulematch) :=
  do t <- vget "ActionTypeId" action;
  do owner <- vget "Owner" t;
  do category <- vget "Category" t;
  do provider <- vget "Provider" t;
  if is_dict owner || is_dict category || is_dict provider then Ok []
  else
    do c <- constraints_of owner category provider;
    match c with
    | None => Ok []
    | Some both =>
        do arts <- vget_def (artifacts_of inputs) (VList []) action;
        do count <- py_len arts;
        let q := (p ++ [PKey (artifacts_of inputs)])%list in
        match (if inputs then fst both else snd both) with
        | between a b =>
            if (Z.of_nat a <=? count)%Z && (count <=? Z.of_nat b)%Z then Ok []
            else do name <- action_name show action;
                 Ok [mkRM q ("Action """ ++ name ++ """ declares " ++ str_of_Z count ++ " " ++ artifacts_of inputs ++ " which is not in expected range [" ++ num a ++ ", " ++ num b ++ "].")]
        | exactly a =>
            if (count =? Z.of_nat a)%Z then Ok []
            else do name <- action_name show action;
                 Ok [mkRM q ("Action """ ++ name ++ """ declares " ++ str_of_Z count ++ " " ++ artifacts_of inputs ++ " which is not the expected number [" ++ num a ++ "].")]
        end
    end.
(** check_version, CodepipelineStageActions.py:183-206. *)
Definition version_char (a : ascii) : bool := is_alnum a || char_eqb a "_" || char_eqb a "-".
Definition version_matches (s : string) : bool :=
  let t := drop_last_newline s in negb (String.eqb t "") && forallb version_char (list_ascii_of_string t).
Definition check_action_version (action : val) (p : path) : res (list rulematch) :=
  do t <- vget_def "ActionTypeId" (VDict []) action;
  do v <- vget "Version" t;
  match v with
  | VStr s =>
      let q := (p ++ [PKey "ActionTypeId"; PKey "Version"])%list in
      if negb (Nat.leb 1 (String.length s) && Nat.leb (String.length s) 9)
      then Ok [mkRM q ("Version string (" ++ s ++ ") must be between 1 and 9 characters in length.")]
      else if version_matches s then Ok [] else Ok [mkRM q "Version string must match the pattern [0-9A-Za-z_-]+."]
  | _ => Ok []
  end.
(** check_names_unique, CodepipelineStageActions.py:208-221: the report, and the names with that of the action. *)
Definition unique_action (action : val) (p : path) (names : list string) : res (list rulematch) :=
  do n <- vget "Name" action;
  match n with
  | VStr s => Ok (if smem s names then [mkRM (p ++ [PKey "Name"])%list ("All action names within a stage must be unique. (" ++ s ++ ")")] else [])
  | _ => Ok []
  end.
Definition names_after (action : val) (names : list string) : list string :=
  match vget "Name" action with Ok (VStr s) => s :: names | _ => names end.
(** check_artifact_names, CodepipelineStageActions.py:223-250.  The set of names keeps what was added to it before an exception. *)
Fixpoint check_inputs (p : path) (known : list string) (l : list val) : res (list rulematch) :=
  match l with
  | [] => Ok []
  | x :: rest =>
      do n <- vget "Name" x;
      let here := match n with
                  | VStr s => if smem s known then [] else
                      [mkRM (p ++ [PKey "InputArtifacts"; PKey "Name"])%list ("Every input artifact for an action must match the output artifact of an action earlier in the pipeline. (" ++ s ++ ")")]
                  | _ => []
                  end in
      do r <- check_inputs p known rest;
      Ok (here ++ r)%list
  end.
Fixpoint check_outputs (p : path) (known : list string) (l : list val) : list string * res (list rulematch) :=
  match l with
  | [] => (known, Ok [])
  | x :: rest =>
      match vget "Name" x with
      | Err e => (known, Err e)
      | Ok (VStr s) =>
          let here := if smem s known then [mkRM (p ++ [PKey "OutputArtifacts"; PKey "Name"])%list ("Every output artifact in the pipeline must have a unique name. (" ++ s ++ ")")] else [] in
          let r := check_outputs p (s :: known) rest in
          (fst r, do ms <- snd r; Ok (here ++ ms)%list)
      | Ok _ => check_outputs p known rest
      end
  end.
Definition check_artifact_names (action : val) (p : path) (known : list string) : list string * res (list rulematch) :=
  match (do i <- vget "InputArtifacts" action; match i with VList l => check_inputs p known l | _ => Ok [] end) with
  | Err e => (known, Err e)
  | Ok ms =>
      match vget "OutputArtifacts" action with
      | Err e => (known, Err e)
      | Ok (VList l) => let r := check_outputs p known l in (fst r, do ms' <- snd r; Ok (ms ++ ms')%list)
      | Ok _ => (known, Ok ms)
      end
  end.
(** The try block of CodepipelineStageActions.match, CodepipelineStageActions.py:279-292, which ends at the first AttributeError: the
    names of artifacts after it, and what was found. *)
Definition is_ok {A} (r : res A) : bool := match r with Ok _ => true | Err _ => false end.
Definition check_action (show : val -> string) (action : val) (p : path) (names known : list string) : list string * res (list rulematch) :=
  let first := [unique_action action p names; check_action_version action p; check_artifact_counts show true action p; check_artifact_counts show false action p] in
  if forallb is_ok first
  then let r := check_artifact_names action p known in (fst r, tried (first ++ [snd r])%list)
  else (known, tried first).
(** The loops of CodepipelineStageActions.match, CodepipelineStageActions.py:252-294, from the innermost to the outermost.  [p] is the path
    of the properties, [q] that of the stage below them. *)
Fixpoint actions_loop (show : val -> string) (p q : path) (items : list (val * path)) (names known : list string) : res (list rulematch * list string * list string) :=
  match items with
  | [] => Ok ([], names, known)
  | (action, r) :: rest =>
      let c := check_action show action (p ++ q ++ r)%list names known in
      do ms <- snd c;
      do x <- actions_loop show p q rest (names_after action names) (fst c);
      Ok ((ms ++ fst (fst x))%list, snd (fst x), snd x)
  end.
(** The alternatives of Actions; [true] says that the loops go on, and [false] that the method returned. *)
Fixpoint actions_sets (show : val -> string) (p q : path) (sets : list (val * path)) (names known : list string) : res (list rulematch * list string * bool) :=
  match sets with
  | [] => Ok ([], known, true)
  | (VList l, r) :: rest =>
      do x <- actions_loop show p q (list_items_safe (fun _ => true) l r) names known;
      do y <- actions_sets show p q rest (snd (fst x)) (snd x);
      Ok ((fst (fst x) ++ fst (fst y))%list, snd (fst y), snd y)
  | _ => Ok ([], known, false)
  end.
(** [obj.get_safe(key, path)]: the path is the default, a plain list, for which items_safe does not exist. *)
Definition listed_in (key : string) (v : val) : res (list (val * path)) :=
  match v with
  | VDict d => match assoc key d with Some _ => get_safe d key (VList []) [] None | None => Err EAttribute end
  | VStr _ | VList _ => Err ETemplateAttribute
  | _ => Err EAttribute
  end.
Fixpoint stages_loop (show : val -> string) (p : path) (items : list (val * path)) (known : list string) : res (list rulematch * list string * bool) :=
  match items with
  | [] => Ok ([], known, true)
  | (stage, q) :: rest =>
      do sets <- listed_in "Actions" stage;
      do x <- actions_sets show p q sets [] known;
      if snd x then
        do y <- stages_loop show p rest (snd (fst x));
        Ok ((fst (fst x) ++ fst (fst y))%list, snd (fst y), snd y)
      else Ok x
  end.
Fixpoint stages_sets (show : val -> string) (p : path) (sets : list (val * path)) (known : list string) : res (list rulematch * list string * bool) :=
  match sets with
  | [] => Ok ([], known, true)
  | (VList l, q) :: rest =>
      do x <- stages_loop show p (list_items_safe (fun _ => true) l q) known;
      if snd x then
        do y <- stages_sets show p rest (snd (fst x));
        Ok ((fst (fst x) ++ fst (fst y))%list, snd (fst y), snd y)
      else Ok x
  | _ => Ok ([], known, false)
  end.
Fixpoint pipelines_loop (show : val -> string) (l : list (path * val)) : res (list rulematch) :=
  match l with
  | [] => Ok []
  | (p, v) :: rest =>
      do sets <- listed_in "Stages" v;
      do x <- stages_sets show p sets [];
      if snd x then do ms <- pipelines_loop show rest; Ok (fst (fst x) ++ ms)%list else Ok (fst (fst x))
  end.
Definition actions_match (show : val -> string) (template : val) : res (list rulematch) :=
  do l <- get_resource_properties "AWS::CodePipeline::Pipeline" [] template;
  pipelines_loop show l.
Definition actions_rule (show : val -> string) : rule :=
  mkRule "E2541" false [] [] [] [] (fun _ => ([], []))
    (Some (fun _ c => actions_match show (template c))) None None.
