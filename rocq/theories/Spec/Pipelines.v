(** The stages and actions of pipelines (C84, C85). *)
From Coq Require Import List String Ascii ZArith.
From Verif.Model Require Import Base.
From Verif.Spec Require Import Paths Branches Walk Resolved Groups Nested.
Import ListNotations.
Local Open Scope string_scope.

(** * Stages *)
(** [action_at stage i a]: the action [a] is number [i] of the stage. *)
Definition action_at (stage : list (string * val)) (i : nat) (a : list (string * val)) : Prop :=
  exists l, assoc "Actions" stage = Some (VList l) /\ nth_error l i = Some (VDict a).
(** The category of an action, which may have none. *)
Definition category (a : list (string * val)) (c : option string) : Prop :=
  exists t, assoc "ActionTypeId" a = Some (VDict t) /\
    match c with Some s => assoc "Category" t = Some (VStr s) | None => assoc "Category" t = None end.
Definition stage_at (stages : list val) (n : nat) (s : list (string * val)) : Prop := nth_error stages n = Some (VDict s).
(** Stages are objects; the actions of a stage are objects in a list, with a type that has a text as category, if any.  The first stage has
    a list of actions. *)
Definition stages_shaped (stages : list val) : Prop :=
  forall n x, nth_error stages n = Some x -> exists s, x = VDict s /\ (n = 0 -> assoc "Actions" s <> None) /\
    forall y, assoc "Actions" s = Some y -> exists l, y = VList l /\ forall a, In a l -> exists d c, a = VDict d /\ category d c.
(** What is wrong with the stages of a pipeline: a path below them and the words. *)
Inductive stages_fault (stages : list val) : path -> string -> Prop :=
| st_few : List.length stages < 2 ->
    stages_fault stages [] ("CodePipeline has " ++ str_of_Z (Z.of_nat (List.length stages)) ++ " stages. There must be at least two stages.")
| st_no_source : forall s i a, stage_at stages 0 s -> action_at s i a -> (forall j b, action_at s j b -> ~ category b (Some "Source")) ->
    stages_fault stages [PIdx 0; PKey "Name"] "The first stage of a pipeline must contain at least one source action."
| st_no_action : forall s, stage_at stages 0 s -> (forall i a, ~ action_at s i a) ->
    stages_fault stages [PIdx 0; PKey "Name"] "The first stage of a pipeline must contain only source actions."
| st_mixed : forall s i a c j b c', stage_at stages 0 s -> action_at s i a -> category a c -> action_at s j b -> category b c' -> c <> c' ->
    stages_fault stages [PIdx 0; PKey "Name"] "The first stage of a pipeline must contain only source actions."
| st_later : forall n s i a, stage_at stages n s -> 0 < n -> action_at s i a -> category a (Some "Source") ->
    stages_fault stages [PIdx n; PKey "Actions"; PIdx i] "Only the first stage of a pipeline may contain source actions."
| st_only_sources : stages <> [] -> (forall n s i a, stage_at stages n s -> action_at s i a -> category a (Some "Source")) ->
    stages_fault stages [] "At least one stage in pipeline must contain an action that is not a source action."
| st_same_name : forall m n s s' x, stage_at stages m s -> stage_at stages n s' -> m < n -> assoc "Name" s = Some (VStr x) -> assoc "Name" s' = Some (VStr x) ->
    stages_fault stages [PIdx n; PKey "Name"] ("All stage names within a pipeline must be unique. (" ++ x ++ ")").
(** The Stages of the pipeline called [name]. *)
Definition pipeline (template : val) (name : string) (d : list (string * val)) : Prop :=
  exists attrs, resource_of template name "AWS::CodePipeline::Pipeline" attrs /\ assoc "Properties" attrs = Some (VDict d).
(** What is left of the stages when the conditions [names] are decided; where there are no conditions they are taken as they are. *)
Definition stages_left (names : list string) (b : string -> bool) (v : val) (l : list val) : Prop :=
  match names with
  | [] => v = VList l
  | _ => deep (known names b) v (Some (VList l))
  end.

(** * Actions *)
(** Stages and actions as they are listed, without what is AWS::NoValue. *)
Definition stage_in (stages : list val) (n : nat) (s : list (string * val)) : Prop :=
  exists d, nth_error stages n = Some (VDict d) /\ VDict d <> no_value /\ pruned d s.
Definition action_in (stages : list val) (n i : nat) (a : list (string * val)) : Prop :=
  exists s l d, stage_in stages n s /\ assoc "Actions" s = Some (VList l) /\ nth_error l i = Some (VDict d) /\ VDict d <> no_value /\ pruned d a.
(** The actions before number [i] of stage [n]. *)
Definition earlier (m j n i : nat) : Prop := m < n \/ m = n /\ j < i.
(** The name of artifact number [k] in the member [key] of an action. *)
Definition artifact (a : list (string * val)) (key : string) (k : nat) (x : string) : Prop :=
  exists l d, assoc key a = Some (VList l) /\ nth_error l k = Some (VDict d) /\ assoc "Name" d = Some (VStr x).
(** How many artifacts actions take and give: owner, category, provider, inputs and outputs. *)
Definition artifact_table : list (string * string * string * (nat * nat) * (nat * nat)) :=
  [("AWS", "Source", "S3", (0, 0), (1, 1)); ("AWS", "Source", "CodeCommit", (0, 0), (1, 1)); ("AWS", "Source", "ECR", (0, 0), (1, 1));
   ("AWS", "Test", "CodeBuild", (1, 5), (0, 5)); ("AWS", "Test", "DeviceFarm", (1, 1), (0, 0)); ("AWS", "Build", "CodeBuild", (1, 5), (0, 5));
   ("AWS", "Approval", "Manual", (0, 0), (0, 0)); ("AWS", "Deploy", "S3", (1, 1), (0, 0)); ("AWS", "Deploy", "CloudFormation", (0, 10), (0, 1));
   ("AWS", "Deploy", "CodeDeploy", (1, 1), (0, 0)); ("AWS", "Deploy", "ElasticBeanstalk", (1, 1), (0, 0)); ("AWS", "Deploy", "OpsWorks", (1, 1), (0, 0));
   ("AWS", "Deploy", "ECS", (1, 1), (0, 0)); ("AWS", "Deploy", "ServiceCatalog", (1, 1), (0, 0)); ("AWS", "Invoke", "Lambda", (0, 5), (0, 5));
   ("ThirdParty", "Source", "GitHub", (0, 0), (1, 1)); ("ThirdParty", "Deploy", "AlexaSkillsKit", (0, 2), (0, 0));
   ("Custom", "Build", "Jenkins", (0, 5), (0, 5)); ("Custom", "Test", "Jenkins", (0, 5), (0, 5))].
(** [wants a key low high]: the action should have between [low] and [high] artifacts in its member [key]. *)
Definition wants (a : list (string * val)) (key : string) (low high : nat) : Prop :=
  exists t owner category provider inputs outputs, assoc "ActionTypeId" a = Some (VDict t) /\
    assoc "Owner" t = Some (VStr owner) /\ assoc "Category" t = Some (VStr category) /\ assoc "Provider" t = Some (VStr provider) /\
    In (owner, category, provider, inputs, outputs) artifact_table /\
    (key = "InputArtifacts" /\ (low, high) = inputs \/ key = "OutputArtifacts" /\ (low, high) = outputs).
(** How many there are. *)
Definition artifacts (a : list (string * val)) (key : string) (n : nat) : Prop :=
  assoc key a = None /\ n = 0 \/ exists l, assoc key a = Some (VList l) /\ List.length l = n.
Definition expected (low high : nat) : string :=
  if Nat.eqb low high then "the expected number [" ++ str_of_Z (Z.of_nat low) ++ "]."
  else "in expected range [" ++ str_of_Z (Z.of_nat low) ++ ", " ++ str_of_Z (Z.of_nat high) ++ "].".
(** Versions: letters, digits, low lines and hyphens, and possibly a line feed. *)
Definition version_letter (a : ascii) : Prop :=
  let n := nat_of_ascii a in 48 <= n <= 57 \/ 65 <= n <= 90 \/ 97 <= n <= 122 \/ n = 95 \/ n = 45.
Definition version_word (s : string) : Prop := s <> "" /\ forall a, In a (list_ascii_of_string s) -> version_letter a.
Definition version_ok (s : string) : Prop := version_word s \/ exists w, s = w ++ String (ascii_of_nat 10) "" /\ version_word w.
Definition version_of (a : list (string * val)) (s : string) : Prop :=
  exists t, assoc "ActionTypeId" a = Some (VDict t) /\ assoc "Version" t = Some (VStr s).
(** What is wrong with action number [i] of stage [n]: a path below it and the words. *)
Inductive action_fault (stages : list val) (n i : nat) : path -> string -> Prop :=
| af_same_name : forall a j b x, action_in stages n i a -> action_in stages n j b -> j < i -> assoc "Name" a = Some (VStr x) -> assoc "Name" b = Some (VStr x) ->
    action_fault stages n i [PKey "Name"] ("All action names within a stage must be unique. (" ++ x ++ ")")
| af_length : forall a s, action_in stages n i a -> version_of a s -> ~ (1 <= String.length s <= 9) ->
    action_fault stages n i [PKey "ActionTypeId"; PKey "Version"] ("Version string (" ++ s ++ ") must be between 1 and 9 characters in length.")
| af_letters : forall a s, action_in stages n i a -> version_of a s -> 1 <= String.length s <= 9 -> ~ version_ok s ->
    action_fault stages n i [PKey "ActionTypeId"; PKey "Version"] "Version string must match the pattern [0-9A-Za-z_-]+."
| af_count : forall a key low high count name, action_in stages n i a -> wants a key low high -> artifacts a key count -> ~ (low <= count <= high) -> assoc "Name" a = Some (VStr name) ->
    action_fault stages n i [PKey key] ("Action """ ++ name ++ """ declares " ++ str_of_Z (Z.of_nat count) ++ " " ++ key ++ " which is not " ++ expected low high)
| af_input : forall a k x, action_in stages n i a -> artifact a "InputArtifacts" k x ->
    (forall m j b k', action_in stages m j b -> earlier m j n i -> ~ artifact b "OutputArtifacts" k' x) ->
    action_fault stages n i [PKey "InputArtifacts"; PKey "Name"] ("Every input artifact for an action must match the output artifact of an action earlier in the pipeline. (" ++ x ++ ")")
| af_output : forall a k x m j b k', action_in stages n i a -> artifact a "OutputArtifacts" k x -> action_in stages m j b -> artifact b "OutputArtifacts" k' x ->
    (earlier m j n i \/ m = n /\ j = i /\ k' < k) ->
    action_fault stages n i [PKey "OutputArtifacts"; PKey "Name"] ("Every output artifact in the pipeline must have a unique name. (" ++ x ++ ")").
(** Stages are objects with a list of actions, and actions are objects with a name and a type; neither is an Fn::If.  Artifacts are objects
    in lists.  The parts of a type that say what the action is are no lists. *)
Definition action_shaped (a : list (string * val)) : Prop :=
  (exists name, assoc "Name" a = Some (VStr name)) /\
  (exists t, assoc "ActionTypeId" a = Some (VDict t) /\ forall key l, In key ["Owner"; "Category"; "Provider"] -> assoc key t <> Some (VList l)) /\
  forall key x, In key ["InputArtifacts"; "OutputArtifacts"] -> assoc key a = Some x -> exists l, x = VList l /\ forall y, In y l -> exists d, y = VDict d.
Definition actions_shaped (stages : list val) : Prop :=
  forall x, In x stages -> x = no_value \/ exists d s, x = VDict d /\ (forall y, d <> [("Fn::If", y)]) /\ pruned d s /\
    exists l, assoc "Actions" s = Some (VList l) /\
      forall y, In y l -> y = no_value \/ exists e a, y = VDict e /\ (forall z, e <> [("Fn::If", z)]) /\ pruned e a /\ action_shaped a.
