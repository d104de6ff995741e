(** What E2531, W2531 and E2529 say about functions and subscription filters (C74). *)
From Coq Require Import List String ZArith QArith.
From Verif.Model Require Import Base Rules Lambda.
From Verif.Spec Require Import Branches References SameJson Walk Values Events.
Import ListNotations.
Local Open Scope string_scope.

(** * Runtimes *)
(** [runtime_given t props p s q]: the text [s] at [q] is a runtime the function can get: in some branch of conditions, or by a parameter that
    has it as default or allows it. *)
Inductive runtime_given (t : val) (props : list (string * val)) (p : path) : string -> path -> Prop :=
| rg_text : forall x s q, assoc "Runtime" props = Some x -> single x (p ++ [PKey "Runtime"])%list (VStr s) q -> runtime_given t props p s q
| rg_default : forall x n q o s, assoc "Runtime" props = Some x -> single x (p ++ [PKey "Runtime"])%list (VDict [("Ref", VStr n)]) q ->
    defined_in "Parameters" t n o -> assoc "Default" o = Some (VStr s) -> runtime_given t props p s [PKey "Parameters"; PKey n; PKey "Default"]
| rg_allowed : forall x n q o l i s, assoc "Runtime" props = Some x -> single x (p ++ [PKey "Runtime"])%list (VDict [("Ref", VStr n)]) q ->
    defined_in "Parameters" t n o -> assoc "AllowedValues" o = Some (VList l) -> nth_error l i = Some (VStr s) ->
    runtime_given t props p s [PKey "Parameters"; PKey n; PKey "AllowedValues"; PIdx i].
(** A runtime that can no longer be used, and one that is about to. *)
Definition retired (runtimes : list (string * lifecycle)) (instant : string -> Z) (now : Z) (s words : string) : Prop :=
  exists eol dep succ, assoc s runtimes = Some (mkLife eol dep succ) /\ (instant dep < now)%Z /\
    words = "Deprecated runtime (" ++ s ++ ") specified. Updating disabled since " ++ dep ++ ". Please consider updating to " ++ succ.
Definition retiring (runtimes : list (string * lifecycle)) (instant : string -> Z) (now : Z) (s words : string) : Prop :=
  exists eol dep succ, assoc s runtimes = Some (mkLife eol dep succ) /\ (instant eol < now < instant dep)%Z /\
    words = "EOL runtime (" ++ s ++ ") specified. Runtime is EOL since " ++ eol ++ " and updating will be disabled at " ++ dep ++ ". Please consider updating to " ++ succ.
Definition scalar (v : val) : Prop := is_list v = false /\ is_dict v = false.
(** No runtime is null, a list or an object that is no call, and the parameters behind it have single values. *)
Definition runtimes_shaped (t : val) (props : list (string * val)) (p : path) : Prop :=
  (exists top, t = VDict top /\ forall ps, assoc "Parameters" top = Some ps -> exists d, ps = VDict d) /\
  forall x, assoc "Runtime" props = Some x -> (forall r, ~ alternative x (p ++ [PKey "Runtime"])%list VNull r) /\
    (forall w r, single x (p ++ [PKey "Runtime"])%list w r -> ~ is_call w -> scalar w) /\
    (forall v r, single x (p ++ [PKey "Runtime"])%list (VDict [("Ref", v)]) r -> scalar v /\
       forall n top ps y, v = VStr n -> t = VDict top -> assoc "Parameters" top = Some (VDict ps) -> assoc n ps = Some y ->
         exists o, y = VDict o /\ (forall z, assoc "Default" o = Some z -> scalar z) /\ (forall l z, assoc "AllowedValues" o = Some (VList l) -> In z l -> scalar z)).

(** * Subscription filters *)
(** [filter_group t n g]: the subscription filter [n] is of the log group [g]; [filters t l]: [l] are they, in the order of the template. *)
Definition group_of (attrs : list (string * val)) (g : val) : Prop :=
  exists pd, assoc "Properties" attrs = Some (VDict pd) /\ (assoc "LogGroupName" pd = Some g \/ (assoc "LogGroupName" pd = None /\ g = VNull)).
Definition filter_type (r : val) : Prop := exists attrs, r = VDict attrs /\ assoc "Type" attrs = Some (VStr "AWS::Logs::SubscriptionFilter").
Definition filters (t : val) (l : list (string * val)) : Prop :=
  exists top rs fs, t = VDict top /\ assoc "Resources" top = Some (VDict rs) /\ only (fun nr => filter_type (snd nr)) rs fs /\
    Forall2 (fun nr ng => fst nr = fst ng /\ exists attrs, snd nr = VDict attrs /\ group_of attrs (snd ng)) fs l.
(** Objects in it have at most one member, as calls have. *)
Inductive small : val -> Prop :=
| sm_null : small VNull
| sm_bool : forall b, small (VBool b)
| sm_int : forall z, small (VInt z)
| sm_float : forall q, small (VFloat q)
| sm_str : forall s, small (VStr s)
| sm_list : forall l, (forall x, In x l -> small x) -> small (VList l)
| sm_empty : small (VDict [])
| sm_call : forall k x, small x -> small (VDict [(k, x)]).
(** [third l n]: [n] is the third filter of its log group. *)
Definition third (l : list (string * val)) (n : string) : Prop :=
  exists before g after x y, l = (before ++ (n, g) :: after)%list /\ only (fun ng => same_json (snd ng) g) before [x; y].
