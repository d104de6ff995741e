(** What updating the page of the rules and the file of the policies must do (C90). *)
From Coq Require Import List String Sorted Permutation.
From Verif.Model Require Import Base Rules Config Maintenance Documentation.
From Verif.Spec Require Import Files Maintenance.
Import ListNotations.
Local Open Scope string_scope.

(** * The page *)
(** In [s] the line that opens the part on rules stands between [a] and [b]. *)
Definition opens (s a b : string) : Prop :=
  s = a ++ "## Rules" ++ line_end ++ b /\ (a = "" \/ exists a', a = a' ++ line_end).
(** [s0] is the part of the page that is not generated: up to the first such line and with it, or all. *)
Definition static_part (s s0 : string) : Prop :=
  (exists a b, opens s a b /\ s0 = a ++ "## Rules" ++ line_end /\ forall a' b', opens s a' b' -> String.length a <= String.length a') \/
  ((forall a b, ~ opens s a b) /\ s0 = s).
Definition in_id_order (a b : documented) : Prop := text_le (d_id a) (d_id b).
(** The name of a rule on the page. *)
Definition shown_id (r : documented) (id : string) : Prop := if d_experimental r then id = d_id r ++ "*" else id = d_id r.
(** A row for a rule that is defined in [file]. *)
Definition row_for (r : documented) (file row : string) : Prop :=
  exists id, shown_id r id /\
    row = "| [" ++ id ++ "<a name=""" ++ id ++ """></a>](../" ++ file ++ ") | " ++ d_short r ++ " | " ++ d_description r ++ " | "
          ++ join_str "<br />" (map (fun o => fst o ++ ":" ++ fst (snd o) ++ ":" ++ snd (snd o)) (d_config r)) ++ " | [Source](" ++ d_url r ++ ") | "
          ++ join_str "," (map (fun t => "`" ++ t ++ "`") (d_tags r)) ++ " |" ++ line_end.
(** [rows] are those of the rules that the linter always has, then those of [rules] by their names. *)
Definition rows_for (source : string -> res string) (rules : list documented) (rows : list string) : Prop :=
  exists sorted, Permutation sorted rules /\ StronglySorted in_id_order sorted /\
    Forall2 (fun r row => exists file, source (d_id r) = Ok file /\ row_for r file row) (base_docs ++ sorted)%list rows.

(** * The policies *)
(** [v'] is [v] with the value at the keys changed by [R]. *)
Inductive changed_at (R : val -> val -> Prop) : list string -> val -> val -> Prop :=
| changed_here v v' : R v v' -> changed_at R [] v v'
| changed_below k ks a x x' b : ~ In k (map fst a) -> changed_at R ks x x' -> changed_at R (k :: ks) (VDict (a ++ (k, x) :: b)%list) (VDict (a ++ (k, x') :: b)%list).
Definition with_more (actions : list string) (v v' : val) : Prop := exists l, v = VList l /\ v' = VList (l ++ map VStr actions)%list.
(** [part] is what stands in [text] after the first mark, up to the second one, if there is one. *)
Definition occurs_at (p s a b : string) : Prop := s = a ++ p ++ b.
Definition first_at (p s a b : string) : Prop := occurs_at p s a b /\ forall a' b', occurs_at p s a' b' -> String.length a <= String.length a'.
Definition between_marks (p text part : string) : Prop :=
  exists a b, first_at p text a b /\ ((exists b', first_at p b part b') \/ ((forall a' b', ~ occurs_at p b a' b') /\ part = b)).
(** The policies that are made of a text from the server. *)
Definition policies_of (loads : string -> option val) (text : string) (v : val) : Prop :=
  exists part v0 v1, between_marks "app.PolicyEditorConfig=" text part /\ loads part = Some v0 /\
    changed_at (with_more ["HEAD"; "OPTIONS"]) ["serviceMap"; "Manage Amazon API Gateway"; "Actions"] v0 v1 /\
    changed_at (with_more ["StartStreamEncryption"]) ["serviceMap"; "Amazon Kinesis Video Streams"; "Actions"] v1 v.
(** The file of the policies. *)
Definition policies_file (w : world) : option (file val) := w_spec w "Policies".
