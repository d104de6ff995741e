(** What E3027 and E3021 say about the rules of events (C73). *)
From Coq Require Import List String Ascii ZArith.
From Verif.Model Require Import Base Rules.
From Verif.Spec Require Import Branches Values Permissions.
Import ListNotations.
Local Open Scope string_scope.

(** * Schedules *)
(** [parts s l]: [l] are the parts of the text [s] between single spaces. *)
Definition parts (s : string) (l : list string) : Prop := l <> [] /\ (forall x, In x l -> without " " x) /\ s = String.concat " " l.
(** [call_text fn s e]: the text [s] begins with [fn] and an opening parenthesis, ends with a closing one, and [e] is between the first two. *)
Definition call_text (fn s e : string) : Prop :=
  without ")" e /\ exists rest, s = fn ++ "(" ++ e ++ ")" ++ rest /\ exists before, s = before ++ ")".
Definition whole (s : string) : Prop := nonempty_of digit_letter s.
Definition count_text {A} (l : list A) : string := str_of_Z (Z.of_nat (List.length l)).
Inductive schedule_fault (s : string) : string -> Prop :=
| sc_rate_empty : call_text "rate" s "" -> schedule_fault s "Rate value of ScheduleExpression cannot be empty"
| sc_rate_parts : forall e l, call_text "rate" s e -> e <> "" -> parts e l -> List.length l <> 2 ->
    schedule_fault s ("Rate expression must contain 2 elements (Value Unit), rate contains " ++ count_text l ++ " elements")
| sc_rate_value : forall e a b, call_text "rate" s e -> parts e [a; b] -> ~ whole a -> schedule_fault s ("Rate Value (" ++ a ++ ") should be of type Integer.")
| sc_cron_empty : call_text "cron" s "" -> schedule_fault s "Cron value of ScheduleExpression cannot be empty"
| sc_cron_parts : forall e l, call_text "cron" s e -> e <> "" -> parts e l -> List.length l <> 6 ->
    schedule_fault s ("Cron expression must contain 6 elements (Minutes Hours Day-of-month Month Day-of-week Year), cron contains " ++ count_text l ++ " elements")
| sc_cron_days : forall e a b day_of_month c day_of_week d, call_text "cron" s e -> parts e [a; b; day_of_month; c; day_of_week; d] -> day_of_month <> "?" -> day_of_week <> "?" ->
    schedule_fault s "Don't specify the Day-of-month and Day-of-week fields in the same cron expression"
| sc_other : (forall e, ~ call_text "rate" s e) -> (forall e, ~ call_text "cron" s e) ->
    schedule_fault s ("Invalid ScheduledExpression specified (" ++ s ++ "). Value has to be either cron() or rate()").
(** A property [key] no branch of which is null and whose values, unless they are calls, are texts. *)
Definition texts_given (props : list (string * val)) (p : path) (key : string) : Prop :=
  forall x, assoc key props = Some x -> (forall r, ~ alternative x (p ++ [PKey key])%list VNull r) /\
    forall w r, single x (p ++ [PKey key])%list w r -> ~ is_call w -> exists s, w = VStr s.

(** * Targets *)
(** [only P l l']: [l'] are the items of [l] with [P]. *)
Inductive only {A} (P : A -> Prop) : list A -> list A -> Prop :=
| on_nil : only P [] []
| on_take : forall x l l', P x -> only P l l' -> only P (x :: l) (x :: l')
| on_skip : forall x l l', ~ P x -> only P l l' -> only P (x :: l) l'.
(** [target_list x p l q]: the targets [x] at [p] can be the list [l] at [q]: they are a list, or a condition between lists. *)
Inductive target_list (x : val) (p : path) : list val -> path -> Prop :=
| tl_list : forall l, x = VList l -> target_list x p l p
| tl_then : forall c l b, x = If_of (VList [c; VList l; b]) -> target_list x p l (p ++ [PKey "Fn::If"; PIdx 1])%list
| tl_else : forall c a l, x = If_of (VList [c; a; VList l]) -> target_list x p l (p ++ [PKey "Fn::If"; PIdx 2])%list.
(** Targets that are lists whose items are no conditions. *)
Definition targets_listed (x : val) : Prop :=
  (exists l, x = VList l \/ (exists c l', x = If_of (VList [c; VList l; VList l']))) /\ forall p l q i, target_list x p l q -> In i l -> ~ is_if i.
Definition targets_shaped (props : list (string * val)) : Prop := forall x, assoc "Targets" props = Some x -> targets_listed x.
(** [many_targets name props q]: the targets of the rule [name] can be the list at [q], with more than five that are no calls. *)
Definition many_targets (name : string) (props : list (string * val)) (q : path) : Prop :=
  exists x l ts, assoc "Targets" props = Some x /\ target_list x [PKey "Resources"; PKey name; PKey "Properties"; PKey "Targets"] l q /\
    only (fun v => ~ is_call v) l ts /\ List.length ts > 5.
