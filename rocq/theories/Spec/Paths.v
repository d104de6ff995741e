(** Values and places inside a template (C13, C14). *)
From Coq Require Import List String.
From Verif.Model Require Import Base Locate.
Import ListNotations.

(** The value at a path. *)
Fixpoint at_path (p : path) (v : val) : option val :=
  match p, v with
  | [], _ => Some v
  | PKey k :: rest, VDict d => match assoc k d with Some x => at_path rest x | None => None end
  | PIdx i :: rest, VList l => match nth_error l i with Some x => at_path rest x | None => None end
  | _ :: _, _ => None
  end.

(** A value Python can build: at every depth the keys of an object are distinct. *)
Fixpoint wf (v : val) : Prop :=
  match v with
  | VList l => (fix go (l : list val) : Prop := match l with [] => True | x :: xs => wf x /\ go xs end) l
  | VDict d =>
      NoDup (map fst d) /\
      (fix go (d : list (string * val)) : Prop := match d with [] => True | (_, x) :: xs => wf x /\ go xs end) d
  | _ => True
  end.

(** Following a path in a template with marks. *)
Inductive leads : mval -> path -> mval -> Prop :=
| l_here : forall t, leads t [] t
| l_key : forall m d k x rest y, massoc k d = Some x -> leads x rest y -> leads (MDict m d) (PKey k :: rest) y
| l_item : forall m l i x rest y, nth_error l i = Some x -> leads x rest y -> leads (MList m l) (PIdx i :: rest) y.

(** [marked_in c pe last m]: in container [c] the path element [pe] is a key with mark [m], or a text item of a list with
    mark [m] (the last such item before a plain text, without marks, that is the same), or (when it is the [last] of the path) the
    index of an item with mark [m]. *)
Inductive marked_in : mval -> pelem -> bool -> mark -> Prop :=
| mi_key : forall m0 d k last m, keymark k d = Some m -> marked_in (MDict m0 d) (PKey k) last m
| mi_text : forall m0 l1 l2 l3 s last m, ~ In (MScalar (VStr s)) l1 -> (forall m', ~ In (MStr m' s) l2) ->
    (l3 = [] \/ exists l4, l3 = MScalar (VStr s) :: l4) ->
    marked_in (MList m0 (l1 ++ MStr m s :: l2 ++ l3)) (PKey s) last m
| mi_item : forall m0 l i x m, nth_error l i = Some x -> loc_of x = Some m -> marked_in (MList m0 l) (PIdx i) true m.

(** [position t p n m]: element number [n] of path [p] exists in the template and has mark [m]. *)
Definition position (t : mval) (p : path) (n : nat) (m : mark) : Prop :=
  exists before pe after c, p = before ++ pe :: after /\ List.length before = n /\ leads t before c /\
    marked_in c pe (match after with [] => true | _ => false end) m.

(** No index on the path is beyond the end of the list it points into, and none picks a character of a text whose
    further members are then named. *)
Definition indices_ok (t : mval) (p : path) : Prop :=
  forall before i after c, p = before ++ PIdx i :: after -> leads t before c ->
    match c with
    | MList _ l => i < List.length l
    | MStr _ _ | MScalar (VStr _) => after = []
    | _ => True
    end.
