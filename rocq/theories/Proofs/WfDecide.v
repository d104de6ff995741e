(** Deciding that a value has no repeated members, for the witnesses. *)
From Verif.Model Require Import Base.
From Verif.Spec Require Import Paths.
From Verif.Proofs Require Import BaseFacts.

Fixpoint nodupb (l : list string) : bool :=
  match l with [] => true | x :: xs => negb (existsb (String.eqb x) xs) && nodupb xs end.
Fixpoint wfb (v : val) : bool :=
  match v with
  | VList l => (fix go (l : list val) : bool := match l with [] => true | x :: xs => wfb x && go xs end) l
  | VDict d => nodupb (map fst d) &&
      (fix go (d : list (string * val)) : bool := match d with [] => true | (_, x) :: xs => wfb x && go xs end) d
  | _ => true
  end.
Lemma nodupb_sound l : nodupb l = true -> NoDup l.
Proof.
  induction l as [|x l IH]; cbn; intros H; [constructor|]. apply andb_prop in H as [H1 H2]. constructor; [|now apply IH].
  intros Hi. apply negb_true_iff in H1. assert (E : existsb (String.eqb x) l = true) by (apply existsb_exists; exists x; split; [exact Hi | apply String.eqb_refl]).
  congruence.
Qed.
Lemma wfb_sound v : wfb v = true -> wf v.
Proof.
  induction v as [|b|z|q|s|l IH|d IH] using val_ind'; cbn; intros H; auto.
  - induction IH as [|x l Hx _ IHl]; [exact I|]. apply andb_prop in H as [H1 H2]. split; [exact (Hx H1) | exact (IHl H2)].
  - apply andb_prop in H as [H0 H]. split; [now apply nodupb_sound|]. clear H0.
    induction IH as [|[k x] d Hx _ IHd]; [exact I|]. apply andb_prop in H as [H1 H2]. split; [exact (Hx H1) | exact (IHd H2)].
Qed.
