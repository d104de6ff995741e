(** Linting several files in one process (C07). *)
From Coq Require Import List String.
From Verif.Model Require Import Base Locate Rules Config Core.
Import ListNotations.

(** A rule object as its constructor leaves it: each configuration option has its default value; and the resource types
    it asks for when initialised do not depend on the template. *)
Definition fresh_rule (r : rule) : Prop :=
  NoDup (map fst (r_definition r)) /\
  r_config r = map (fun d => (fst d, snd (snd d))) (r_definition r) /\
  (forall c c', r_init r c = r_init r c').

(** A file whose handling does not involve the two leaks: it decodes and does not configure rules in its Metadata, or
    decoding reports something other than one single E0000. *)
Definition plain_file (d : decoded) : Prop :=
  match d with
  | DecOk t => forall a, set_template_args (erase t) = Ok a -> ~ In "configure_rules"%string (map fst a)
  | DecErr es => forall e, es = [e] -> f_rule e <> "E0000"%string
  end.

(** Collecting the reports of files linted separately; the first that ends the process ends the collection. *)
Fixpoint collect (acc : list finding) (results : list (res outcome)) : res outcome :=
  match results with
  | [] => Ok (Findings acc)
  | Ok (Findings l) :: rest => collect (acc ++ l) rest
  | other :: _ => other
  end.
