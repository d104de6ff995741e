(** Models of helpers.convert_dict (src/cfnlint/helpers.py:489-509) and of the use of the serverless translator in a run:
    Runner.transform (src/cfnlint/runner.py:24-41) with Transform.transform_template (src/cfnlint/transform.py:104-136). *)
From Verif.Model Require Import Base Node Locate Helpers Rules Runner Config Core Serverless.
Import Verif.Model.Rules.
Local Open Scope string_scope.

(** What another library gives: objects, lists and texts that are nodes with marks, where they come from the file, and plain ones.
    Keys are texts; [str_node] would make a text of another key. *)
Inductive pval : Type :=
| PScalar (v : val)                               (* null, bool, int, float *)
| PStr (m : option mark) (s : string)
| PList (m : option mark) (l : list pval)
| PDict (m : option mark) (d : list ((string * option mark) * pval)).
Fixpoint contents (t : pval) : val :=
  match t with
  | PScalar v => v
  | PStr _ s => VStr s
  | PList _ l => VList (map contents l)
  | PDict _ d => VDict (map (fun kv => (fst (fst kv), contents (snd kv))) d)
  end.

(** convert_dict, helpers.py:489-509.  Each member is deleted and set again, in order, so the order stays.  A plain text is left as
    it is.  The items of a list get the marks of the call, not those of the list. *)
Definition or_else (m : option mark) (start : mark) : mark := match m with Some m => m | None => start end.
Fixpoint convert (start : mark) (t : pval) : mval :=
  match t with
  | PScalar v => MScalar v
  | PStr (Some m) s => MStr m s
  | PStr None s => MScalar (VStr s)
  | PList m l => MList (or_else m start) (map (convert start) l)
  | PDict m d =>
      MDict (or_else m start)
        (map (fun kv => let km := or_else (snd (fst kv)) start in ((fst (fst kv), has_lines km), convert km (snd kv))) d)
  end.

(** How the translator ends: with a template; with InvalidDocumentException, which has at least one cause; or with another
    exception. *)
Inductive sam := Done (t : pval) | Causes (message : string) (others : list string) | Failed (text : string).
(** Runner.transform on a template that asks for it.  The translator gets the template after the replacement of local locations, whose
    nodes are those of the file, and the names of the parameters.  After an error the template is not used any more. *)
Definition serverless_translator (translate : mval -> val -> list val -> sam) (exn_text : exn -> string) : translator :=
  fun c =>
    match replace_local_codeuri (template c) with
    | Err e => ([transform_finding (c_file c) (exn_text e)], c_tmpl c)
    | Ok (t, names) =>
        match translate (c_tmpl c) t names with
        | Done p => ([], convert tuple_mark p)
        | Causes m others => (map (transform_finding (c_file c)) (m :: others), c_tmpl c)
        | Failed text => ([transform_finding (c_file c) text], c_tmpl c)
        end
    end.
