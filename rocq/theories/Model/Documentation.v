(** Models of update_documentation and update_iam_policies of maintenance.py. *)
From Verif.Model Require Import Base Helpers Rules Config Maintenance.
Import Verif.Model.Rules.
Local Open Scope string_scope.
Local Open Scope nat_scope.

(** * The page of the rules *)
Definition eol : ascii := "010"%char.
Definition line_end : string := String eol "".
(** What the page says of a rule, rules/__init__.py:17-33; of each option of its configuration, the texts of its type and default. *)
Record documented := mkDoc {
  d_id : string; d_experimental : bool; d_short : string; d_description : string; d_url : string;
  d_tags : list string; d_config : list (string * (string * string)) }.
(** The lines that [readline] gives, with their ends. *)
Fixpoint lines_of (s : string) : list string :=
  match s with
  | EmptyString => []
  | String c r =>
      if Ascii.eqb c eol then line_end :: lines_of r
      else match lines_of r with l :: ls => String c l :: ls | [] => [String c ""] end
  end.
Definition rules_line : string := "## Rules" ++ line_end.
(** The loop that reads the page, maintenance.py:99-107. *)
Fixpoint static_lines (ls : list string) : list string :=
  match ls with
  | [] => []
  | l :: rest => if String.eqb l rules_line then [l] else l :: static_lines rest
  end.
Definition static_text (s : string) : string := join_str "" (static_lines (lines_of s)).
(** [sorted(rules, key=lambda obj: obj.id)], maintenance.py:93. *)
Fixpoint insert_rule (x : documented) (l : list documented) : list documented :=
  match l with
  | [] => [x]
  | y :: ys => if str_leb (d_id x) (d_id y) then x :: l else y :: insert_rule x ys
  end.
Definition sort_rules (l : list documented) : list documented := fold_right insert_rule [] l.
(** The lines before the table, maintenance.py:116-124. *)
Definition table_head (n : nat) : string :=
  "(_This documentation is generated by running `cfn-lint --update-documentation`, do not alter this manually_)" ++ line_end ++ line_end ++
  "The following **" ++ str_of_Z (Z.of_nat n) ++ "** rules are applied by this linter:" ++ line_end ++ line_end ++
  "| Rule ID  | Title | Description | Config<br />(Name:Type:Default) | Source | Tags |" ++ line_end ++
  "| -------- | ----- | ----------- | ---------- | ------ | ---- |" ++ line_end.
Definition table_foot : string := line_end ++ "\* experimental rules" ++ line_end.
(** A row of the table, maintenance.py:126-135; [file] is where the rule is defined. *)
Definition table_row (r : documented) (file : string) : string :=
  let id := if d_experimental r then d_id r ++ "*" else d_id r in
  let tags := join_str "," (map (fun t => "`" ++ t ++ "`") (d_tags r)) in
  let config := join_str "<br />" (map (fun o => fst o ++ ":" ++ fst (snd o) ++ ":" ++ snd (snd o)) (d_config r)) in
  "| [" ++ id ++ "<a name=""" ++ id ++ """></a>](../" ++ file ++ ") | " ++ d_short r ++ " | " ++ d_description r ++ " | " ++ config ++ " | [Source](" ++ d_url r ++ ") | " ++ tags ++ " |" ++ line_end.
(** ParseError, TransformError and RuleError, rules/__init__.py:479-503. *)
Definition base_url : string := "https://github.com/aws-cloudformation/cfn-python-lint".
Definition base_docs : list documented :=
  [mkDoc "E0000" false "Parsing error found when parsing the template" "Checks for JSON/YAML formatting errors in your template" base_url ["base"] [];
   mkDoc "E0001" false "Error found when transforming the template" "Errors found when performing transformation on the template" base_url ["base"; "transform"] [];
   mkDoc "E0002" false "Error processing rule on the template" "Errors found when processing a rule on the template" base_url ["base"; "rule"] []].
Section Page.
(** What [git grep] finds for the text [id = '...'] below src/cfnlint/rules, as one text; it raises when there is nothing. *)
Variable source : string -> res string.
(** The loop that writes the rows, maintenance.py:128-136: what is written, and how it ends. *)
Fixpoint write_rows (rs : list documented) : string * res unit :=
  match rs with
  | [] => (table_foot, Ok tt)
  | r :: rest =>
      match source (d_id r) with
      | Err e => ("", Err e)
      | Ok file => let x := write_rows rest in (table_row r file ++ fst x, snd x)
      end
  end.
(** update_documentation, maintenance.py:88-136: the page before, and the page after.  The text is taken after the translation of line ends. *)
Definition update_documentation (rules : list documented) (page : option string) : option string * res unit :=
  match page with
  | None => (None, Err (EOther "FileNotFoundError"))
  | Some s =>
      let rs := sort_rules rules in
      let x := write_rows (base_docs ++ rs)%list in
      (Some (static_text s ++ table_head (List.length rs + 3) ++ fst x), snd x)
  end.
End Page.

(** * The policies *)
Fixpoint strip_prefix (p s : string) : option string :=
  match p, s with
  | EmptyString, _ => Some s
  | String a p', String b s' => if Ascii.eqb a b then strip_prefix p' s' else None
  | String _ _, EmptyString => None
  end.
(** What follows the first occurrence of [p], and what precedes it, or all. *)
Fixpoint text_after (p s : string) : option string :=
  match strip_prefix p s with
  | Some r => Some r
  | None => match s with EmptyString => None | String _ r => text_after p r end
  end.
Fixpoint text_before (p s : string) : string :=
  match strip_prefix p s with
  | Some _ => ""
  | None => match s with EmptyString => "" | String c r => String c (text_before p r) end
  end.
Definition policies_mark : string := "app.PolicyEditorConfig=".
(** [content.split('app.PolicyEditorConfig=')[1]], maintenance.py:173. *)
Definition second_part (s : string) : res string :=
  match text_after policies_mark s with Some r => Ok (text_before policies_mark r) | None => Err EIndex end.
(** Indexing with a text what json.loads gave. *)
Definition at_key (k : string) (v : val) : res (list (string * val) * val) :=
  match v with
  | VDict d => match assoc k d with Some x => Ok (d, x) | None => Err EKey end
  | _ => Err ETypeErr
  end.
(** [content['serviceMap'][service]['Actions'].extend(actions)], maintenance.py:175-180. *)
Definition extend_actions (service : string) (actions : list string) (v : val) : res val :=
  do a <- at_key "serviceMap" v;
  do b <- at_key service (snd a);
  do c <- at_key "Actions" (snd b);
  match snd c with
  | VList l => Ok (VDict (set_assoc "serviceMap" (VDict (set_assoc service (VDict (set_assoc "Actions" (VList (l ++ map VStr actions)%list) (fst c))) (fst b))) (fst a)))
  | _ => Err EAttribute
  end.
Definition gateway : string := "Manage Amazon API Gateway".
Definition video_streams : string := "Amazon Kinesis Video Streams".
Section Policies.
Variable loads : string -> option val.
Definition policies_from (text : string) : res val :=
  do part <- second_part text;
  match loads part with
  | None => Err EValue
  | Some v => do a <- extend_actions gateway ["HEAD"; "OPTIONS"] v; extend_actions video_streams ["StartStreamEncryption"] a
  end.
Definition policies_url : string := "https://awspolicygen.s3.amazonaws.com/js/policies.js".
(** update_iam_policies, maintenance.py:162-183.  The file Policies.json is kept with the specifications of the regions, under this name. *)
Definition update_policies : program :=
  Get policies_url (fun r =>
    match r with
    | Err e => Return (Err e)
    | Ok reply =>
        match r_text reply with
        | Err e => Return (Err e)
        | Ok text =>
            match policies_from text with
            | Err e => Return (Err e)
            | Ok v => WriteSpec "Policies" Cut (WriteSpec "Policies" (Whole v) (Return (Ok tt)))
            end
        end
    end).
End Policies.
