(** C90 The page of the rules and the file of the policies. *)
From Coq Require Import List String Arith Bool Permutation.
Import ListNotations.
From Verif.Model Require Import Base Helpers Rules Config Maintenance Documentation.
From Verif.Spec Require Import Files Maintenance Documentation.
From Verif.Proofs Require Import DocumentationProofs DocumentationWitness.
Import Verif.Model.Rules.
Local Open Scope string_scope.
Local Open Scope nat_scope.

(** A page that was updated is what was not generated, then a row for each rule, by names, with their number. *)
Theorem page_written : forall source : string -> res string,
  forall rules s page,
  update_documentation source rules (Some s) = (Some page, Ok tt) ->
  exists s0 rows, static_part s s0 /\ rows_for source rules rows /\ page = s0 ++ table_head (List.length rows) ++ join_str "" rows ++ table_foot.
Proof. exact c90_page. Qed.
Print Assumptions page_written.

(** The update ends well exactly when each rule is found in the sources. *)
Theorem page_ends : forall source : string -> res string,
  forall rules s,
  snd (update_documentation source rules (Some s)) = Ok tt <-> forall r, In r (base_docs ++ rules)%list -> exists file, source (d_id r) = Ok file.
Proof. exact c90_ends. Qed.
Print Assumptions page_ends.

(** However it ends, what was not generated stays. *)
Theorem page_static : forall source : string -> res string,
  forall rules s s0,
  static_part s s0 -> exists rest, fst (update_documentation source rules (Some s)) = Some (s0 ++ rest).
Proof. exact c90_static. Qed.
Print Assumptions page_static.

(** Once more changes nothing, if the page has the line that opens the part on rules. *)
Theorem page_again_partial : forall source : string -> res string,
  forall rules s,
  (exists a b, opens s a b) -> update_documentation source rules (fst (update_documentation source rules (Some s))) = update_documentation source rules (Some s).
Proof. exact c90_again. Qed.
Print Assumptions page_again_partial.

(** The order in which the rules were loaded does not matter. *)
Theorem page_order : forall source : string -> res string,
  forall rules rules' page,
  NoDup (map d_id rules) -> Permutation rules rules' -> update_documentation source rules page = update_documentation source rules' page.
Proof. exact c90_order. Qed.
Print Assumptions page_order.

(** Stopped at any moment, an update of the policies leaves their file as it was, cut short, or made from what the server sent; one that ends well leaves the latter, one that fails changes nothing. *)
Theorem policies_written : forall loads : string -> option val,
  forall ns w w' p,
  run ns w (update_policies loads) = (w', p) ->
  let made f := exists n reply text v, In n ns /\ n_get n policies_url = Ok reply /\ r_text reply = Ok text /\ policies_of loads text v /\ f = Some (Whole v) in
  (policies_file w' = policies_file w \/ policies_file w' = Some Cut \/ made (policies_file w')) /\
  (p = Return (Ok tt) -> made (policies_file w')) /\
  (forall e, p = Return (Err e) -> w' = w) /\
  w_meta w' = w_meta w /\ forall r, r <> "Policies" -> w_spec w' r = w_spec w r.
Proof. exact c90_policies. Qed.
Print Assumptions policies_written.

(** A file that was cut short is repaired by the next update. *)
Theorem policies_repaired : forall loads : string -> option val,
  forall n ns w reply text v,
  n_get n policies_url = Ok reply -> r_text reply = Ok text -> policies_of loads text v ->
  exists w', run (n :: n :: n :: ns) w (update_policies loads) = (w', Return (Ok tt)) /\ policies_file w' = Some (Whole v).
Proof. exact c90_repair. Qed.
Print Assumptions policies_repaired.

(** Without the line that opens the part on rules the page grows with each update. *)
Theorem page_grows_refuted : exists source rules s page page', update_documentation source rules (Some s) = (Some page, Ok tt) /\ update_documentation source rules (Some page) = (Some page', Ok tt) /\ String.length page < String.length page'.
Proof. exact grows_witness. Qed.
Print Assumptions page_grows_refuted.

(** A rule that is not in the sources ends the update after the old rows are gone. *)
Theorem page_cut_refuted : exists page, update_documentation without_rule [one_rule; other_rule] (Some old_page) = (Some page, Err (EOther "CalledProcessError")) /\
  exists rows, List.length rows = 3 /\ page = "# Page" ++ line_end ++ "## Rules" ++ line_end ++ table_head 5 ++ join_str "" rows.
Proof. exact page_cut_witness. Qed.
Print Assumptions page_cut_refuted.

(** A description of two lines breaks its row. *)
Theorem row_lines_refuted : exists r file row, row_for r file row /\ exists a b, row = a ++ line_end ++ b /\ b <> "".
Proof. exact row_lines_witness. Qed.
Print Assumptions row_lines_refuted.

(** A process that is stopped while it writes leaves policies that are cut short. *)
Theorem policies_cut_refuted : forall w,
  exists k w' p, run (repeat (js "app.PolicyEditorConfig={1}") k) w (update_policies read_policies) = (w', p) /\ policies_file w' = Some Cut.
Proof. exact policies_cut_witness. Qed.
Print Assumptions policies_cut_refuted.

(** An action that the server lists by now is listed twice. *)
Theorem policies_twice_refuted : exists v, policies_of read_policies "app.PolicyEditorConfig={2}" v /\ exists d, v = VDict d /\
  assoc "serviceMap" d = Some (VDict [(gateway, service ["HEAD"; "HEAD"; "OPTIONS"]); (video_streams, service ["Tag"; "StartStreamEncryption"])]).
Proof. exact policies_twice_witness. Qed.
Print Assumptions policies_twice_refuted.

Example old_page_opens_ : opens old_page ("# Page" ++ line_end) ("old" ++ line_end ++ "## Rules" ++ line_end).
Proof. exact old_page_opens. Qed.

Example page_example_ : exists page, update_documentation known_source [one_rule; other_rule] (Some old_page) = (Some page, Ok tt) /\ NoDup (map d_id [one_rule; other_rule]) /\
  exists rest, page = "# Page" ++ line_end ++ "## Rules" ++ line_end ++ table_head 5 ++ rest.
Proof. exact page_example. Qed.

Example row_example_ : row_for one_rule "x.py" ("| [W1001*<a name=""W1001*""></a>](../x.py) | Title | Text | strict:boolean:False | [Source](url) | `a`,`b` |" ++ line_end).
Proof. exact row_example. Qed.

Example policies_example_ : policies_of read_policies "app.PolicyEditorConfig={1}" made.
Proof. exact policies_example. Qed.

Example policies_update_example_ : forall w,
  exists w', run (repeat (js "app.PolicyEditorConfig={1}") 3) w (update_policies read_policies) = (w', Return (Ok tt)) /\ policies_file w' = Some (Whole made).
Proof. exact policies_update_example. Qed.
