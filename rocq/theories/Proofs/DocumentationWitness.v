(** Witnesses for C90. *)
From Coq Require Import List Arith Lia Bool Sorting.Sorted Sorting.Permutation.
From Verif.Model Require Import Base Helpers Rules Config Maintenance Documentation.
From Verif.Spec Require Import Files Maintenance Documentation.
From Verif.Proofs Require Import BaseFacts FilesProofs PlaceholderProofs MaintenanceMain DocumentationProofs.
Import ListNotations.
Local Open Scope string_scope.
Local Open Scope nat_scope.

Definition one_rule : documented := mkDoc "W1001" true "Title" "Text" "url" ["a"; "b"] [("strict", ("boolean", "False"))].
Definition other_rule : documented := mkDoc "E1001" false "Other" "Words" "url" [] [].
Definition known_source (id : string) : res string := Ok ("src/cfnlint/rules/" ++ id ++ ".py").
Definition old_page : string := "# Page" ++ line_end ++ "## Rules" ++ line_end ++ "old" ++ line_end ++ "## Rules" ++ line_end.
Lemma old_page_opens : opens old_page ("# Page" ++ line_end) ("old" ++ line_end ++ "## Rules" ++ line_end).
Proof. split; [reflexivity|]. right. now exists "# Page". Qed.
Lemma page_example : exists page, update_documentation known_source [one_rule; other_rule] (Some old_page) = (Some page, Ok tt) /\ NoDup (map d_id [one_rule; other_rule]) /\
  exists rest, page = "# Page" ++ line_end ++ "## Rules" ++ line_end ++ table_head 5 ++ rest.
Proof.
  eexists. split; [reflexivity|]. split; [repeat constructor; cbn; intuition discriminate|]. eexists. reflexivity.
Qed.
Lemma row_example : row_for one_rule "x.py" ("| [W1001*<a name=""W1001*""></a>](../x.py) | Title | Text | strict:boolean:False | [Source](url) | `a`,`b` |" ++ line_end).
Proof. exists "W1001*". split; reflexivity. Qed.
(** A page without the line that opens the part on rules grows with each update. *)
Lemma grows_witness : exists source rules s page page', update_documentation source rules (Some s) = (Some page, Ok tt) /\ update_documentation source rules (Some page) = (Some page', Ok tt) /\ String.length page < String.length page'.
Proof.
  exists known_source, [one_rule], "# Page". eexists. eexists. split; [reflexivity|]. split; [reflexivity|]. apply Nat.ltb_lt. vm_compute. reflexivity.
Qed.
(** A rule that is not in the sources ends the update when the old rows are gone. *)
Definition without_rule (id : string) : res string := if String.eqb id "E1001" then Err (EOther "CalledProcessError") else known_source id.
Lemma page_cut_witness : exists page, update_documentation without_rule [one_rule; other_rule] (Some old_page) = (Some page, Err (EOther "CalledProcessError")) /\
  exists rows, List.length rows = 3 /\ page = "# Page" ++ line_end ++ "## Rules" ++ line_end ++ table_head 5 ++ join_str "" rows.
Proof.
  eexists. split; [reflexivity|]. exists (map (fun r => table_row r ("src/cfnlint/rules/" ++ d_id r ++ ".py")) base_docs). split; reflexivity.
Qed.
(** A description of two lines breaks its row. *)
Lemma row_lines_witness : exists r file row, row_for r file row /\ exists a b, row = a ++ line_end ++ b /\ b <> "".
Proof.
  exists (mkDoc "W1001" false "Title" ("One" ++ line_end ++ "Two") "url" [] []), "x.py". eexists. split; [exists "W1001"; split; reflexivity|]. exists "| [W1001<a name=""W1001""></a>](../x.py) | Title | One". eexists. split; [reflexivity | discriminate].
Qed.

(** * The policies *)
Definition service (l : list string) : val := VDict [("Actions", VList (map VStr l)); ("Name", VStr "x")].
Definition sent (l : list string) : val := VDict [("serviceMap", VDict [(gateway, service l); (video_streams, service ["Tag"])])].
Definition read_policies (s : string) : option val := if String.eqb s "{1}" then Some (sent ["GET"]) else if String.eqb s "{2}" then Some (sent ["HEAD"]) else None.
Definition js (s : string) : network := mkNet (fun _ => Err EKey) (fun _ => Ok (mkReply None (Ok s))) (fun _ => Err EKey).
Definition made : val := VDict [("serviceMap", VDict [(gateway, service ["GET"; "HEAD"; "OPTIONS"]); (video_streams, service ["Tag"; "StartStreamEncryption"])])].
Lemma policies_example : policies_of read_policies "app.PolicyEditorConfig={1}" made.
Proof. apply policies_iff. reflexivity. Qed.
Lemma policies_update_example w : exists w', run (repeat (js "app.PolicyEditorConfig={1}") 3) w (update_policies read_policies) = (w', Return (Ok tt)) /\ policies_file w' = Some (Whole made).
Proof. eexists. split; reflexivity. Qed.
(** A process that is stopped while it writes leaves a file that is cut short. *)
Lemma policies_cut_witness w : exists k w' p, run (repeat (js "app.PolicyEditorConfig={1}") k) w (update_policies read_policies) = (w', p) /\ policies_file w' = Some Cut.
Proof. exists 2. eexists. eexists. split; reflexivity. Qed.
(** An action that the server knows by now is listed twice. *)
Lemma policies_twice_witness : exists v, policies_of read_policies "app.PolicyEditorConfig={2}" v /\ exists d, v = VDict d /\
  assoc "serviceMap" d = Some (VDict [(gateway, service ["HEAD"; "HEAD"; "OPTIONS"]); (video_streams, service ["Tag"; "StartStreamEncryption"])]).
Proof. eexists. split; [apply policies_iff; reflexivity|]. eexists. split; reflexivity. Qed.
