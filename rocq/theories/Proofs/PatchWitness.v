(** Witnesses for C89. *)
From Coq Require Import List Arith Lia Bool Sorting.Sorted Sorting.Permutation.
From Verif.Model Require Import Base Helpers Rules Config Maintenance.
From Verif.Spec Require Import Paths Files Maintenance.
From Verif.Proofs Require Import BaseFacts FilesProofs WfDecide PatchProofs.
Import ListNotations.
Local Open Scope string_scope.
Local Open Scope nat_scope.

(** A patch is an object with the key to set and its value; it is refused when there is no such key. *)
Definition set_patch (p c : val) : outcome :=
  match p, c with
  | VDict [("key", VStr k); ("value", x)], VDict d => match assoc k d with Some _ => Applied (VDict (set_assoc k x d)) | None => Refused c end
  | _, _ => Raised EKey
  end.
Definition sample_walk (region : string) : list (string * list string) :=
  if String.eqb region "all" then [("all", ["2.json"; "notes.txt"; "1.json"])] else [].
Definition sample_load (folder name : string) : res (list val) :=
  if String.eqb name "1.json" then Ok [VDict [("key", VStr "A"); ("value", VStr "one")]; VDict [("key", VStr "B"); ("value", VStr "lost")]]
  else if String.eqb name "2.json" then Ok [VDict [("key", VStr "A"); ("value", VDict [("botocore", VStr "ec2/2016-11-15/State")])]]
  else Err EKey.
Definition sample_fetch (service : string) : res shapes :=
  if String.eqb service "ec2/2016-11-15" then Ok [("State", Some ["running"; "pending"]); ("Text", None)] else Err (EOther "HTTPError").
(** The files are taken by name; the second patch is refused; the type is replaced by its values. *)
Lemma patch_example : patch_spec sample_walk sample_load set_patch (VDict [("A", VStr "zero")]) "all" = Ok (VDict [("A", VDict [("botocore", VStr "ec2/2016-11-15/State")])]) /\
  processed sample_walk sample_load set_patch "us" sample_fetch (VDict [("A", VStr "zero")]) = Ok (VDict [("A", VDict [("AllowedValues", VList [VStr "pending"; VStr "running"])])]).
Proof. split; reflexivity. Qed.
Lemma replaced_example : wf (VDict [("A", VDict [("botocore", VStr "ec2/2016-11-15/State")])]) /\ enumeration sample_fetch "ec2/2016-11-15/State" ["pending"; "running"].
Proof.
  split; [apply wfb_sound; reflexivity|]. exists "ec2/2016-11-15", "State". eexists. exists ["running"; "pending"]. split; [split; [reflexivity | now left]|]. split; [reflexivity|]. split; [reflexivity|]. split; [apply perm_swap|].
  apply (sort_sorted ["running"; "pending"]).
Qed.
(** With values of its own after the reference, an object keeps these, not those of the type. *)
Lemma own_values_witness : replace_types sample_fetch (VDict [("botocore", VStr "ec2/2016-11-15/State"); ("AllowedValues", VList [VStr "x"])]) [] =
  Ok (VDict [("AllowedValues", VList [VStr "x"])], [("ec2/2016-11-15", [("State", Some ["running"; "pending"]); ("Text", None)])]).
Proof. reflexivity. Qed.
(** A member of a specification whose name is the word itself stops the update. *)
Lemma word_witness : exists v, wf v /\ replace_types sample_fetch v [] = Err EAttribute.
Proof. exists (VDict [("Properties", VDict [("botocore", VDict [("Type", VStr "String")])])]). split; [apply wfb_sound; reflexivity | reflexivity]. Qed.
(** So does a type without an enumeration. *)
Lemma no_enum_witness : replace_types sample_fetch (VDict [("botocore", VStr "ec2/2016-11-15/Text")]) [] = Err EKey.
Proof. reflexivity. Qed.
