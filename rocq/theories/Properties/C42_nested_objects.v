(** C42 Every nested property object of a specified type is checked. *)
From Verif.Model Require Import Base Rules Core.
From Verif.Spec Require Import Pipeline Branches Walk.
From Verif.Proofs Require Import RunProofs Samples ReportProofs.

(** For every resource, every choice of Fn::If branches and every object the resource specification says is nested in
    its properties at any depth, each enabled rule for that type has its outcome in the findings. *)
Theorem nested_objects_checked : forall sp k c raw r name rt attrs pd type_name w q,
  snd (coll_run sp k c) = Ok raw -> In r (rules (fst (coll_run sp k c))) ->
  resource_of (template c) name rt attrs -> assoc "Properties" attrs = Some (VDict pd) ->
  resource_nested sp rt (VDict pd) [PKey "Resources"; PKey name; PKey "Properties"] type_name w q -> ~ is_if w ->
  (forall fs, matchall_subs r c w type_name q = Ok fs -> incl fs raw) /\
  (forall e, matchall_subs r c w type_name q = Err e -> e <> ETemplateAttribute ->
     In (crash_finding (c_file c) (r_id r) e) raw).
Proof. exact c06_subs. Qed.

Example nested_example :
  exists raw, snd (coll_run walk_spec walk_coll (mkCfn "t" "us-east-1" walk_template)) = Ok raw /\
    map f_msg raw = ["at depth 10"; "at depth 6"] /\
    resource_nested walk_spec "T" (VDict walk_props) [PKey "Resources"; PKey "A"; PKey "Properties"] "T.In"
      (VDict [("x", VStr "1")])
      [PKey "Resources"; PKey "A"; PKey "Properties"; PKey "Fn::If"; PIdx 1; PKey "Boxes"; PIdx 0; PKey "Fn::If"; PIdx 2;
       PKey "in"].
Proof. exact walk_example. Qed.

Print Assumptions nested_objects_checked.
