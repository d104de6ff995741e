(** One template in two layouts (C112). *)
From Coq Require Import List String Bool ZArith.
From Verif.Model Require Import Base Node Locate Helpers Rules Runner Config Core Standard.
From Verif.Spec Require Import Pipeline Paths Shipped Layout.
From Verif.Proofs Require Import BaseFacts Samples RuleSetWitness PropertyWitness StandardPropWitness StandardFunctionWitness LocalityWitness LayoutProofs.
Import Verif.Model.Rules.
Import ListNotations.
Local Open Scope string_scope.

(** Each level of nesting one line further down. *)
Fixpoint laid (n : Z) (v : val) : mval :=
  match v with
  | VStr s => MStr (ml n 3 n 7) s
  | VList l => MList (ml n 3 (n + 5) 2) (map (laid (n + 1)) l)
  | VDict d => MDict (ml n 3 (n + 5) 2) (map (fun kv => ((fst kv, Some (ml (n + 1) 4 (n + 1) 9)), laid (n + 1) (snd kv))) d)
  | v => MScalar v
  end.
Lemma laid_same v : forall n, same_document (marked v) (laid n v).
Proof.
  induction v as [|b|z|q|t|l IH|d IH] using val_ind'; intros n; cbn [marked laid]; constructor.
  - induction IH as [|x l H F IH2]; cbn [map]; constructor; [apply H | exact IH2].
  - induction IH as [|x d H F IH2]; cbn [map]; constructor; [split; [reflexivity | apply H] | exact IH2].
Qed.
Definition laid_cfn : cfn := mkCfn "u.json" "us-east-1" (laid 0 mixed).
Lemma layout_case : only_shipped stocked (k_all (mkColl (shipped stocked) informed)) /\ same_document (c_tmpl third_cfn) (c_tmpl laid_cfn) /\ (exists m d, c_tmpl third_cfn = MDict m d) /\
  w_before stocked third_cfn = w_before stocked laid_cfn /\ w_globals stocked third_cfn = w_globals stocked laid_cfn /\
  (forall r, In r (rules (mkColl (shipped stocked) informed)) -> r_id r = "E1002" \/ r_id r = "I1002" -> w_size stocked (c_file third_cfn) = w_size stocked (c_file laid_cfn)) /\
  wants_transform (template third_cfn) = false /\ get_directives (c_tmpl third_cfn) = Ok [] /\ get_directives (c_tmpl laid_cfn) = Ok [] /\
  exists l l', snd (run_checks small_sp no_translator (mkColl (shipped stocked) informed) ["us-east-1"] [] third_cfn) = Findings l /\
    snd (run_checks small_sp no_translator (mkColl (shipped stocked) informed) ["us-east-1"] [] laid_cfn) = Findings l' /\
    8 <= List.length l /\ (exists fi, In fi l' /\ f_rule fi = "E1012" /\ f_line fi <> 1%Z) /\ (exists fi, In fi l /\ f_rule fi = "E1012" /\ f_line fi = 1%Z).
Proof.
  split; [intros r H; exists r; split; [exact H|]; repeat split; auto|]. split; [apply laid_same|]. split; [eexists; eexists; reflexivity|]. split; [reflexivity|]. split; [reflexivity|]. split; [reflexivity|].
  split; [reflexivity|]. split; [vm_compute; reflexivity|]. split; [vm_compute; reflexivity|]. eexists. eexists. split; [vm_compute; reflexivity|]. split; [vm_compute; reflexivity|].
  split; [apply Nat.leb_le; vm_compute; reflexivity|].
  split.
  - match goal with |- exists fi, In fi ?l /\ _ => assert (A : existsb (fun fi => String.eqb (f_rule fi) "E1012" && negb (Z.eqb (f_line fi) 1)) l = true) by (vm_compute; reflexivity) end.
    apply existsb_exists in A as [fi [I A]]. apply andb_true_iff in A as [A1 A2]. exists fi. split; [exact I|]. split; [now apply String.eqb_eq|]. intros E. rewrite E in A2. discriminate A2.
  - match goal with |- exists fi, In fi ?l /\ _ => assert (A : existsb (fun fi => String.eqb (f_rule fi) "E1012" && Z.eqb (f_line fi) 1) l = true) by (vm_compute; reflexivity) end.
    apply existsb_exists in A as [fi [I A]]. apply andb_true_iff in A as [A1 A2]. exists fi. split; [exact I|]. split; [now apply String.eqb_eq | now apply Z.eqb_eq].
Qed.
