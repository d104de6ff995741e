(** Rules that judge the values of one property and the arguments of one function in it. *)
From Coq Require Import List.
From Verif.Model Require Import Base Node Locate Helpers Search Rules PropertyRules.
From Verif.Spec Require Import Paths Branches Required Walk Values Permissions.
From Verif.Proofs Require Import BaseFacts SearchProofs BranchProofs PropertyRuleProofs GroupProofs SizeProofs ValueProofs RefProofs Says Places IamProofs PermissionProofs ValueRun.
Import ListNotations.
Local Open Scope string_scope.

Lemma call_says fn f h key props p (P : val -> path -> rulematch -> Prop) (R : val -> path -> rulematch -> Prop) : In fn FUNCTIONS ->
  (forall x, assoc key props = Some x -> (forall q, ~ alternative x (p ++ [PKey key])%list VNull q) /\
     (forall w r, single x (p ++ [PKey key])%list w r -> ~ is_call w -> says (f w r) (P w r)) /\
     (forall v r, single x (p ++ [PKey key])%list (VDict [(fn, v)]) r -> says (h v (r ++ [PKey fn])%list) (R v r))) ->
  says (check_value (VDict props) key p f [(fn, h)]) (fun m => exists x w r, assoc key props = Some x /\ single x (p ++ [PKey key])%list w r /\
    ((~ is_call w /\ P w r m) \/ (exists v, w = VDict [(fn, v)] /\ R v r m))).
Proof.
  intros HF H. destruct (assoc key props) as [x|] eqn:Ex.
  - destruct (H x eq_refl) as [Hn [Hf Hr]].
    assert (Hcall : forall v, call_of (VDict [(fn, v)]) fn v) by (intros v; split; [reflexivity | exact HF]).
    destruct (check_value_calls f [(fn, h)] props key x p Ex Hn) as [o [Eo Hin]].
    + intros w r Hw. split; [intros Hc; destruct (Hf w r Hw Hc) as [o [Eo _]]; eauto|]. intros fn' y g [-> Hfn] Eh. cbn [assoc] in Eh. destruct (String.eqb fn' fn) eqn:E; [|discriminate Eh].
      apply String.eqb_eq in E. subst fn'. injection Eh as <-. destruct (Hr y r Hw) as [o [Eo _]]. eauto.
    + exists o. split; [exact Eo|]. intros m. rewrite Hin. split.
      * intros [w [r [Hw [[Hc [o' [Eo' Hm]]]|[fn' [y [g [o' [[-> Hfn] [Eh [Eo' Hm]]]]]]]]]]].
        -- exists x, w, r. split; [reflexivity|]. split; [exact Hw|]. left. split; [exact Hc|]. destruct (Hf w r Hw Hc) as [o1 [E1 H1]]. rewrite E1 in Eo'. injection Eo' as ->. now apply H1.
        -- cbn [assoc] in Eh. destruct (String.eqb fn' fn) eqn:E; [|discriminate Eh]. apply String.eqb_eq in E. subst fn'. injection Eh as <-.
           exists x, (VDict [(fn, y)]), r. split; [reflexivity|]. split; [exact Hw|]. right. exists y. split; [reflexivity|]. destruct (Hr y r Hw) as [o1 [E1 H1]]. rewrite E1 in Eo'. injection Eo' as ->. now apply H1.
      * intros [x' [w [r [[= <-] [Hw [[Hc HP]|[v [-> HR]]]]]]]]; exists w || exists (VDict [(fn, v)]); exists r; (split; [exact Hw|]).
        -- left. split; [exact Hc|]. destruct (Hf w r Hw Hc) as [o1 [E1 H1]]. exists o1. split; [exact E1|]. now apply H1.
        -- right. exists fn, v, h. destruct (Hr v r Hw) as [o1 [E1 H1]]. exists o1. split; [apply Hcall|]. split; [cbn [assoc]; now rewrite String.eqb_refl|]. split; [exact E1|]. now apply H1.
  - rewrite check_value_absent by (intros d [= <-]; exact Ex). eapply says_ext; [apply says_none|]. intros m. split; [intros [] | intros [y [w [r [[=] _]]]]].
Qed.
Lemma call_run fn sp k c raw r f h key name rt attrs pd m0 d0 (P : val -> path -> rulematch -> Prop) (R : val -> path -> rulematch -> Prop) x w q m : In fn FUNCTIONS ->
  snd (coll_run sp k c) = Ok raw -> In r (k_all k) -> enabled (k_set k) r = true ->
  r_match_props r = Some (fun _ _ props _ p => check_value props key p f [(fn, h)]) -> In rt (r_types r ++ fst (r_init r c))%list ->
  wf (template c) -> c_tmpl c = MDict m0 d0 -> resource_of (template c) name rt attrs -> assoc "Properties" attrs = Some (VDict pd) ->
  (forall x, assoc key pd = Some x -> (forall q, ~ alternative x (props_path name ++ [PKey key])%list VNull q) /\
     (forall w r, single x (props_path name ++ [PKey key])%list w r -> ~ is_call w -> says (f w r) (P w r)) /\
     (forall v r, single x (props_path name ++ [PKey key])%list (VDict [(fn, v)]) r -> says (h v (r ++ [PKey fn])%list) (R v r))) ->
  (forall w r m, P w r m -> rm_path m = r) -> (forall v r m, R v r m -> rm_path m = (r ++ [PKey fn])%list) ->
  assoc key pd = Some x -> single x (props_path name ++ [PKey key])%list w q -> ((~ is_call w /\ P w q m) \/ (exists v, w = VDict [(fn, v)] /\ R v q m)) ->
  exists fi, locate_match c (r_id r) m = Ok fi /\ In fi raw.
Proof.
  intros HF Hrun Hr He Hf Hrt Hw Hc Hres Hp Hs Hpath Hpath' Hx Hsing Hm. pose proof (resource_at c name _ attrs pd Hw Hres Hp) as Hat.
  destruct (call_says fn f h key pd (props_path name) P R HF Hs) as [ms [Hms Hin]].
  apply (reported_props sp k c raw r _ name rt attrs pd ms m m0 d0 Hrun Hr He Hf Hrt); auto.
  - intros m' Hm'. destruct (proj1 (Hin m') Hm') as [x' [w' [r' [Hx' [Hs' HP]]]]].
    assert (Hq : at_path (props_path name ++ [PKey key])%list (template c) = Some x') by (rewrite at_path_app, Hat; cbn [at_path]; now rewrite Hx').
    pose proof (single_at _ _ _ _ _ Hs' Hq) as Hr'.
    destruct HP as [[_ HP]|[v [-> HR]]].
    + rewrite (Hpath _ _ _ HP). split; [|exists w'; exact Hr']. apply (single_nonempty _ _ _ _ Hs'). destruct (props_path name); discriminate.
    + rewrite (Hpath' _ _ _ HR). split; [destruct r'; discriminate|]. exists v. rewrite at_path_app, Hr'. cbn [at_path assoc]. now rewrite String.eqb_refl.
  - apply Hin. exists x, w, q. auto.
Qed.
