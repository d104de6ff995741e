(** Rules that judge the values of one property: what they say, and what a run reports. *)
From Coq Require Import List.
From Verif.Model Require Import Base Node Locate Helpers Search Rules PropertyRules.
From Verif.Spec Require Import Paths Branches Required Walk Values Permissions.
From Verif.Proofs Require Import BaseFacts SearchProofs BranchProofs PropertyRuleProofs GroupProofs SizeProofs ValueProofs RefProofs Says Places IamProofs PermissionProofs.
Import ListNotations.
Local Open Scope string_scope.

Lemma value_says f key props p (P : val -> path -> rulematch -> Prop) :
  (forall x, assoc key props = Some x -> (forall q, ~ alternative x (p ++ [PKey key])%list VNull q) /\
     forall w r, single x (p ++ [PKey key])%list w r -> ~ is_call w -> says (f w r) (P w r)) ->
  says (check_value (VDict props) key p f []) (fun m => exists x w r, assoc key props = Some x /\ single x (p ++ [PKey key])%list w r /\ ~ is_call w /\ P w r m).
Proof.
  intros H. destruct (assoc key props) as [x|] eqn:Ex.
  - destruct (H x eq_refl) as [Hn Hf]. eapply says_ext; [apply (says_values f props key x p P Ex Hn Hf)|]. intros m. split.
    + intros [w [r K]]. exists x, w, r. split; [reflexivity | exact K].
    + intros [y [w [r [[= <-] K]]]]. now exists w, r.
  - rewrite check_value_absent by (intros d [= <-]; exact Ex). eapply says_ext; [apply says_none|]. intros m. split; [intros [] | intros [y [w [r [[=] _]]]]].
Qed.
(** [place w r m]: where the rule reports, seen from the value. *)
Lemma value_run sp k c raw r f key name rt attrs pd m0 d0 (P : val -> path -> rulematch -> Prop) x w q m :
  snd (coll_run sp k c) = Ok raw -> In r (k_all k) -> enabled (k_set k) r = true ->
  r_match_props r = Some (fun _ _ props _ p => check_value props key p f []) -> In rt (r_types r ++ fst (r_init r c))%list ->
  wf (template c) -> c_tmpl c = MDict m0 d0 -> resource_of (template c) name rt attrs -> assoc "Properties" attrs = Some (VDict pd) ->
  (forall x, assoc key pd = Some x -> (forall q, ~ alternative x (props_path name ++ [PKey key])%list VNull q) /\
     forall w r, single x (props_path name ++ [PKey key])%list w r -> ~ is_call w -> says (f w r) (P w r)) ->
  (forall w r m, P w r m -> rm_path m = r) ->
  assoc key pd = Some x -> single x (props_path name ++ [PKey key])%list w q -> ~ is_call w -> P w q m ->
  exists fi, locate_match c (r_id r) m = Ok fi /\ In fi raw.
Proof.
  intros Hrun Hr He Hf Hrt Hw Hc Hres Hp Hs Hpath Hx Hsing Hcall Hm. pose proof (resource_at c name _ attrs pd Hw Hres Hp) as Hat.
  destruct (value_says f key pd (props_path name) P Hs) as [ms [Hms Hin]].
  apply (reported_props sp k c raw r _ name rt attrs pd ms m m0 d0 Hrun Hr He Hf Hrt); auto.
  - intros m' Hm'. destruct (proj1 (Hin m') Hm') as [x' [w' [r' [Hx' [Hs' [_ HP]]]]]]. rewrite (Hpath _ _ _ HP).
    assert (Hq : at_path (props_path name ++ [PKey key])%list (template c) = Some x') by (rewrite at_path_app, Hat; cbn [at_path]; now rewrite Hx').
    split; [|exists w'; exact (single_at _ _ _ _ _ Hs' Hq)]. apply (single_nonempty _ _ _ _ Hs'). destruct (props_path name); discriminate.
  - apply Hin. exists x, w, q. auto.
Qed.

(** * Parts of texts *)
Lemma concat_join sep l : String.concat sep l = join_str sep l.
Proof. induction l as [|x [|y l] IH]; [reflexivity | reflexivity|]. change (String.concat sep (x :: y :: l)) with (x ++ sep ++ String.concat sep (y :: l)). now rewrite IH. Qed.
Lemma split_on_parts c s : split_on c s <> [] /\ (forall x, In x (split_on c s) -> without c x) /\ s = String.concat (String c "") (split_on c s).
Proof.
  remember (String.length s) as n eqn:En. revert s En. induction n as [n IH] using (well_founded_induction Wf_nat.lt_wf). intros s En.
  destruct (has_char c s) eqn:E.
  - apply first_char in E as [t [rest [-> Ht]]]. rewrite split_on_app by (now apply without_iff).
    destruct (IH (String.length rest)) with (s := rest) as [H1 [H2 H3]]; [|reflexivity|].
    { rewrite En. clear. induction t as [|a t IHt]; cbn; [apply PeanoNat.Nat.lt_succ_diag_r|]. now apply PeanoNat.Nat.lt_lt_succ_r. }
    split; [discriminate|]. split; [intros x [<-|Hx]; auto|].
    destruct (split_on c rest) as [|y l] eqn:Es; [congruence|]. change (String.concat (String c "") (t :: y :: l)) with (t ++ String c (String.concat (String c "") (y :: l))). now rewrite <- H3.
  - rewrite (split_on_nochar _ _ E). split; [discriminate|]. split; [|reflexivity]. intros x [<-|[]]. now apply without_iff.
Qed.
Lemma split_on_unique c s l : l <> [] -> (forall x, In x l -> without c x) -> s = String.concat (String c "") l -> split_on c s = l.
Proof. intros H1 H2 ->. rewrite concat_join. apply split_on_join; [exact H1|]. apply Forall_forall. intros x Hx. apply without_iff. auto. Qed.

(** * Rules with a check of references *)
Lemma ref_says f h key props p (P : val -> path -> rulematch -> Prop) (R : val -> path -> rulematch -> Prop) :
  (forall x, assoc key props = Some x -> (forall q, ~ alternative x (p ++ [PKey key])%list VNull q) /\
     (forall w r, single x (p ++ [PKey key])%list w r -> ~ is_call w -> says (f w r) (P w r)) /\
     (forall v r, single x (p ++ [PKey key])%list (VDict [("Ref", v)]) r -> says (h v (r ++ [PKey "Ref"])%list) (R v r))) ->
  says (check_value (VDict props) key p f [("Ref", h)]) (fun m => exists x w r, assoc key props = Some x /\ single x (p ++ [PKey key])%list w r /\
    ((~ is_call w /\ P w r m) \/ (exists v, w = VDict [("Ref", v)] /\ R v r m))).
Proof.
  intros H. destruct (assoc key props) as [x|] eqn:Ex.
  - destruct (H x eq_refl) as [Hn [Hf Hr]].
    assert (Hcall : forall v, call_of (VDict [("Ref", v)]) "Ref" v) by (intros v; split; [reflexivity | apply smem_iff; reflexivity]).
    destruct (check_value_calls f [("Ref", h)] props key x p Ex Hn) as [o [Eo Hin]].
    + intros w r Hw. split; [intros Hc; destruct (Hf w r Hw Hc) as [o [Eo _]]; eauto|]. intros fn y g [-> Hfn] Eh. cbn [assoc] in Eh. destruct (String.eqb fn "Ref") eqn:E; [|discriminate Eh].
      apply String.eqb_eq in E. subst fn. injection Eh as <-. destruct (Hr y r Hw) as [o [Eo _]]. eauto.
    + exists o. split; [exact Eo|]. intros m. rewrite Hin. split.
      * intros [w [r [Hw [[Hc [o' [Eo' Hm]]]|[fn [y [g [o' [[-> Hfn] [Eh [Eo' Hm]]]]]]]]]]].
        -- exists x, w, r. split; [reflexivity|]. split; [exact Hw|]. left. split; [exact Hc|]. destruct (Hf w r Hw Hc) as [o1 [E1 H1]]. rewrite E1 in Eo'. injection Eo' as ->. now apply H1.
        -- cbn [assoc] in Eh. destruct (String.eqb fn "Ref") eqn:E; [|discriminate Eh]. apply String.eqb_eq in E. subst fn. injection Eh as <-.
           exists x, (VDict [("Ref", y)]), r. split; [reflexivity|]. split; [exact Hw|]. right. exists y. split; [reflexivity|]. destruct (Hr y r Hw) as [o1 [E1 H1]]. rewrite E1 in Eo'. injection Eo' as ->. now apply H1.
      * intros [x' [w [r [[= <-] [Hw [[Hc HP]|[v [-> HR]]]]]]]]; exists w || exists (VDict [("Ref", v)]); exists r; (split; [exact Hw|]).
        -- left. split; [exact Hc|]. destruct (Hf w r Hw Hc) as [o1 [E1 H1]]. exists o1. split; [exact E1|]. now apply H1.
        -- right. exists "Ref", v, h. destruct (Hr v r Hw) as [o1 [E1 H1]]. exists o1. split; [apply Hcall|]. split; [reflexivity|]. split; [exact E1|]. now apply H1.
  - rewrite check_value_absent by (intros d [= <-]; exact Ex). eapply says_ext; [apply says_none|]. intros m. split; [intros [] | intros [y [w [r [[=] _]]]]].
Qed.
