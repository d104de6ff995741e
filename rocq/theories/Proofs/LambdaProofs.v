(** C74: runtimes of functions. *)
From Coq Require Import List ZArith Lia.
From Verif.Model Require Import Base Locate Helpers Node Search Rules Limits Parameters PropertyRules Lambda.
From Verif.Spec Require Import Paths Branches References Required Walk Values Events Lambda.
From Verif.Proofs Require Import BaseFacts SearchProofs PropertyRuleProofs SizeProofs ValueProofs Says Places ValueRun.
Import Verif.Model.Rules.
Import ListNotations.
Local Open Scope string_scope.

Section Runtimes.
Variable runtimes : list (string * lifecycle).
Variable words : string -> lifecycle -> option string.
Hypothesis no_empty : assoc "" runtimes = None.
Definition worded (s w : string) : Prop := exists l, assoc s runtimes = Some l /\ words s l = Some w.
Lemma check_runtime_says v p : scalar v -> says (check_runtime runtimes words v p) (fun m => exists s w, v = VStr s /\ worded s w /\ m = mkRM p w).
Proof.
  intros [Hl Hd]. unfold check_runtime. destruct v as [|b|z|f|s|l|d]; try discriminate Hl; try discriminate Hd;
    try (eapply says_ext; [apply says_none|]; intros m; split; [intros [] | intros [s [w [[=] _]]]]).
  destruct (assoc s runtimes) as [lf|] eqn:E.
  - destruct (words s lf) as [w|] eqn:Ew.
    + eapply says_ext; [apply says_one|]. intros m. split; [intros ->; exists s, w; split; [reflexivity|]; split; [exists lf; auto | reflexivity]|].
      intros [s' [w' [[= <-] [[l [E1 E2]] ->]]]]. congruence.
    + eapply says_ext; [apply says_none|]. intros m. split; [intros []|]. intros [s' [w' [[= <-] [[l [E1 E2]] ->]]]]. congruence.
  - eapply says_ext; [apply says_none|]. intros m. split; [intros []|]. intros [s' [w' [[= <-] [[l [E1 E2]] ->]]]]. congruence.
Qed.
Definition by_parameter (t v : val) (m : rulematch) : Prop :=
  exists n o s w, v = VStr n /\ defined_in "Parameters" t n o /\ worded s w /\
    ((assoc "Default" o = Some (VStr s) /\ m = mkRM [PKey "Parameters"; PKey n; PKey "Default"] w) \/
     (exists l i, assoc "AllowedValues" o = Some (VList l) /\ nth_error l i = Some (VStr s) /\ m = mkRM [PKey "Parameters"; PKey n; PKey "AllowedValues"; PIdx i] w)).
Lemma runtime_ref_says t v p : (exists top, t = VDict top /\ forall ps, assoc "Parameters" top = Some ps -> exists d, ps = VDict d) -> scalar v ->
  (forall n top ps y, v = VStr n -> t = VDict top -> assoc "Parameters" top = Some (VDict ps) -> assoc n ps = Some y ->
     exists o, y = VDict o /\ (forall z, assoc "Default" o = Some z -> scalar z) /\ (forall l z, assoc "AllowedValues" o = Some (VList l) -> In z l -> scalar z)) ->
  says (runtime_ref runtimes words t v p) (by_parameter t v).
Proof.
  intros [top [-> Ht]] [Hl Hd] Hp. unfold runtime_ref, get_parameters. cbn [vget_def bind].
  assert (Hps : exists d, (if truthy (match assoc "Parameters" top with Some x => x | None => VDict [] end) then match assoc "Parameters" top with Some x => x | None => VDict [] end else VDict []) = VDict d /\
    (forall n o, assoc n d = Some o <-> exists ps, assoc "Parameters" top = Some (VDict ps) /\ assoc n ps = Some o)).
  { destruct (assoc "Parameters" top) as [ps|] eqn:E.
    - destruct (Ht ps eq_refl) as [d ->]. exists d. split; [destruct d; reflexivity|]. intros n o. split; [eauto | intros [ps [[= <-] H]]; exact H].
    - exists []. split; [reflexivity|]. intros n o. split; [discriminate | intros [ps [[=] _]]]. }
  destruct Hps as [d [-> Hps]].
  assert (Hnone : (forall n, v = VStr n -> assoc n d = None) -> says (@Ok (list rulematch) []) (by_parameter (VDict top) v)).
  { intros Hn. eapply says_ext; [apply says_none|]. intros m. split; [intros []|]. intros [n [o [s [w [-> [[t' [ps [[= <-] [E1 E2]]]] _]]]]]]. specialize (Hn n eq_refl). assert (assoc n d = Some (VDict o)) by (apply Hps; eauto). congruence. }
  destruct v as [|b|z|f|n|l|dd]; try discriminate Hl; try discriminate Hd; try (cbn [py_member bind]; apply Hnone; discriminate).
  cbn [py_member bind]. unfold mem_assoc. destruct (assoc n d) as [y|] eqn:Ey; [|cbn [bind]; apply Hnone; intros n' [= <-]; exact Ey].
  destruct (proj1 (Hps n y) Ey) as [ps [Eps Eny]]. destruct (Hp n top ps y eq_refl eq_refl Eps Eny) as [o [-> [Hdef Hall]]].
  cbn [vget_def bind vget]. rewrite Ey. cbn [vget_def bind vget].
  assert (Hdo : defined_in "Parameters" (VDict top) n o) by (exists top, ps; auto).
  set (dflt := match assoc "Default" o with Some x => x | None => VStr "" end).
  assert (S1 : says (check_runtime runtimes words dflt ([PKey "Parameters"; PKey n] ++ [PKey "Default"])%list)
    (fun m => exists s w, worded s w /\ assoc "Default" o = Some (VStr s) /\ m = mkRM [PKey "Parameters"; PKey n; PKey "Default"] w)).
  { eapply says_ext; [apply check_runtime_says; unfold dflt; destruct (assoc "Default" o) as [z|]; [now apply Hdef | split; reflexivity]|].
    intros m. cbn beta. unfold dflt. destruct (assoc "Default" o) as [z|]; split.
    - intros [s [w [-> [Hw ->]]]]. eauto.
    - intros [s [w [Hw [[= ->] ->]]]]. eauto.
    - intros [s [w [[= <-] [[lf [E _]] _]]]]. congruence.
    - intros [s [w [_ [[=] _]]]]. }
  set (av := match assoc "AllowedValues" o with Some x => x | None => VNull end).
  assert (S2 : says (match av with
                | VList l => concat_res (fun ix => check_runtime runtimes words (snd ix) ([PKey "Parameters"; PKey n] ++ [PKey "AllowedValues"; PIdx (fst ix)])%list) (enum l)
                | _ => Ok []
                end) (fun m => exists l i s w, worded s w /\ assoc "AllowedValues" o = Some (VList l) /\ nth_error l i = Some (VStr s) /\ m = mkRM [PKey "Parameters"; PKey n; PKey "AllowedValues"; PIdx i] w)).
  { unfold av. destruct (assoc "AllowedValues" o) as [z|] eqn:Ez.
    - destruct z as [|b|z|f|s|l|dd]; try (eapply says_ext; [apply says_none|]; intros m; split; [intros [] | intros [l [i [s' [w [_ [[=] _]]]]]]]).
      eapply says_ext; [apply (says_concat _ _ (fun ix m => exists s w, snd ix = VStr s /\ worded s w /\ m = mkRM ([PKey "Parameters"; PKey n] ++ [PKey "AllowedValues"; PIdx (fst ix)])%list w))|].
      + intros [i x] Hi. apply check_runtime_says. apply (Hall l x eq_refl). apply enum_nth in Hi. now apply nth_error_In in Hi.
      + intros m. cbn beta. split.
        * intros [[i x] [Hi [s [w [Ex [Hw ->]]]]]]. cbn [fst snd] in *. subst x. apply enum_nth in Hi. exists l, i, s, w. auto.
        * intros [l' [i [s [w [Hw [[= <-] [Hi ->]]]]]]]. exists (i, VStr s). split; [now apply enum_nth|]. exists s, w. auto.
    - eapply says_ext; [apply says_none|]; intros m; split; [intros [] | intros [l [i [s' [w [_ [[=] _]]]]]]]. }
  eapply says_ext; [apply (says_app _ _ _ _ S1 S2)|]. intros m. cbn beta. unfold by_parameter. split.
  - intros [[s [w [Hw [Hs ->]]]]|[l [i [s [w [Hw [Hl' [Hi ->]]]]]]]]; exists n, o, s, w; (split; [reflexivity|]); (split; [exact Hdo|]); (split; [exact Hw|]); [left | right; exists l, i]; auto.
  - intros [n' [o' [s [w [[= <-] [[t' [ps' [[= <-] [F1 F2]]]] [Hw [[Hs ->]|[l [i [Hl' [Hi ->]]]]]]]]]]]].
    + assert (o' = o) as -> by congruence. left. eauto.
    + assert (o' = o) as -> by congruence. right. exists l, i, s, w. auto.
Qed.
Lemma runtime_check_says t props p : runtimes_shaped t props p ->
  says (runtime_check runtimes words t (VDict props) p) (fun m => exists s q w, runtime_given t props p s q /\ worded s w /\ m = mkRM q w).
Proof.
  intros [Ht Hs]. eapply says_ext; [apply (ref_says (check_runtime runtimes words) (runtime_ref runtimes words t) "Runtime" props p (fun v r m => exists s w, v = VStr s /\ worded s w /\ m = mkRM r w) (fun v _ m => by_parameter t v m))|].
  - intros x Hx. destruct (Hs x Hx) as [Hn [Hv Hr]]. split; [exact Hn|]. split.
    + intros w r Hw Hc. apply check_runtime_says. eauto.
    + intros v r Hv'. destruct (Hr v r Hv') as [H1 H2]. now apply runtime_ref_says.
  - intros m. cbn beta. split.
    + intros [x [w [r [Hx [Hw [[_ [s [wd [-> [Hwd ->]]]]]|[v [-> [n [o [s [wd [-> [Hd [Hwd [[Hs' ->]|[l [i [Hl [Hi ->]]]]]]]]]]]]]]]]]]]].
      * exists s, r, wd. split; [eapply rg_text; eauto | auto].
      * eexists _, _, wd. split; [eapply rg_default; eauto | split; [exact Hwd | reflexivity]].
      * eexists _, _, wd. split; [eapply rg_allowed; eauto | split; [exact Hwd | reflexivity]].
    + intros [s [q [wd [Hg [Hwd ->]]]]]. destruct Hg as [x s q Hx Hw|x n q o s Hx Hw Hd Hs'|x n q o l i s Hx Hw Hd Hl Hi]; (eexists _, _, _; split; [exact Hx|]; split; [exact Hw|]).
      * left. split; [intros [fn [y [[=] _]]]|]. exists s, wd. auto.
      * right. exists (VStr n). split; [reflexivity|]. exists n, o, s, wd. split; [reflexivity|]. split; [exact Hd|]. split; [exact Hwd|]. left. auto.
      * right. exists (VStr n). split; [reflexivity|]. exists n, o, s, wd. split; [reflexivity|]. split; [exact Hd|]. split; [exact Hwd|]. right. exists l, i. auto.
Qed.
Lemma given_at c name attrs pd s q : wf (template c) -> resource_of (template c) name "AWS::Lambda::Function" attrs -> assoc "Properties" attrs = Some (VDict pd) ->
  runtime_given (template c) pd (props_path name) s q -> q <> [] /\ exists x, at_path q (template c) = Some x.
Proof.
  intros Hw Hres Hp Hg. pose proof (resource_at c name _ attrs pd Hw Hres Hp) as Hat.
  destruct Hg as [x s q Hx Hs|x n q o s Hx Hs [top [ps [Et [E1 E2]]]] Hd|x n q o l i s Hx Hs [top [ps [Et [E1 E2]]]] Hl Hi].
  - split; [apply (single_nonempty _ _ _ _ Hs); destruct (props_path name); discriminate|]. exists (VStr s). apply (single_at _ _ _ _ _ Hs). rewrite at_path_app, Hat. cbn [at_path]. now rewrite Hx.
  - split; [discriminate|]. rewrite Et. cbn [at_path]. rewrite E1. cbn [at_path]. rewrite E2. cbn [at_path]. rewrite Hd. eauto.
  - split; [discriminate|]. rewrite Et. cbn [at_path]. rewrite E1. cbn [at_path]. rewrite E2. cbn [at_path]. rewrite Hl. cbn [at_path]. rewrite Hi. eauto.
Qed.
Lemma runtime_run id sp k c raw name attrs pd m0 d0 s q w :
  let rl := mkRule id false [] [] ["AWS::Lambda::Function"] [] (fun _ => ([], [])) None (Some (fun _ c props _ p => runtime_check runtimes words (template c) props p)) None in
  snd (coll_run sp k c) = Ok raw -> In rl (k_all k) -> enabled (k_set k) rl = true ->
  wf (template c) -> c_tmpl c = MDict m0 d0 -> resource_of (template c) name "AWS::Lambda::Function" attrs -> assoc "Properties" attrs = Some (VDict pd) ->
  runtimes_shaped (template c) pd (props_path name) -> runtime_given (template c) pd (props_path name) s q -> worded s w ->
  exists f, locate_match c id (mkRM q w) = Ok f /\ In f raw.
Proof.
  intros rl Hrun Hr He Hw Hc Hres Hp Hs Hg Hwd. destruct (runtime_check_says (template c) pd (props_path name) Hs) as [ms [Hms Hin]].
  apply (reported_props sp k c raw rl _ name "AWS::Lambda::Function" attrs pd ms (mkRM q w) m0 d0 Hrun Hr He eq_refl (or_introl eq_refl)); auto.
  - intros m Hm. destruct (proj1 (Hin m) Hm) as [s' [q' [w' [Hg' [_ ->]]]]]. exact (given_at c name attrs pd s' q' Hw Hres Hp Hg').
  - apply Hin. exists s, q, w. auto.
Qed.
End Runtimes.
Lemma end_worded runtimes instant now s w : worded runtimes (end_words instant now) s w <-> retired runtimes instant now s w.
Proof.
  unfold worded, end_words, retired. split.
  - intros [[eol dep succ] [E H]]. cbn [l_deprecated l_successor l_eol] in H. destruct (Z.ltb_spec (instant dep) now) as [Hlt|Hge]; [|discriminate H]. injection H as <-. exists eol, dep, succ. auto.
  - intros [eol [dep [succ [E [H ->]]]]]. exists (mkLife eol dep succ). split; [exact E|]. cbn [l_deprecated l_successor l_eol]. apply Z.ltb_lt in H. now rewrite H.
Qed.
Lemma eol_worded runtimes instant now s w : worded runtimes (eol_words instant now) s w <-> retiring runtimes instant now s w.
Proof.
  unfold worded, eol_words, retiring. split.
  - intros [[eol dep succ] [E H]]. cbn [l_deprecated l_successor l_eol] in H. destruct (Z.ltb_spec (instant eol) now) as [H1|]; [|discriminate H]. destruct (Z.ltb_spec now (instant dep)) as [H2|]; [|discriminate H]. injection H as <-. exists eol, dep, succ. auto.
  - intros [eol [dep [succ [E [[H1 H2] ->]]]]]. exists (mkLife eol dep succ). split; [exact E|]. cbn [l_deprecated l_successor l_eol]. apply Z.ltb_lt in H1, H2. now rewrite H1, H2.
Qed.
Lemma c74_retired runtimes instant now t props p : assoc "" runtimes = None -> runtimes_shaped t props p ->
  exists ms, runtime_check runtimes (end_words instant now) t (VDict props) p = Ok ms /\ forall m, In m ms <->
    exists s q words, runtime_given t props p s q /\ retired runtimes instant now s words /\ m = mkRM q words.
Proof.
  intros H0 Hs. destruct (runtime_check_says runtimes (end_words instant now) H0 t props p Hs) as [ms [Hms Hin]]. exists ms. split; [exact Hms|]. intros m. rewrite Hin.
  split; intros [s [q [w [Hg [Hw ->]]]]]; exists s, q, w; (split; [exact Hg|]); (split; [|reflexivity]); now apply end_worded.
Qed.
Lemma c74_retiring runtimes instant now t props p : assoc "" runtimes = None -> runtimes_shaped t props p ->
  exists ms, runtime_check runtimes (eol_words instant now) t (VDict props) p = Ok ms /\ forall m, In m ms <->
    exists s q words, runtime_given t props p s q /\ retiring runtimes instant now s words /\ m = mkRM q words.
Proof.
  intros H0 Hs. destruct (runtime_check_says runtimes (eol_words instant now) H0 t props p Hs) as [ms [Hms Hin]]. exists ms. split; [exact Hms|]. intros m. rewrite Hin.
  split; intros [s [q [w [Hg [Hw ->]]]]]; exists s, q, w; (split; [exact Hg|]); (split; [|reflexivity]); now apply eol_worded.
Qed.
Lemma c74_retired_run runtimes instant now sp k c raw name attrs pd m0 d0 s q words : assoc "" runtimes = None ->
  snd (coll_run sp k c) = Ok raw -> In (end_rule runtimes instant now) (k_all k) -> enabled (k_set k) (end_rule runtimes instant now) = true ->
  wf (template c) -> c_tmpl c = MDict m0 d0 -> resource_of (template c) name "AWS::Lambda::Function" attrs -> assoc "Properties" attrs = Some (VDict pd) ->
  runtimes_shaped (template c) pd (props_path name) -> runtime_given (template c) pd (props_path name) s q -> retired runtimes instant now s words ->
  exists f, locate_match c "E2531" (mkRM q words) = Ok f /\ In f raw.
Proof. intros H0 Hrun Hr He Hw Hc Hres Hp Hs Hg Hwd. apply (runtime_run runtimes (end_words instant now) H0 "E2531" sp k c raw name attrs pd m0 d0 s q words Hrun Hr He Hw Hc Hres Hp Hs Hg). now apply end_worded. Qed.
Lemma c74_retiring_run runtimes instant now sp k c raw name attrs pd m0 d0 s q words : assoc "" runtimes = None ->
  snd (coll_run sp k c) = Ok raw -> In (eol_rule runtimes instant now) (k_all k) -> enabled (k_set k) (eol_rule runtimes instant now) = true ->
  wf (template c) -> c_tmpl c = MDict m0 d0 -> resource_of (template c) name "AWS::Lambda::Function" attrs -> assoc "Properties" attrs = Some (VDict pd) ->
  runtimes_shaped (template c) pd (props_path name) -> runtime_given (template c) pd (props_path name) s q -> retiring runtimes instant now s words ->
  exists f, locate_match c "W2531" (mkRM q words) = Ok f /\ In f raw.
Proof. intros H0 Hrun Hr He Hw Hc Hres Hp Hs Hg Hwd. apply (runtime_run runtimes (eol_words instant now) H0 "W2531" sp k c raw name attrs pd m0 d0 s q words Hrun Hr He Hw Hc Hres Hp Hs Hg). now apply eol_worded. Qed.
(** The two never speak of the same runtime. *)
Lemma c74_never_both runtimes instant now s w w' : ~ (retired runtimes instant now s w /\ retiring runtimes instant now s w').
Proof. intros [[e [d [u [E [H _]]]]] [e' [d' [u' [E' [H' _]]]]]]. rewrite E in E'. injection E' as <- <- <-. lia. Qed.
