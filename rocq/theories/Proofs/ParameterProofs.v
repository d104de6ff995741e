(** Proofs for C25 and C26. *)
From Coq Require Import Lia QArith.
From Verif.Model Require Import Base Helpers Rules Search Refs ConditionRules Limits Parameters.
From Verif.Spec Require Import Paths References Limited ConditionUse ParameterUse.
From Verif.Proofs Require Import BaseFacts SearchProofs RelationRule ConditionUseProofs LimitProofs.
Local Open Scope string_scope.

(** * C25 *)
Lemma scalar_eq v x : scalar v -> scalar x -> py_eq v x = true <-> v = x.
Proof.
  intros [[s ->]|[z ->]] [[t ->]|[y ->]].
  - cbn [py_eq]. rewrite String.eqb_eq. split; congruence.
  - cbn. split; discriminate.
  - cbn. split; discriminate.
  - cbn [py_eq num_of]. rewrite Qeq_bool_iff. unfold Qeq, inject_Z. cbn [Qnum Qden]. rewrite !Z.mul_1_r. split; congruence.
Qed.
Lemma scalar_in v l : scalar v -> Forall scalar l -> py_in v l = true <-> In v l.
Proof.
  intros Hv Hl. unfold py_in. rewrite existsb_exists. split.
  - intros [x [Hx E]]. apply scalar_eq in E; [now subst | exact Hv | exact (proj1 (Forall_forall _ _) Hl x Hx)].
  - intros Hi. exists v. split; [exact Hi|]. now apply scalar_eq.
Qed.
Lemma one_in {A} (b : bool) (x : A) m : In m (if b then [x] else []) <-> b = true /\ m = x.
Proof. destruct b; [split; [intros [<-|[]]; auto | intros [_ ->]; now left] | split; [intros [] | intros [H _]; discriminate]]. Qed.
Lemma one_in' {A} (b : bool) (x : A) m : In m (if b then [] else [x]) <-> b = false /\ m = x.
Proof. destruct b; [split; [intros [] | intros [H _]; discriminate] | split; [intros [<-|[]]; auto | intros [_ ->]; now left]]. Qed.
Section Default.
Variable str_other : val -> string.
Variable re_match : string -> string -> option bool.
Lemma text_of_iff v s : scalar v -> text_of v s <-> s = py_str str_other v.
Proof. intros [[t ->]|[z ->]]; (split; [inversion 1; reflexivity | intros ->; constructor]). Qed.
Lemma default_one_spec n def : plain_constraints def -> assoc "MinValue" def <> Some (VInt 0) ->
  exists ms, default_one str_other re_match (n, VDict def) = Ok ms /\
  forall m, In m ms <-> exists v why, assoc "Default" def = Some v /\ violates re_match def v why /\ m = mkRM [PKey "Parameters"; PKey n; PKey "Default"] why.
Proof.
  intros [Hv [Hp [Hb Ha]]] H0. unfold default_one. cbn [fst snd vget bind]. destruct (assoc "Default" def) as [v|] eqn:Ev.
  2: { cbn [is_null]. exists []. split; [reflexivity|]. intros m. split; [intros [] | intros [v [why [H _]]]; discriminate]. }
  specialize (Hv v eq_refl). assert (Hn : is_null v = false) by (destruct Hv as [[s ->]|[z ->]]; reflexivity). rewrite Hn.
  set (p := [PKey "Parameters"; PKey n; PKey "Default"]).
  assert (E1 : exists m1, (if truthy (match assoc "AllowedPattern" def with Some x => x | None => VNull end) then check_allowed_pattern str_other re_match v (match assoc "AllowedPattern" def with Some x => x | None => VNull end) p else Ok []) = Ok m1 /\
      forall m, In m m1 <-> exists r s, assoc "AllowedPattern" def = Some (VStr r) /\ text_of v s /\ re_match r s = Some false /\ m = mkRM p "Default should be allowed by AllowedPattern").
  { destruct (assoc "AllowedPattern" def) as [x|] eqn:E.
    - destruct (Hp x eq_refl) as [r [-> Hr]]. assert (Ht : truthy (VStr r) = true) by (cbn [truthy]; destruct (String.eqb_spec r ""); [contradiction | reflexivity]).
      rewrite Ht. cbn [check_allowed_pattern]. eexists. split; [reflexivity|]. intros m.
      transitivity (re_match r (py_str str_other v) = Some false /\ m = mkRM p "Default should be allowed by AllowedPattern").
      + destruct (re_match r (py_str str_other v)) as [[|]|].
        * split; [intros [] | intros [H _]; discriminate].
        * split; [intros [<-|[]]; auto | intros [_ ->]; now left].
        * split; [intros [] | intros [H _]; discriminate].
      + split.
        * intros [H ->]. exists r, (py_str str_other v). repeat split; auto. now apply text_of_iff.
        * intros [r' [s [[= <-] [Ht' [H ->]]]]]. apply text_of_iff in Ht'; [|exact Hv]. subst s. auto.
    - exists []. split; [reflexivity|]. intros m. split; [intros [] | intros [r [s [H _]]]; discriminate]. }
  destruct E1 as [m1 [-> H1]]. cbn [bind].
  assert (H2 : forall m, In m (if truthy (match assoc "MinValue" def with Some x => x | None => VNull end) then check_min_value v (match assoc "MinValue" def with Some x => x | None => VNull end) p else []) <->
      exists z b, v = VInt z /\ assoc "MinValue" def = Some (VInt b) /\ (z < b)%Z /\ m = mkRM p "Default should be equal to or higher than MinValue").
  { intros m. destruct (assoc "MinValue" def) as [x|] eqn:E.
    - destruct (Hb "MinValue" x ltac:(cbn; auto) E) as [b ->]. assert (Ht : truthy (VInt b) = true) by (cbn [truthy]; destruct (Z.eqb_spec b 0); [subst; congruence | reflexivity]).
      rewrite Ht. unfold check_min_value. destruct Hv as [[s ->]|[z ->]]; cbn [int_of]; [split; [intros [] | intros [z [b' [H _]]]; discriminate]|].
      rewrite one_in, Z.ltb_lt. split; [intros [H ->]; exists z, b; auto | intros [z' [b' [[= <-] [[= <-] [H ->]]]]]; auto].
    - split; [intros [] | intros [z [b [_ [H _]]]]; discriminate]. }
  assert (H3 : forall m, In m (if is_null (match assoc "MaxValue" def with Some x => x | None => VNull end) then [] else check_max_value v (match assoc "MaxValue" def with Some x => x | None => VNull end) p) <->
      exists z b, v = VInt z /\ assoc "MaxValue" def = Some (VInt b) /\ (b < z)%Z /\ m = mkRM p "Default should be less than or equal to MaxValue").
  { intros m. destruct (assoc "MaxValue" def) as [x|] eqn:E.
    - destruct (Hb "MaxValue" x ltac:(cbn; auto) E) as [b ->]. cbn [is_null].
      unfold check_max_value. destruct Hv as [[s ->]|[z ->]]; cbn [int_of]; [split; [intros [] | intros [z [b' [H _]]]; discriminate]|].
      rewrite one_in, Z.ltb_lt. split; [intros [H ->]; exists z, b; auto | intros [z' [b' [[= <-] [[= <-] [H ->]]]]]; auto].
    - cbn [is_null]. split; [intros [] | intros [z [b [_ [H _]]]]; discriminate]. }
  assert (E4 : exists m4, (if truthy (match assoc "AllowedValues" def with Some x => x | None => VNull end) then check_allowed_values v (match assoc "AllowedValues" def with Some x => x | None => VNull end) p else Ok []) = Ok m4 /\
      forall m, In m m4 <-> exists l, assoc "AllowedValues" def = Some (VList l) /\ ~ In v l /\ m = mkRM p "Default should be a value within AllowedValues").
  { destruct (assoc "AllowedValues" def) as [x|] eqn:E.
    - destruct (Ha x eq_refl) as [l [-> [Hl Hs]]]. assert (Ht : truthy (VList l) = true) by (destruct l; [contradiction | reflexivity]).
      rewrite Ht. unfold check_allowed_values. cbn [py_member bind]. eexists. split; [reflexivity|]. intros m. rewrite one_in'. split.
      + intros [H ->]. exists l. split; [reflexivity|]. split; [|reflexivity]. intros Hi. apply (scalar_in v l Hv Hs) in Hi. congruence.
      + intros [l' [[= <-] [H ->]]]. split; [|reflexivity]. destruct (py_in v l) eqn:Ei; [|reflexivity]. exfalso. apply H. now apply (scalar_in v l Hv Hs).
    - exists []. split; [reflexivity|]. intros m. split; [intros [] | intros [l [H _]]; discriminate]. }
  destruct E4 as [m4 [-> H4]]. cbn [bind].
  assert (H5 : forall m, In m (if is_null (match assoc "MinLength" def with Some x => x | None => VNull end) then [] else check_min_length str_other v (match assoc "MinLength" def with Some x => x | None => VNull end) p) <->
      exists s b, text_of v s /\ assoc "MinLength" def = Some (VInt b) /\ (length s < b)%Z /\ m = mkRM p "Default should have a length above or equal to MinLength").
  { intros m. destruct (assoc "MinLength" def) as [x|] eqn:E.
    - destruct (Hb "MinLength" x ltac:(cbn; auto) E) as [b ->]. cbn [is_null]. unfold check_min_length. cbn [int_of].
      rewrite one_in, Z.ltb_lt. split; [intros [H ->]; exists (py_str str_other v), b; repeat split; auto; now apply text_of_iff |].
      intros [s [b' [Ht [[= <-] [H ->]]]]]. apply text_of_iff in Ht; [|exact Hv]. subst s. auto.
    - cbn [is_null]. split; [intros [] | intros [s [b [_ [H _]]]]; discriminate]. }
  assert (H6 : forall m, In m (if is_null (match assoc "MaxLength" def with Some x => x | None => VNull end) then [] else check_max_length str_other v (match assoc "MaxLength" def with Some x => x | None => VNull end) p) <->
      exists s b, text_of v s /\ assoc "MaxLength" def = Some (VInt b) /\ (b < length s)%Z /\ m = mkRM p "Default should have a length below or equal to MaxLength").
  { intros m. destruct (assoc "MaxLength" def) as [x|] eqn:E.
    - destruct (Hb "MaxLength" x ltac:(cbn; auto 6) E) as [b ->]. cbn [is_null]. unfold check_max_length. cbn [int_of].
      rewrite one_in, Z.ltb_lt. split; [intros [H ->]; exists (py_str str_other v), b; repeat split; auto; now apply text_of_iff |].
      intros [s [b' [Ht [[= <-] [H ->]]]]]. apply text_of_iff in Ht; [|exact Hv]. subst s. auto.
    - cbn [is_null]. split; [intros [] | intros [s [b [_ [H _]]]]; discriminate]. }
  eexists. split; [reflexivity|]. intros m. rewrite !in_app_iff, H1, H2, H3, H4, H5, H6. clear. split.
  - intros [[r [s [A [B [C ->]]]]]|[[z [b [A [B [C ->]]]]]|[[z [b [A [B [C ->]]]]]|[[l [A [B ->]]]|[[s [b [A [B [C ->]]]]]|[s [b [A [B [C ->]]]]]]]]]];
      exists v; eexists; (split; [reflexivity|]); (split; [|reflexivity]); econstructor; eauto.
  - intros [v' [why [[= <-] [Hi ->]]]]. destruct Hi; eauto 12.
Qed.
Lemma default_match_spec template ps : section template "Parameters" ps ->
  (forall n x, In (n, x) ps -> exists def, x = VDict def /\ plain_constraints def /\ assoc "MinValue" def <> Some (VInt 0)) ->
  exists ms, default_match str_other re_match template = Ok ms /\
  forall m, In m ms <-> exists n def v why, In (n, VDict def) ps /\ assoc "Default" def = Some v /\ violates re_match def v why /\
    m = mkRM [PKey "Parameters"; PKey n; PKey "Default"] why.
Proof.
  intros [d [-> E]] Hp. unfold default_match, get_parameters. cbn [vget_def]. rewrite E. cbn [bind].
  assert (Et : (if truthy (VDict ps) then VDict ps else VDict []) = VDict ps) by (destruct ps; reflexivity). rewrite Et. cbn [items_of bind].
  destruct (concat_res_total (default_one str_other re_match) ps) as [ms Em].
  { intros [n x] Hi. destruct (Hp n x Hi) as [def [-> [H1 H2]]]. destruct (default_one_spec n def H1 H2) as [ms [E' _]]. eauto. }
  exists ms. split; [exact Em|]. intros m. rewrite (concat_res_in _ _ _ m Em). split.
  - intros [[n x] [ys [Hi [Ey Hy]]]]. destruct (Hp n x Hi) as [def [-> [H1 H2]]]. destruct (default_one_spec n def H1 H2) as [ms' [E' H]].
    rewrite E' in Ey. injection Ey as <-. apply H in Hy as [v [why [A [B C]]]]. exists n, def, v, why. auto.
  - intros [n [def [v [why [Hi [A [B C]]]]]]]. destruct (Hp n _ Hi) as [def' [[= <-] [H1 H2]]]. destruct (default_one_spec n def H1 H2) as [ms' [E' H]].
    exists (n, VDict def), ms'. split; [exact Hi|]. split; [exact E'|]. apply H. eauto.
Qed.
End Default.
(** Refutations. *)
Definition with_parameter (def : list (string * val)) : val := VDict [("Parameters", VDict [("P", VDict def)])].
Lemma c25_zero re : exists def, assoc "Default" def = Some (VInt (-5)) /\ assoc "MinValue" def = Some (VInt 0) /\
  default_match (fun _ => "") re (with_parameter def) = Ok [].
Proof. exists [("Type", VStr "Number"); ("Default", VInt (-5)); ("MinValue", VInt 0)]. repeat split. Qed.
Lemma c25_text_number re : exists def, assoc "Type" def = Some (VStr "Number") /\ assoc "Default" def = Some (VStr "3") /\ assoc "MinValue" def = Some (VInt 5) /\
  default_match (fun _ => "") re (with_parameter def) = Ok [].
Proof. exists [("Type", VStr "Number"); ("Default", VStr "3"); ("MinValue", VInt 5)]. repeat split. Qed.
Lemma c25_list re : exists def, assoc "Type" def = Some (VStr "CommaDelimitedList") /\ assoc "Default" def = Some (VStr "a,b") /\
  assoc "AllowedValues" def = Some (VList [VStr "a"; VStr "b"]) /\ default_match (fun _ => "") re (with_parameter def) <> Ok [].
Proof.
  exists [("Type", VStr "CommaDelimitedList"); ("Default", VStr "a,b"); ("AllowedValues", VList [VStr "a"; VStr "b"])]. repeat split. vm_compute. discriminate.
Qed.
Definition bounded : val :=
  VDict [("Parameters", VDict [
    ("Size", VDict [("Type", VStr "Number"); ("Default", VInt 20); ("MinValue", VInt 1); ("MaxValue", VInt 10)]);
    ("Name", VDict [("Type", VStr "String"); ("Default", VStr "ab"); ("MinLength", VInt 3); ("AllowedValues", VList [VStr "abc"; VStr "ab"])]);
    ("Fine", VDict [("Type", VStr "String"); ("Default", VStr "x"); ("AllowedValues", VList [VStr "x"])]);
    ("Free", VDict [("Type", VStr "String")])])].
Definition bounded_parameters : list (string * val) := match bounded with VDict [(_, VDict ps)] => ps | _ => [] end.
Lemma bounded_section : section bounded "Parameters" bounded_parameters.
Proof. exists [("Parameters", VDict bounded_parameters)]. split; reflexivity. Qed.
Ltac no_key := intros; discriminate.
Ltac some_key := let E := fresh in intros ? E; injection E as <-.
Lemma bounded_plain : forall n x, In (n, x) bounded_parameters -> exists def, x = VDict def /\ plain_constraints def /\ assoc "MinValue" def <> Some (VInt 0).
Proof.
  assert (Hs : forall s, scalar (VStr s)) by (intros; left; eauto). assert (Hz : forall z, scalar (VInt z)) by (intros; right; eauto).
  intros n x Hi. cbn in Hi. destruct Hi as [[= <- <-]|[[= <- <-]|[[= <- <-]|[[= <- <-]|[]]]]]; eexists; (split; [reflexivity|]); (split; [|discriminate]); repeat split.
  all: try (intros v E; vm_compute in E; discriminate).
  all: try (some_key; auto).
  all: try (intros k v Hk E; cbn [In] in Hk; destruct Hk as [<-|[<-|[<-|[<-|[]]]]]; vm_compute in E; try discriminate; injection E as <-; eauto).
  all: eexists; (split; [reflexivity|]); (split; [discriminate|]); repeat (apply Forall_cons; [auto|]); apply Forall_nil.
Qed.
Lemma bounded_report : default_match (fun _ => "") (fun _ _ => Some true) bounded =
  Ok [mkRM [PKey "Parameters"; PKey "Size"; PKey "Default"] "Default should be less than or equal to MaxValue";
      mkRM [PKey "Parameters"; PKey "Name"; PKey "Default"] "Default should have a length above or equal to MinLength"].
Proof. reflexivity. Qed.
