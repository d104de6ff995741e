(** C86: the size of JSON documents. *)
From Coq Require Import List String Ascii ZArith QArith Lia.
From Verif.Model Require Import Base Helpers Node Conditions Search Resolve Rules Relationship Parameters JsonDump PropertyRules JsonSize.
From Verif.Spec Require Import Paths Branches Required Values Truth Resolved Groups Nested JsonSize.
From Verif.Proofs Require Import BaseFacts BranchProofs PlaceholderProofs.
Import Verif.Model.Rules.
Import ListNotations.
Local Open Scope string_scope.
Local Open Scope nat_scope.

(** * Sizes *)
Lemma escape_size s : String.length (escape s) = chars_size s.
Proof.
  induction s as [|a s IH]; [reflexivity|]. cbn [escape chars_size]. rewrite str_app_length, IH. f_equal.
  destruct a as [[] [] [] [] [] [] [] []]; reflexivity.
Qed.
Lemma quote_size s : String.length (quote s) = text_size s.
Proof. unfold quote, text_size. cbn [String.length]. rewrite str_app_length, escape_size. cbn [String.length]. lia. Qed.
Lemma join_size l : String.length (join_str "," l) = series (map String.length l).
Proof.
  unfold series. induction l as [|x [|y l] IH]; [reflexivity | cbn; lia|]. change (join_str "," (x :: y :: l)) with (x ++ "," ++ join_str "," (y :: l)).
  rewrite !str_app_length, IH. cbn [map list_sum fold_right List.length String.length]. lia.
Qed.
Lemma compact_size float_text v : String.length (compact float_text v) = json_size (fun q => String.length (float_text q)) v.
Proof.
  induction v as [v IH] using vsize_ind. destruct v as [|[]|z|q|s|l|d]; try reflexivity.
  - apply quote_size.
  - cbn [compact json_size]. rewrite !str_app_length, join_size, map_map. cbn [String.length].
    assert (E : map (fun x => String.length (compact float_text x)) l = map (json_size (fun q => String.length (float_text q))) l).
    { apply map_ext_in. intros x Hx. apply IH. clear -Hx. cbn [vsize]. induction l as [|y l IHl]; [destruct Hx|]. cbn [fold_right]. destruct Hx as [->|Hx]; [|apply IHl in Hx]; lia. }
    rewrite E. lia.
  - cbn [compact json_size]. rewrite !str_app_length, join_size, map_map. cbn [String.length].
    assert (E : map (fun kv => String.length (quote (fst kv) ++ ":" ++ compact float_text (snd kv))) d = map (fun kv => text_size (fst kv) + 1 + json_size (fun q => String.length (float_text q)) (snd kv)) d).
    { apply map_ext_in. intros [k x] Hx. cbn [fst snd]. rewrite !str_app_length, quote_size. cbn [String.length]. rewrite IH; [lia|].
      clear -Hx. cbn [vsize]. induction d as [|[k' y] d IHl]; [destruct Hx|]. cbn [fold_right snd]. destruct Hx as [[= -> ->]|Hx]; [|apply IHl in Hx]; lia. }
    rewrite E. lia.
Qed.

(** * Placeholders *)
Lemma in_line_cons a s : in_line (String a s) <-> a <> newline /\ in_line s.
Proof. unfold in_line. cbn [list_ascii_of_string In]. change (ascii_of_nat 10) with newline. split; [intros H; split; intros K; apply H; auto | intros [H1 H2] [K|K]; auto]. Qed.
Lemma in_line_nil : in_line "".
Proof. intros []. Qed.
Lemma brace_some s : forall n, line_brace s = Some n -> exists m b, s = m ++ "}" ++ b /\ in_line m /\ n = String.length m + 1 /\ forall a c, in_line a -> b <> a ++ "}" ++ c.
Proof.
  assert (Hn : forall s, line_brace s = None -> forall a c, in_line a -> s <> a ++ "}" ++ c).
  { clear. induction s as [|x s IH]; intros H a c Ha E; [destruct a; discriminate|]. cbn [line_brace] in H. destruct a as [|y a]; cbn [append] in E; injection E as -> E.
    - cbn in H. destruct (line_brace s); discriminate.
    - apply in_line_cons in Ha as [H1 H2]. destruct (char_eqb y newline) eqn:Ey; [apply Ascii.eqb_eq in Ey; contradiction|]. destruct (line_brace s) eqn:El; [discriminate|]. exact (IH eq_refl a c H2 E). }
  induction s as [|x s IH]; intros n H; [discriminate|]. cbn [line_brace] in H. destruct (char_eqb x newline) eqn:Ex; [discriminate|]. assert (Hx : x <> newline) by (intros ->; discriminate Ex).
  destruct (line_brace s) as [k|] eqn:El.
  - injection H as <-. destruct (IH k eq_refl) as [m [b [-> [Hm [-> Hb]]]]]. exists (String x m), b. split; [reflexivity|]. split; [now apply in_line_cons|]. split; [reflexivity | exact Hb].
  - destruct (char_eqb x "}") eqn:Eb; [|discriminate]. injection H as <-. apply Ascii.eqb_eq in Eb as ->. exists "", s. split; [reflexivity|]. split; [apply in_line_nil|]. split; [reflexivity | now apply Hn].
Qed.
Lemma brace_none s : line_brace s = None -> forall a c, in_line a -> s <> a ++ "}" ++ c.
Proof.
  induction s as [|x s IH]; intros H a c Ha E; [destruct a; discriminate|]. cbn [line_brace] in H. destruct a as [|y a]; cbn [append] in E; injection E as -> E.
  - cbn in H. destruct (line_brace s); discriminate.
  - apply in_line_cons in Ha as [H1 H2]. destruct (char_eqb y newline) eqn:Ey; [apply Ascii.eqb_eq in Ey; contradiction|]. destruct (line_brace s) eqn:El; [discriminate|]. exact (IH eq_refl a c H2 E).
Qed.
Lemma strip_skip u v : strip (String.length u) (u ++ v) = strip 0 v.
Proof. induction u as [|a u IH]; [reflexivity | exact IH]. Qed.
Lemma strip_cut m s : in_line m -> (forall a b, in_line a -> s <> a ++ "}" ++ b) -> strip 0 ("${" ++ m ++ "}" ++ s) = strip 0 s.
Proof.
  intros Hm Hs. cbn [append]. cbn [strip]. change (char_eqb "$" "$") with true. change (char_eqb "{" "{") with true. cbv iota.
  destruct (line_brace (m ++ String "}" s)) as [n|] eqn:E.
  - destruct (brace_some _ _ E) as [m' [b [E' [Hm' [-> Hb]]]]].
    assert (K : m = m' /\ s = b).
    { clear E. cbn [append] in E'. revert m' E' Hm'. induction m as [|x m IH]; intros [|y m'] E' Hm'; cbn [append] in E'.
      - injection E' as ->. auto.
      - injection E' as <- ->. apply in_line_cons in Hm' as [_ Hm']. now elim (Hs m' b Hm').
      - injection E' as -> <-. apply in_line_cons in Hm as [_ Hm]. now elim (Hb m s Hm).
      - injection E' as <- E'. apply in_line_cons in Hm as [_ Hm]. apply in_line_cons in Hm' as [_ Hm']. destruct (IH Hm m' E' Hm') as [-> ->]. auto. }
    destruct K as [-> ->]. change (strip (String.length m' + 1) (m' ++ String "}" b) = strip 0 b).
    replace (String.length m' + 1) with (String.length (m' ++ "}")) by (rewrite str_app_length; reflexivity). change (String "}" b) with ("}" ++ b). rewrite <- str_app_assoc. apply strip_skip.
  - elim (brace_none _ E m s Hm). reflexivity.
Qed.
Lemma strip_keep a s : (forall m b, in_line m -> String a s <> "${" ++ m ++ "}" ++ b) -> strip 0 (String a s) = String a (strip 0 s).
Proof.
  intros H. cbn [strip]. destruct (char_eqb a "$") eqn:Ea; [|reflexivity]. apply Ascii.eqb_eq in Ea as ->. destruct s as [|b t]; [reflexivity|].
  destruct (char_eqb b "{") eqn:Eb; [|reflexivity]. apply Ascii.eqb_eq in Eb as ->. destruct (line_brace t) as [n|] eqn:E; [|reflexivity].
  destruct (brace_some _ _ E) as [m [c [-> [Hm _]]]]. now elim (H m c Hm).
Qed.
Lemma unfilled_strip s s' : unfilled s s' -> strip 0 s = s'.
Proof. induction 1 as [|m s s' Hm Hs H IH|a s s' Ha H IH]; [reflexivity | rewrite strip_cut; auto | rewrite strip_keep by exact Ha; now rewrite IH]. Qed.
Lemma strip_unfilled s : unfilled s (strip 0 s).
Proof.
  assert (K : forall n s, String.length s <= n -> unfilled s (strip 0 s)).
  { clear. induction n as [|n IH]; intros s Hl; (destruct s as [|a s]; [constructor|]); cbn [String.length] in Hl; [lia|].
    assert (Hkeep : (forall m b, in_line m -> String a s <> "${" ++ m ++ "}" ++ b) -> unfilled (String a s) (strip 0 (String a s))).
    { intros H. rewrite strip_keep by exact H. apply uf_keep; [exact H|]. apply IH. lia. }
    destruct (Ascii.eqb_spec a "$") as [->|Na]; [|apply Hkeep; intros m b _ [= E]; contradiction].
    destruct s as [|b t]; [apply Hkeep; intros m b _ [=]|]. destruct (Ascii.eqb_spec b "{") as [->|Nb]; [|apply Hkeep; intros m b' _ [= E]; contradiction].
    destruct (line_brace t) as [k|] eqn:E.
    - destruct (brace_some _ _ E) as [m [c [-> [Hm [-> Hc]]]]]. change (String "$" (String "{" (m ++ "}" ++ c))) with ("${" ++ m ++ "}" ++ c). rewrite strip_cut by assumption. apply uf_cut; [exact Hm | exact Hc|]. apply IH.
      cbn [String.length] in Hl. rewrite !str_app_length in Hl. lia.
    - apply Hkeep. intros m b Hm [= Eq]. exact (brace_none _ E m b Hm Eq). }
  apply (K (String.length s)). lia.
Qed.

(** * What is counted *)
Fixpoint rf_members (d : list (string * val)) : res (list (string * val)) :=
  match d with
  | [] => Ok []
  | (k, x) :: rest => do y <- remove_functions x; do ys <- rf_members rest; Ok ((k, y) :: ys)
  end.
Fixpoint rf_items (l : list val) : res (list val) := match l with [] => Ok [] | x :: xs => do y <- remove_functions x; do ys <- rf_items xs; Ok (y :: ys) end.
Lemma rf_list l : remove_functions (VList l) = do l' <- rf_items l; Ok (VList l').
Proof. reflexivity. Qed.
Lemma rf_object d : ~ function_call d -> remove_functions (VDict d) = do d' <- rf_members d; Ok (VDict d').
Proof.
  intros H. destruct d as [|[k x] [|y d]]; try reflexivity. cbn [remove_functions rf_members]. destruct (smem k FUNCTIONS) eqn:E; [elim H; exists k, x; split; [reflexivity | now apply smem_iff]|].
  destruct (remove_functions x); reflexivity.
Qed.
Lemma rf_function k x : In k FUNCTIONS -> k <> "Fn::Sub" -> remove_functions (VDict [(k, x)]) = Ok (VDict [(k, x)]).
Proof. intros H N. cbn [remove_functions]. apply smem_iff in H. rewrite H. apply String.eqb_neq in N. now rewrite N. Qed.
Lemma in_size l x : In x l -> vsize x < vsize (VList l).
Proof. intros H. cbn [vsize]. induction l as [|y l IHl]; [destruct H|]. cbn [fold_right]. destruct H as [->|H]; [|apply IHl in H]; lia. Qed.
Lemma in_size_dict (d : list (string * val)) k x : In (k, x) d -> vsize x < vsize (VDict d).
Proof. intros H. cbn [vsize]. induction d as [|[k' y] d IHl]; [destruct H|]. cbn [fold_right snd]. destruct H as [[= -> ->]|H]; [|apply IHl in H]; lia. Qed.
Lemma counted_computes v : forall w, counted v w -> remove_functions v = Ok w.
Proof.
  induction v as [v IH] using vsize_ind. intros w H. destruct H as [|b|z|q|s|s s' H|s l s' H|k x H N|l l' H|d d' N H]; try reflexivity.
  - cbn. now rewrite (unfilled_strip _ _ H).
  - cbn. now rewrite (unfilled_strip _ _ H).
  - now apply rf_function.
  - rewrite rf_list. assert (E : rf_items l = Ok l').
    { assert (K : forall x w, In x l -> counted x w -> remove_functions x = Ok w) by (intros x w Hx; apply IH; now apply in_size). clear IH. induction H as [|x y l l' Hx H IHl]; [reflexivity|]. cbn [rf_items].
      rewrite (K x y (or_introl eq_refl) Hx). cbn [bind]. rewrite IHl; [reflexivity|]. intros x' w' Hi. apply K. now right. }
    now rewrite E.
  - rewrite rf_object by exact N. assert (E : rf_members d = Ok d').
    { assert (K : forall k x w, In (k, x) d -> counted x w -> remove_functions x = Ok w) by (intros k x w Hx; apply IH; now apply (in_size_dict d k)). clear IH N. induction H as [|[k x] [k' y] d d' [Hk Hx] H IHl]; [reflexivity|]. cbn [rf_members fst snd] in *. subst k'.
      rewrite (K k x y (or_introl eq_refl) Hx). cbn [bind]. rewrite IHl; [reflexivity|]. intros k' x' w' Hi. apply (K k'). now right. }
    now rewrite E.
Qed.
Lemma counted_total v : subs_written v -> exists w, counted v w.
Proof.
  induction v as [v IH] using vsize_ind. intros H. destruct H as [v H|k x Hk Hs|l H|d N H].
  - destruct v; try discriminate H; eexists; constructor.
  - destruct (String.string_dec k "Fn::Sub") as [->|Nk]; [|eexists; now apply co_function]. destruct (Hs eq_refl) as [s [->|[l ->]]]; eexists; constructor; apply strip_unfilled.
  - assert (E : exists l', Forall2 counted l l').
    { assert (K : forall x, In x l -> exists w, counted x w) by (intros x Hx; apply IH; [now apply in_size | now apply H]). clear IH H. induction l as [|x l IHl]; [exists []; constructor|].
      destruct (K x (or_introl eq_refl)) as [w Hw]. destruct IHl as [l' Hl']; [intros y Hy; apply K; now right|]. exists (w :: l'). now constructor. }
    destruct E as [l' E]. eexists. now apply co_list, E.
  - assert (E : exists d', Forall2 (fun kv kw : string * val => fst kv = fst kw /\ counted (snd kv) (snd kw)) d d').
    { assert (K : forall k x, In (k, x) d -> exists w, counted x w) by (intros k x Hx; apply IH; [now apply (in_size_dict d k) | now apply (H k)]). clear IH H N. induction d as [|[k x] d IHl]; [exists []; constructor|].
      destruct (K k x (or_introl eq_refl)) as [w Hw]. destruct IHl as [d' Hd']; [intros k' y Hy; apply (K k'); now right|]. exists ((k, w) :: d'). now constructor. }
    destruct E as [d' E]. eexists. apply co_object; [exact N | exact E].
Qed.
Lemma json_set_spec float_text p prop limit s o x : item_of o prop = Ok x -> subs_written x ->
  exists ms, json_set float_text p prop (Some limit) (s, o) = Ok ms /\
    forall m, In m ms <-> too_long (fun q => String.length (float_text q)) limit x /\ m = mkRM (p ++ [PKey prop])%list (json_message limit s).
Proof.
  intros E H. destruct (counted_total x H) as [w Hw]. unfold json_set. cbn [fst snd]. rewrite E. cbn [bind]. rewrite (counted_computes _ _ Hw). cbn [bind]. rewrite compact_size. eexists. split; [reflexivity|].
  assert (K : too_long (fun q => String.length (float_text q)) limit x <-> (limit < Z.of_nat (json_size (fun q => String.length (float_text q)) w))%Z).
  { split; [|intros L; exists w; auto]. intros [w' [Hw' L]]. apply counted_computes in Hw, Hw'. rewrite Hw in Hw'. now injection Hw' as <-. }
  intros m. rewrite K. destruct (Z.ltb_spec limit (Z.of_nat (json_size (fun q => String.length (float_text q)) w))) as [L|L].
  - split; [intros [<-|[]]; auto | intros [_ ->]; now left].
  - split; [intros [] | intros [L' _]; lia].
Qed.
