(** The JSON text of a value determines it up to the order of members. *)
From Coq Require Import Permutation Sorting.Sorted Lia.
From Verif.Model Require Import Base JsonDump.
From Verif.Spec Require Import Paths SameJson.
From Verif.Proofs Require Import BaseFacts SearchProofs FormatProofs.
Import ListNotations.
Local Open Scope string_scope.

(** * Quoted strings *)
Definition hex_value (a : ascii) : nat := if Nat.leb (code a) 57 then code a - 48 else code a - 87.
Definition unescape (s : string) : option (ascii * string) :=
  match s with
  | EmptyString => None
  | String a s' =>
      if Nat.eqb (code a) 92 then
        match s' with
        | EmptyString => None
        | String b r =>
            if Nat.eqb (code b) 117 then
              match r with
              | String _ (String _ (String x (String y r'))) => Some (ascii_of_nat (16 * hex_value x + hex_value y), r')
              | _ => None
              end
            else if Nat.eqb (code b) 98 then Some (ascii_of_nat 8, r)
            else if Nat.eqb (code b) 102 then Some (ascii_of_nat 12, r)
            else if Nat.eqb (code b) 110 then Some (ascii_of_nat 10, r)
            else if Nat.eqb (code b) 114 then Some (ascii_of_nat 13, r)
            else if Nat.eqb (code b) 116 then Some (ascii_of_nat 9, r)
            else Some (b, r)
        end
      else Some (a, s')
  end.
Lemma unescape_escape a r : unescape (escape_char a ++ r) = Some (a, r).
Proof. destruct a as [[] [] [] [] [] [] [] []]; reflexivity. Qed.
Lemma escape_first a : exists b s, escape_char a = String b s /\ b <> dq.
Proof. destruct a as [[] [] [] [] [] [] [] []]; eexists _, _; (split; [reflexivity | discriminate]). Qed.
Lemma escape_char_inj a b r t : escape_char a ++ r = escape_char b ++ t -> a = b /\ r = t.
Proof. intros H. apply (f_equal unescape) in H. rewrite !unescape_escape in H. injection H; auto. Qed.
Lemma escape_inj s : forall t r u, escape s ++ String dq r = escape t ++ String dq u -> s = t /\ r = u.
Proof.
  induction s as [|a s IH]; intros [|b t] r u; cbn [escape].
  - cbn [append]. intros [= H]. auto.
  - destruct (escape_first b) as [c [x [E N]]]. rewrite E. cbn [append]. intros [= H _]. now destruct N.
  - destruct (escape_first a) as [c [x [E N]]]. rewrite E. cbn [append]. intros [= H _]. now destruct N.
  - rewrite !append_assoc. intros H. apply escape_char_inj in H as [<- H]. apply IH in H as [<- H]. auto.
Qed.
Lemma quote_inj s t r u : quote s ++ r = quote t ++ u -> s = t /\ r = u.
Proof. unfold quote. cbn [append]. rewrite !append_assoc. cbn [append]. intros [= H]. now apply escape_inj in H. Qed.

(** * Numbers *)
Definition numb (a : ascii) : bool := is_digit a || char_eqb a "-" || char_eqb a "+" || char_eqb a "." || char_eqb a "e".
Fixpoint all_numb (s : string) : Prop := match s with EmptyString => True | String a s' => numb a = true /\ all_numb s' end.
Definition stop (r : string) : Prop := match r with EmptyString => True | String a _ => a = ","%char \/ a = "]"%char \/ a = "}"%char end.
Lemma stop_numb a r : stop (String a r) -> numb a = false.
Proof. intros [->|[->| ->]]; reflexivity. Qed.
Lemma number_split s : forall t r u, all_numb s -> all_numb t -> stop r -> stop u -> s ++ r = t ++ u -> s = t /\ r = u.
Proof.
  induction s as [|a s IH]; intros [|b t] r u Hs Ht Hr Hu H; cbn [append] in H.
  - auto.
  - subst r. apply stop_numb in Hr. destruct Ht. congruence.
  - subst u. apply stop_numb in Hu. destruct Hs. congruence.
  - injection H as <- H. destruct Hs as [_ Hs], Ht as [_ Ht]. destruct (IH t r u Hs Ht Hr Hu H) as [<- <-]. auto.
Qed.
Lemma all_numb_chars s : (forall a, has_char a s = true -> numb a = true) -> all_numb s.
Proof.
  induction s as [|a s IH]; intros H; cbn [all_numb]; [exact I|]. split; [apply H; cbn [has_char]; now rewrite char_eqb_refl|].
  apply IH. intros b Hb. apply H. cbn [has_char]. rewrite Hb. now rewrite orb_true_r.
Qed.
Lemma digits_numb s : all_digits s -> all_numb s.
Proof. induction s as [|a s IH]; cbn; [auto|]. intros [H1 H2]. unfold numb. rewrite H1. auto. Qed.
Lemma str_of_Z_numb z : all_numb (str_of_Z z).
Proof.
  unfold str_of_Z. destruct (Z.ltb_spec z 0); [split; [reflexivity|]|]; apply digits_numb, dec_digits; try lia; exact I.
Qed.
Lemma dec_aux_cons f n acc : (exists a s, acc = String a s) \/ f <> 0 -> exists a s, dec_aux f n acc = String a s.
Proof.
  revert n acc. induction f as [|f IH]; intros n acc [H|H]; cbn [dec_aux]; auto; try lia;
    (destruct (Z.ltb n 10); [eauto | apply IH; left; eauto]).
Qed.
Lemma str_of_Z_first z : exists a s, str_of_Z z = String a s /\ (is_digit a = true \/ a = "-"%char).
Proof.
  unfold str_of_Z. destruct (Z.ltb_spec z 0); [eauto|].
  destruct (dec_aux_cons (dec_fuel z) z "") as [a [s E]]; [right; discriminate|]. exists a, s. split; [exact E|].
  pose proof (dec_digits (dec_fuel z) z "" ltac:(lia) I) as K. rewrite E in K. left. apply K.
Qed.

(** * Sorting members *)
Lemma insert_member_map {A B} (f : A -> B) x (l : list (string * A)) :
  insert_member (fst x, f (snd x)) (map (fun kv => (fst kv, f (snd kv))) l) = map (fun kv => (fst kv, f (snd kv))) (insert_member x l).
Proof. induction l as [|y l IH]; cbn [insert_member map fst]; [reflexivity|]. destruct (str_leb (fst x) (fst y)); cbn [map]; [reflexivity|]. now rewrite IH. Qed.
Lemma sort_members_map {A B} (f : A -> B) (l : list (string * A)) :
  sort_members (map (fun kv => (fst kv, f (snd kv))) l) = map (fun kv => (fst kv, f (snd kv))) (sort_members l).
Proof. induction l as [|x l IH]; [reflexivity|]. cbn [map sort_members fold_right]. unfold sort_members in IH. rewrite IH. apply insert_member_map. Qed.
Lemma insert_member_perm {A} (x : string * A) l : Permutation (insert_member x l) (x :: l).
Proof. induction l as [|y l IH]; cbn [insert_member]; [reflexivity|]. destruct (str_leb (fst x) (fst y)); [reflexivity|]. rewrite IH. apply perm_swap. Qed.
Lemma sort_members_perm {A} (l : list (string * A)) : Permutation (sort_members l) l.
Proof. induction l as [|x l IH]; [reflexivity|]. cbn [sort_members fold_right]. etransitivity; [apply insert_member_perm|]. now constructor. Qed.
Definition key_le (a b : string) : Prop := str_leb a b = true.
Lemma insert_member_sorted {A} (x : string * A) l : StronglySorted key_le (keys l) -> StronglySorted key_le (keys (insert_member x l)).
Proof.
  induction l as [|y l IH]; intros H; cbn [insert_member]; [repeat constructor|]. cbn [keys map] in H. inversion H as [|? ? Hs Hf]; subst.
  destruct (str_leb (fst x) (fst y)) eqn:E; cbn [keys map].
  - constructor; [exact H|]. constructor; [exact E|]. rewrite Forall_forall in *. intros z Hz. apply str_leb_trans with (fst y); [exact E|]. now apply Hf.
  - constructor; [now apply IH|]. rewrite Forall_forall in *. intros z Hz.
    apply (Permutation_in z (Permutation_map fst (insert_member_perm x l))) in Hz. cbn in Hz. destruct Hz as [<-|Hz]; [|now apply Hf].
    destruct (str_leb_total (fst y) (fst x)) as [K|K]; [exact K | congruence].
Qed.
Lemma sort_members_sorted {A} (l : list (string * A)) : StronglySorted key_le (keys (sort_members l)).
Proof. induction l as [|x l IH]; [constructor|]. cbn [sort_members fold_right]. now apply insert_member_sorted. Qed.
Lemma sorted_unique a : forall b, StronglySorted key_le a -> StronglySorted key_le b -> Permutation a b -> a = b.
Proof.
  induction a as [|x a IH]; intros b Ha Hb P; [symmetry; now apply Permutation_nil|].
  destruct b as [|y b]; [now apply Permutation_sym, Permutation_nil in P|].
  inversion Ha as [|? ? Ha1 Ha2]; subst. inversion Hb as [|? ? Hb1 Hb2]; subst. rewrite Forall_forall in Ha2, Hb2.
  assert (x = y).
  { assert (Hx : In x (y :: b)) by (apply (Permutation_in _ P); now left). assert (Hy : In y (x :: a)) by (apply (Permutation_in _ (Permutation_sym P)); now left).
    destruct Hx as [->|Hx]; [reflexivity|]. destruct Hy as [->|Hy]; [reflexivity|]. apply str_leb_antisym; [now apply Ha2 | now apply Hb2]. }
  subst y. f_equal. apply IH; auto. now apply Permutation_cons_inv in P.
Qed.

Section Dumps.
Variable float_text : Q -> string.
Hypothesis Hft : float_texts float_text.
Notation dumps := (dumps float_text).

Definition member_text (kv : string * val) : string := quote (fst kv) ++ ": " ++ dumps (snd kv).
Lemma dumps_dict d : dumps (VDict d) = "{" ++ join_str ", " (map member_text (sort_members d)) ++ "}".
Proof. cbn [JsonDump.dumps]. rewrite sort_members_map, map_map. reflexivity. Qed.

Definition tag_char (a : ascii) : nat :=
  if char_eqb a "n" then 0 else if char_eqb a "t" then 1 else if char_eqb a "f" then 2 else if char_eqb a dq then 4
  else if char_eqb a "[" then 5 else if char_eqb a "{" then 6 else if is_digit a || char_eqb a "-" then 3 else 7.
Definition tag (s : string) : nat := match s with EmptyString => 7 | String a _ => tag_char a end.
Definition val_tag (v : val) : nat :=
  match v with VNull => 0 | VBool true => 1 | VBool false => 2 | VInt _ | VFloat _ => 3 | VStr _ => 4 | VList _ => 5 | VDict _ => 6 end.
Lemma tag_number a s : is_digit a = true \/ a = "-"%char -> tag (String a s) = 3.
Proof.
  intros [H| ->]; [|reflexivity]. cbn [tag]. unfold tag_char.
  destruct a as [[] [] [] [] [] [] [] []]; vm_compute in H |- *; congruence.
Qed.
Lemma tag_dumps v r : tag (dumps v ++ r) = val_tag v.
Proof.
  destruct v as [|[]|z|q|s|l|d]; try reflexivity.
  - cbn [JsonDump.dumps]. destruct (str_of_Z_first z) as [a [s [-> H]]]. cbn [append]. now apply tag_number.
  - cbn [JsonDump.dumps]. destruct Hft as [H1 _]. destruct (H1 q) as [a [s [-> H]]]. cbn [append]. now apply tag_number.
Qed.
Lemma float_numb q : all_numb (float_text q).
Proof.
  apply all_numb_chars. intros a Ha. destruct Hft as [_ [H _]]. apply H in Ha. unfold numb.
  destruct Ha as [->|Ha]; [reflexivity|]. cbn [In] in Ha. destruct Ha as [<-|[<-|[<-|[<-|[]]]]]; reflexivity.
Qed.
Definition told (v : val) : Prop := forall w r u, wf v -> wf w -> stop r -> stop u -> dumps v ++ r = dumps w ++ u -> same_json v w /\ r = u.
Lemma join_cons (x : string) l : join_str ", " (x :: l) = x ++ match l with [] => "" | _ => ", " ++ join_str ", " l end.
Proof. destruct l; cbn [join_str]; [now rewrite append_nil_r | reflexivity]. Qed.
Lemma tail_stop l c r : c = "]"%char \/ c = "}"%char -> stop (match l with [] => "" | _ => ", " ++ join_str ", " l end ++ String c r).
Proof. intros H. destruct l; cbn; tauto. Qed.
Lemma tail_inj (l l' : list string) c r u : c = "]"%char \/ c = "}"%char ->
  match l with [] => "" | _ => ", " ++ join_str ", " l end ++ String c r = match l' with [] => "" | _ => ", " ++ join_str ", " l' end ++ String c u ->
  (l = [] <-> l' = []) /\ join_str ", " l ++ String c r = join_str ", " l' ++ String c u.
Proof.
  intros Hc. destruct l as [|x l], l' as [|y l'].
  - cbn [append join_str]. intros ->. split; [tauto | reflexivity].
  - change ((", " ++ join_str ", " (y :: l')) ++ String c u) with (String "," (String " " (join_str ", " (y :: l') ++ String c u))). cbn [append]. intros [= -> _]. destruct Hc; discriminate.
  - change ((", " ++ join_str ", " (x :: l)) ++ String c r) with (String "," (String " " (join_str ", " (x :: l) ++ String c r))). cbn [append]. intros [= <- _]. destruct Hc; discriminate.
  - change ((", " ++ join_str ", " (x :: l)) ++ String c r) with (String "," (String " " (join_str ", " (x :: l) ++ String c r))).
    change ((", " ++ join_str ", " (y :: l')) ++ String c u) with (String "," (String " " (join_str ", " (y :: l') ++ String c u))).
    generalize (join_str ", " (x :: l)) (join_str ", " (y :: l')). intros a b [= H]. split; [split; discriminate | exact H].
Qed.
Lemma list_told l : (forall x, In x l -> told x /\ wf x) -> forall l' r u, (forall x, In x l' -> wf x) ->
  join_str ", " (map dumps l) ++ String "]" r = join_str ", " (map dumps l') ++ String "]" u -> Forall2 same_json l l' /\ r = u.
Proof.
  induction l as [|x l IH]; intros Hl [|y l'] r u Hl' H.
  - cbn in H. injection H as ->. split; [constructor | reflexivity].
  - exfalso. cbn [map] in H. rewrite join_cons, append_assoc in H. apply (f_equal tag) in H. rewrite tag_dumps in H. destruct y as [|[]| | | | |]; discriminate.
  - exfalso. cbn [map] in H. rewrite join_cons, append_assoc in H. apply (f_equal tag) in H. rewrite tag_dumps in H. destruct x as [|[]| | | | |]; discriminate.
  - cbn [map] in H. rewrite !join_cons, !append_assoc in H. destruct (Hl x (or_introl eq_refl)) as [Tx Wx].
    apply Tx in H as [Hs H]; auto; [|now apply Hl'; left |now apply tail_stop; left |now apply tail_stop; left].
    apply tail_inj in H as [_ H]; [|now left]. apply IH in H as [Hf Hr]; [split; [now constructor | exact Hr]| |]; intros z Hz; [apply Hl | apply Hl']; now right.
Qed.
Lemma member_text_app kv r : member_text kv ++ r = quote (fst kv) ++ String ":" (String " " (dumps (snd kv) ++ r)).
Proof. unfold member_text. now rewrite !append_assoc. Qed.
Lemma members_told d : (forall kv, In kv d -> told (snd kv) /\ wf (snd kv)) -> forall d' r u, (forall kv, In kv d' -> wf (snd kv)) ->
  join_str ", " (map member_text d) ++ String "}" r = join_str ", " (map member_text d') ++ String "}" u ->
  Forall2 (fun a b => fst a = fst b /\ same_json (snd a) (snd b)) d d' /\ r = u.
Proof.
  induction d as [|x d IH]; intros Hl [|y d'] r u Hl' H.
  - cbn in H. injection H as ->. split; [constructor | reflexivity].
  - exfalso. cbn [map] in H. rewrite join_cons, append_assoc, member_text_app in H. discriminate.
  - exfalso. cbn [map] in H. rewrite join_cons, append_assoc, member_text_app in H. discriminate.
  - cbn [map] in H. rewrite !join_cons, !append_assoc, !member_text_app in H. destruct (Hl x (or_introl eq_refl)) as [Tx Wx].
    apply quote_inj in H as [Hk H]. injection H as H.
    apply Tx in H as [Hs H]; auto; [|now apply Hl'; left |now apply tail_stop; right |now apply tail_stop; right].
    apply tail_inj in H as [_ H]; [|now right]. apply IH in H as [Hf Hr]; [split; [now constructor | exact Hr]| |]; intros z Hz; [apply Hl | apply Hl']; now right.
Qed.
Lemma forall2_dict d d' : NoDup (keys d) -> NoDup (keys d') ->
  Forall2 (fun a b => fst a = fst b /\ same_json (snd a) (snd b)) (sort_members d) (sort_members d') -> same_json (VDict d) (VDict d').
Proof.
  intros Hn Hn' HF. assert (Hk : keys (sort_members d) = keys (sort_members d')) by (clear Hn Hn'; induction HF as [|? ? ? ? [H _] _ IH]; [reflexivity|]; cbn [keys map]; unfold keys in IH; now rewrite H, IH).
  assert (P : Permutation (keys (sort_members d)) (keys d)) by (apply Permutation_map, sort_members_perm).
  assert (P' : Permutation (keys (sort_members d')) (keys d')) by (apply Permutation_map, sort_members_perm).
  constructor.
  - intros k. split; intros H; [apply (Permutation_in _ P'); rewrite <- Hk; now apply (Permutation_in _ (Permutation_sym P)) | apply (Permutation_in _ P); rewrite Hk; now apply (Permutation_in _ (Permutation_sym P'))].
  - intros k x y Hx Hy. apply (Permutation_in _ (Permutation_sym (sort_members_perm d))) in Hx. apply (Permutation_in _ (Permutation_sym (sort_members_perm d'))) in Hy.
    assert (N' : NoDup (keys (sort_members d'))) by (now apply (Permutation_NoDup (Permutation_sym P'))).
    clear - HF Hx Hy N'. revert Hx Hy. induction HF as [|a b e e' [H1 H2] HF IH]; [intros []|]. cbn [keys map] in N'. inversion N' as [|? ? Nb N2]; subst.
    assert (Hks : keys e = keys e') by (clear - HF; induction HF as [|? ? ? ? [H _] _ IH]; [reflexivity|]; cbn [keys map]; unfold keys in IH; now rewrite H, IH).
    intros [->|Hx] [->|Hy]; cbn [fst snd] in *; auto.
    + exfalso. apply Nb. rewrite <- H1. now apply (in_map fst) in Hy.
    + exfalso. apply Nb. change (In k (keys e')). rewrite <- Hks. now apply (in_map fst) in Hx.
Qed.
Lemma all_told v : told v.
Proof.
  induction v as [v IH] using vsize_ind. intros w r u Hv Hw Hr Hu H.
  assert (Ht : val_tag v = val_tag w) by (rewrite <- (tag_dumps v r), <- (tag_dumps w u); now rewrite H).
  destruct v as [|b|z|q|s|l|d].
  - destruct w as [|[]| | | | |]; try discriminate Ht. injection H as H. split; [constructor | exact H].
  - assert (w = VBool b) as -> by (destruct b, w as [|[]| | | | |]; (discriminate Ht || reflexivity)). split; [constructor|]. destruct b; injection H as H; exact H.
  - destruct w as [|[]|z'|q'| | |]; try discriminate Ht; cbn [JsonDump.dumps] in H.
    + apply number_split in H as [E ->]; auto using str_of_Z_numb. apply str_of_Z_inj in E as <-. split; [constructor | reflexivity].
    + apply number_split in H as [E ->]; auto using str_of_Z_numb, float_numb. destruct Hft as [_ [_ [K _]]]. now destruct (K q' z).
  - destruct w as [|[]|z'|q'| | |]; try discriminate Ht; cbn [JsonDump.dumps] in H.
    + apply number_split in H as [E ->]; auto using str_of_Z_numb, float_numb. destruct Hft as [_ [_ [K _]]]. now destruct (K q z').
    + apply number_split in H as [E ->]; auto using float_numb. destruct Hft as [_ [_ [_ K]]]. apply K in E. split; [now constructor | reflexivity].
  - destruct w as [|[]| | |s'| |]; try discriminate Ht; cbn [JsonDump.dumps] in H. apply quote_inj in H as [<- ->]. split; [constructor | reflexivity].
  - destruct w as [|[]| | | |l'|]; try discriminate Ht. change (dumps (VList l)) with ("[" ++ join_str ", " (map dumps l) ++ "]") in H.
    change (dumps (VList l')) with ("[" ++ join_str ", " (map dumps l') ++ "]") in H. rewrite !append_assoc in H. cbn [append] in H. injection H as H.
    apply list_told in H as [HF ->]; [split; [now constructor | reflexivity]| |].
    + intros x Hx. split; [apply IH; now apply vsize_list_In | now apply (wf_list l)].
    + now apply wf_list.
  - destruct w as [|[]| | | | |d']; try discriminate Ht. rewrite !dumps_dict, !append_assoc in H. cbn [append] in H. injection H as H.
    apply wf_dict in Hv as [Nd Wd], Hw as [Nd' Wd']. apply members_told in H as [HF ->]; [split; [now apply forall2_dict | reflexivity]| |].
    + intros [k x] Hx. apply (Permutation_in _ (sort_members_perm d)) in Hx. cbn [snd]. split; [apply IH; eapply vsize_dict_In; eauto | eapply Wd; eauto].
    + intros [k x] Hx. apply (Permutation_in _ (sort_members_perm d')) in Hx. cbn [snd]. eapply Wd'; eauto.
Qed.
Lemma dumps_told v w : wf v -> wf w -> dumps v = dumps w -> same_json v w.
Proof. intros Hv Hw H. apply (all_told v w "" ""); try exact I; auto. now rewrite H. Qed.

(** The converse. *)
Lemma same_dumps v : forall w, wf v -> wf w -> same_json v w -> dumps v = dumps w.
Proof.
  induction v as [v IH] using vsize_ind. intros w Hv Hw H. inversion H; subst; try reflexivity.
  - cbn [JsonDump.dumps]. destruct Hft as [_ [_ [_ K]]]. now apply K.
  - cbn [JsonDump.dumps]. do 3 f_equal. pose proof (wf_list _ Hv) as Wl. pose proof (wf_list _ Hw) as Wl'.
    assert (IH' : forall x, In x l -> forall w, wf x -> wf w -> same_json x w -> dumps x = dumps w) by (intros x Hx; apply IH; now apply vsize_list_In).
    clear IH Hv Hw H. induction H0 as [|x y l l' Hs HF IHF]; [reflexivity|]. cbn [map]. f_equal.
    + apply IH'; [now left | apply Wl; now left | apply Wl'; now left | exact Hs].
    + apply IHF; intros z Hz; [apply Wl | apply Wl' | apply IH']; now right.
  - rewrite !dumps_dict. do 3 f_equal. apply wf_dict in Hv as [Nd Wd], Hw as [Nd' Wd'].
    assert (P : Permutation (keys (sort_members d)) (keys d)) by (apply Permutation_map, sort_members_perm).
    assert (P' : Permutation (keys (sort_members d')) (keys d')) by (apply Permutation_map, sort_members_perm).
    assert (Hk : keys (sort_members d) = keys (sort_members d')).
    { apply sorted_unique; try apply sort_members_sorted. etransitivity; [exact P|]. etransitivity; [|symmetry; exact P']. apply NoDup_Permutation; auto. }
    assert (Hs : forall k x y, In (k, x) (sort_members d) -> In (k, y) (sort_members d') -> dumps x = dumps y).
    { intros k x y Hx Hy. apply (Permutation_in _ (sort_members_perm d)) in Hx. apply (Permutation_in _ (sort_members_perm d')) in Hy.
      apply IH; [eapply vsize_dict_In; eauto | eapply Wd; eauto | eapply Wd'; eauto | eauto]. }
    clear - Hk Hs. revert Hk Hs. generalize (sort_members d) (sort_members d'). intros e. induction e as [|[k x] e IHe]; intros [|[k' y] e'] Hk Hs; try discriminate Hk; [reflexivity|].
    cbn [keys map fst] in Hk. injection Hk as -> Hk. cbn [map]. f_equal.
    + unfold member_text. cbn [fst snd]. now rewrite (Hs k' x y (or_introl eq_refl) (or_introl eq_refl)).
    + apply IHe; [exact Hk|]. intros k x0 y0 Hx Hy. apply (Hs k); now right.
Qed.
End Dumps.
