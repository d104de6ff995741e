(** Witnesses for C88, and schedules with one state of the network. *)
From Coq Require Import List Arith Lia Bool.
From Verif.Model Require Import Base Helpers Rules Config Maintenance.
From Verif.Spec Require Import Maintenance.
From Verif.Proofs Require Import BaseFacts MaintenanceProofs MaintenanceMain.
Import ListNotations.
Local Open Scope string_scope.
Local Open Scope nat_scope.

Section Update.
Variables (walk : string -> list (string * list string)) (load_patches : string -> string -> res (list val)) (apply_patch : val -> val -> outcome).
Variables (digest : string -> string) (loads : string -> option val).
Notation update := (update_spec walk load_patches apply_patch digest loads).
Notation updates := (update_specs walk load_patches apply_patch digest loads).
Lemma all_same {A} (n : A) ns : (forall m, In m ns -> m = n) -> ns = repeat n (List.length ns).
Proof. induction ns as [|m ns IH]; intros H; [reflexivity|]. cbn [List.length repeat]. f_equal; [apply H; now left|]. apply IH. intros x Hx. apply H. now right. Qed.
Lemma run_constant region url n w ns ns' : (forall m, In m ns -> m = n) -> (forall m, In m ns' -> m = n) -> 11 <= List.length ns -> 11 <= List.length ns' ->
  run ns w (update region url) = run ns' w (update region url).
Proof.
  assert (G : forall k, 11 <= k -> run (repeat n k) w (update region url) = run (repeat n 11) w (update region url)).
  { intros k L. replace k with (11 + (k - 11)) by lia. rewrite repeat_add, run_app.
    destruct (c88_ends walk load_patches apply_patch digest loads region url (repeat n 11) w) as [r Hr]; [rewrite repeat_length; lia|].
    destruct (run (repeat n 11) w (update region url)) as [w2 p2]. cbn [fst snd] in *. rewrite Hr. apply run_return. }
  intros H H' L L'. rewrite (all_same n ns H), (all_same n ns' H'). rewrite (G _ L), (G _ L'). reflexivity.
Qed.
(** While the network stays as it is, any two schedules that let every update come to its end give the same files and the same results. *)
Lemma c88_any_schedule regions n s1 s2 w : NoDup (map fst regions) -> NoDup (map (fun ru => digest (snd ru)) regions) -> w_dir w = true ->
  (forall jm, In jm (s1 ++ s2)%list -> snd jm = n) ->
  (forall i, i < List.length regions -> 11 <= List.length (moments i s1) /\ 11 <= List.length (moments i s2)) ->
  same_files (fst (run_pool s1 w (updates regions))) (fst (run_pool s2 w (updates regions))) /\
  forall i, i < List.length regions -> nth_error (snd (run_pool s1 w (updates regions))) i = nth_error (snd (run_pool s2 w (updates regions))) i.
Proof.
  intros N1 N2 D Hn L.
  destruct (c88_schedule walk load_patches apply_patch digest loads regions s1 w N1 N2 D) as [A1 [B1 C1]].
  destruct (c88_schedule walk load_patches apply_patch digest loads regions s2 w N1 N2 D) as [A2 [B2 C2]].
  assert (M : forall i s, (s = s1 \/ s = s2) -> forall m, In m (moments i s) -> m = n).
  { intros i s Hs m Hm. unfold moments in Hm. apply in_map_iff in Hm as [[j m'] [<- Hf]]. apply filter_In in Hf as [Hin _]. apply (Hn (j, m')). apply in_or_app. destruct Hs as [<-|<-]; [now left | now right]. }
  assert (E : forall i region url, nth_error regions i = Some (region, url) -> run (moments i s1) w (update region url) = run (moments i s2) w (update region url)).
  { intros i region url Hi. assert (Li : i < List.length regions) by (apply nth_error_Some; congruence). apply (run_constant region url n); [now apply M; left | now apply M; right | apply L; exact Li | apply L; exact Li]. }
  split; [split|].
  - intros m. destruct (in_dec string_dec m (map (fun ru => digest (snd ru)) regions)) as [H|H]; [|now rewrite C1, C2].
    apply in_map_iff in H as [[region url] [<- H]]. apply In_nth_error in H as [i Hi]. cbn [snd]. destruct (A1 i region url Hi) as [_ [_ ->]]. destruct (A2 i region url Hi) as [_ [_ ->]]. now rewrite (E i region url Hi).
  - intros r. destruct (in_dec string_dec r (map fst regions)) as [H|H]; [|now rewrite B1, B2].
    apply in_map_iff in H as [[region url] [<- H]]. apply In_nth_error in H as [i Hi]. cbn [fst]. destruct (A1 i region url Hi) as [_ [-> _]]. destruct (A2 i region url Hi) as [_ [-> _]]. now rewrite (E i region url Hi).
  - intros i Li. destruct (nth_error regions i) as [[region url]|] eqn:Hi; [|apply nth_error_None in Hi; lia]. destruct (A1 i region url Hi) as [-> _]. destruct (A2 i region url Hi) as [-> _]. now rewrite (E i region url Hi).
Qed.
(** A memory that was cut short stops every later update of the region. *)
Lemma c88_stuck region url w ns : w_meta w (digest url) = Some Cut -> 1 <= List.length ns -> run ns w (update region url) = (w, Return (Err EValue)).
Proof. intros H L. destruct ns as [|n ns]; cbn [List.length] in L; [lia|]. rewrite update_eq. unfold has_newer. cbn [run advance fst snd]. rewrite H. apply run_return. Qed.
End Update.

(** * A server, a specification and a copy of the linter *)
Definition no_walk (_ : string) : list (string * list string) := [].
Definition no_load (_ _ : string) : res (list val) := Err EKey.
Definition no_apply (_ _ : val) : outcome := Raised EKey.
Definition read_spec (s : string) : option val := if String.eqb s "new" then Some (VDict [("Version", VStr "2")]) else None.
Definition old_spec : val := VDict [("Version", VStr "1")].
Definition new_spec : val := VDict [("Version", VStr "2")].
Definition server (body : res string) : network := mkNet (fun _ => Ok (Some "t2")) (fun _ => Ok (mkReply (Some "t2") body)) (fun _ => Err EKey).
Definition installed (dir : bool) : world := mkWorld dir (fun _ => None) (fun _ => Some (Whole old_spec)).
Notation sample_update := (update_spec no_walk no_load no_apply (fun s => s) read_spec).
Notation sample_make := (processed no_walk no_load no_apply).
Definition good_server : network := server (Ok "new").
Definition lost_server : network := server (Err (EOther "IncompleteRead")).
Lemma good_offers : offered read_spec (sample_make "us") [good_server] "u" new_spec.
Proof. exists good_server, good_server, (mkReply (Some "t2") (Ok "new")), "new", new_spec. repeat split; now left. Qed.
Lemma update_example : exists w', run (repeat good_server 11) (installed true) (sample_update "us" "u") = (w', Return (Ok tt)) /\ w_spec w' "us" = Some (Whole new_spec) /\ remembers (fun s => s) w' "u" "t2".
Proof.
  destruct (c88_fresh no_walk no_load no_apply (fun s => s) read_spec "us" "u" good_server (mkReply (Some "t2") (Ok "new")) "new" new_spec new_spec eq_refl eq_refl eq_refl eq_refl (installed true) (repeat good_server 11)) as [w' [E [H1 H2]]].
  - intros m Hm. now apply repeat_spec in Hm.
  - rewrite repeat_length. lia.
  - discriminate.
  - now exists (Some "t2").
  - intros [t [_ [[d [K _]] _]]]. discriminate K.
  - exists w'. split; [exact E|]. split; [exact H1|]. now apply H2.
Qed.
Lemma latest_after w n url t : t <> "" -> remembers (fun s => s) w url t -> n_head n url = Ok (Some t) -> up_to_date (fun s => s) w n url.
Proof. intros H1 H2 H3. exists t. now repeat split. Qed.
(** A process that is stopped after the memory was written and before the specification was. *)
Lemma crash_witness : exists k, let w1 := fst (run (repeat good_server k) (installed true) (sample_update "us" "u")) in
  forall j, 2 <= j -> exists w2, run (repeat good_server j) w1 (sample_update "us" "u") = (w2, Return (Ok tt)) /\ w_spec w2 "us" = Some (Whole old_spec).
Proof.
  exists 6. intros w1 j Hj. exists w1. split; [|reflexivity]. apply c88_latest; [|exact Hj]. apply (latest_after _ _ _ "t2"); [discriminate | | reflexivity]. eexists. split; reflexivity.
Qed.
Lemma truncated_witness : exists k, let w1 := fst (run (repeat good_server k) (installed true) (sample_update "us" "u")) in
  forall j, 2 <= j -> exists w2, run (repeat good_server j) w1 (sample_update "us" "u") = (w2, Return (Ok tt)) /\ w_spec w2 "us" = Some Cut.
Proof.
  exists 8. intros w1 j Hj. exists w1. split; [|reflexivity]. apply c88_latest; [|exact Hj]. apply (latest_after _ _ _ "t2"); [discriminate | | reflexivity]. eexists. split; reflexivity.
Qed.
(** A download that breaks off. *)
Lemma lost_witness : exists w1, run (repeat lost_server 11) (installed true) (sample_update "us" "u") = (w1, Return (Err (EOther "IncompleteRead"))) /\
  forall j, 2 <= j -> exists w2, run (repeat good_server j) w1 (sample_update "us" "u") = (w2, Return (Ok tt)) /\ w_spec w2 "us" = Some (Whole old_spec).
Proof.
  eexists. split; [reflexivity|]. intros j Hj. eexists. split; [apply c88_latest; [|exact Hj]|]; [apply (latest_after _ _ _ "t2"); [discriminate | | reflexivity]; eexists; split; reflexivity | reflexivity].
Qed.
(** A process that is stopped while it writes the memory. *)
Lemma cut_memory_witness : exists k, let w1 := fst (run (repeat good_server k) (installed true) (sample_update "us" "u")) in
  forall ns, 1 <= List.length ns -> run ns w1 (sample_update "us" "u") = (w1, Return (Err EValue)).
Proof. exists 5. intros w1 ns L. apply c88_stuck; [reflexivity | exact L]. Qed.
(** Two updates that both see that the folder is missing. *)
Lemma race_witness : exists schedule : list (nat * network), (forall jn, In jn schedule -> snd jn = good_server) /\
  nth_error (snd (run_pool schedule (installed false) (update_specs no_walk no_load no_apply (fun s => s) read_spec [("eu", "u1"); ("us", "u2")]))) 1 = Some (Return (Err (EOther "FileExistsError"))).
Proof.
  exists (map (fun i => (i, good_server)) [0; 0; 0; 0; 1; 1; 1; 1; 0; 1]). split; [|reflexivity]. intros jn H. apply in_map_iff in H as [i [<- _]]. reflexivity.
Qed.
Lemma schedule_example : exists x,
  run_pool (map (fun i => (i, good_server)) (List.concat (repeat [0; 1] 11))) (installed true) (update_specs no_walk no_load no_apply (fun s => s) read_spec [("eu", "u1"); ("us", "u2")]) = x /\
  w_spec (fst x) "eu" = Some (Whole new_spec) /\ w_spec (fst x) "us" = Some (Whole new_spec) /\ snd x = [Return (Ok tt); Return (Ok tt)].
Proof. eexists. split; [reflexivity|]. repeat split; reflexivity. Qed.
