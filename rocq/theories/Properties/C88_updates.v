(** C88 Updating the specifications. *)
From Coq Require Import List String Arith Bool.
Import ListNotations.
From Verif.Model Require Import Base Helpers Rules Config Maintenance.
From Verif.Spec Require Import Maintenance.
From Verif.Proofs Require Import MaintenanceProofs MaintenanceMain MaintenanceWitness.
Import Verif.Model.Rules.
Local Open Scope string_scope.
Local Open Scope nat_scope.
Notation sample_update := (update_spec no_walk no_load no_apply (fun s => s) read_spec).
Notation sample_make := (processed no_walk no_load no_apply).

(** Stopped at any moment, an update leaves the specification as it was, cut short, or made from what the server sent; one that ends well leaves the latter, or nothing was new. *)
Theorem update_contents : forall (walk : string -> list (string * list string)) (load_patches : string -> string -> res (list val)) (apply_patch : val -> val -> outcome)
  (digest : string -> string) (loads : string -> option val),
  forall region url ns w w' p,
  run ns w (update_spec walk load_patches apply_patch digest loads region url) = (w', p) ->
  (w_spec w' region = w_spec w region \/ w_spec w' region = Some Cut \/ exists v, w_spec w' region = Some (Whole v) /\ offered loads (processed walk load_patches apply_patch region) ns url v) /\
  (p = Return (Ok tt) ->
     (exists v, w_spec w' region = Some (Whole v) /\ offered loads (processed walk load_patches apply_patch region) ns url v) \/ (w' = w /\ exists n, In n ns /\ up_to_date digest w n url)).
Proof. exact c88_contents. Qed.
Print Assumptions update_contents.

(** It changes no other specification and no other memory. *)
Theorem update_others : forall (walk : string -> list (string * list string)) (load_patches : string -> string -> res (list val)) (apply_patch : val -> val -> outcome)
  (digest : string -> string) (loads : string -> option val),
  forall region url ns w,
  let w' := fst (run ns w (update_spec walk load_patches apply_patch digest loads region url)) in
  (forall r, r <> region -> w_spec w' r = w_spec w r) /\ (forall m, m <> digest url -> w_meta w' m = w_meta w m).
Proof. exact c88_others. Qed.
Print Assumptions update_others.

(** It comes to its end. *)
Theorem update_ends : forall (walk : string -> list (string * list string)) (load_patches : string -> string -> res (list val)) (apply_patch : val -> val -> outcome)
  (digest : string -> string) (loads : string -> option val),
  forall region url ns w,
  11 <= List.length ns -> exists r, snd (run ns w (update_spec walk load_patches apply_patch digest loads region url)) = Return r.
Proof. exact c88_ends. Qed.
Print Assumptions update_ends.

(** What is up to date is left alone. *)
Theorem update_latest : forall (walk : string -> list (string * list string)) (load_patches : string -> string -> res (list val)) (apply_patch : val -> val -> outcome)
  (digest : string -> string) (loads : string -> option val),
  forall region url n w k,
  up_to_date digest w n url -> 2 <= k -> run (repeat n k) w (update_spec walk load_patches apply_patch digest loads region url) = (w, Return (Ok tt)).
Proof. exact c88_latest. Qed.
Print Assumptions update_latest.

(** What is not is replaced, and the tag is remembered. *)
Theorem update_fresh : forall (walk : string -> list (string * list string)) (load_patches : string -> string -> res (list val)) (apply_patch : val -> val -> outcome)
  (digest : string -> string) (loads : string -> option val),
  forall (region url : string) (n : network) (reply : reply) (text : string) (spec v : val),
  n_get n url = Ok reply -> r_text reply = Ok text -> loads text = Some spec -> processed walk load_patches apply_patch region (n_shapes n) spec = Ok v ->
  forall w ns,
  (forall m, In m ns -> m = n) -> 11 <= List.length ns ->
  w_meta w (digest url) <> Some Cut -> (exists tag, n_head n url = Ok tag) -> ~ up_to_date digest w n url ->
  exists w', run ns w (update_spec walk load_patches apply_patch digest loads region url) = (w', Return (Ok tt)) /\ w_spec w' region = Some (Whole v) /\ (forall t, r_tag reply = Some t -> t <> "" -> remembers digest w' url t).
Proof. exact c88_fresh. Qed.
Print Assumptions update_fresh.

(** Updates that run together, however their steps are mixed, do what each would do alone, if the folder for the memory exists. *)
Theorem updates_independent_partial : forall (walk : string -> list (string * list string)) (load_patches : string -> string -> res (list val)) (apply_patch : val -> val -> outcome)
  (digest : string -> string) (loads : string -> option val),
  forall regions schedule w,
  NoDup (map fst regions) -> NoDup (map (fun ru => digest (snd ru)) regions) -> w_dir w = true ->
  let x := run_pool schedule w (update_specs walk load_patches apply_patch digest loads regions) in
  (forall i region url, nth_error regions i = Some (region, url) ->
     let alone := run (moments i schedule) w (update_spec walk load_patches apply_patch digest loads region url) in
     nth_error (snd x) i = Some (snd alone) /\ w_spec (fst x) region = w_spec (fst alone) region /\ w_meta (fst x) (digest url) = w_meta (fst alone) (digest url)) /\
  (forall region, ~ In region (map fst regions) -> w_spec (fst x) region = w_spec w region) /\
  (forall m, ~ In m (map (fun ru => digest (snd ru)) regions) -> w_meta (fst x) m = w_meta w m).
Proof. exact c88_schedule. Qed.
Print Assumptions updates_independent_partial.

(** So any two schedules give the same files. *)
Theorem updates_any_schedule_partial : forall (walk : string -> list (string * list string)) (load_patches : string -> string -> res (list val)) (apply_patch : val -> val -> outcome)
  (digest : string -> string) (loads : string -> option val),
  forall regions n s1 s2 w,
  NoDup (map fst regions) -> NoDup (map (fun ru => digest (snd ru)) regions) -> w_dir w = true ->
  (forall jm, In jm (s1 ++ s2)%list -> snd jm = n) ->
  (forall i, i < List.length regions -> 11 <= List.length (moments i s1) /\ 11 <= List.length (moments i s2)) ->
  same_files (fst (run_pool s1 w (update_specs walk load_patches apply_patch digest loads regions))) (fst (run_pool s2 w (update_specs walk load_patches apply_patch digest loads regions))) /\
  forall i, i < List.length regions -> nth_error (snd (run_pool s1 w (update_specs walk load_patches apply_patch digest loads regions))) i = nth_error (snd (run_pool s2 w (update_specs walk load_patches apply_patch digest loads regions))) i.
Proof. exact c88_any_schedule. Qed.
Print Assumptions updates_any_schedule_partial.

(** A memory that was cut short stops every later update of the region. *)
Theorem cut_memory_stops : forall (walk : string -> list (string * list string)) (load_patches : string -> string -> res (list val)) (apply_patch : val -> val -> outcome)
  (digest : string -> string) (loads : string -> option val),
  forall region url w ns,
  w_meta w (digest url) = Some Cut -> 1 <= List.length ns -> run ns w (update_spec walk load_patches apply_patch digest loads region url) = (w, Return (Err EValue)).
Proof. exact c88_stuck. Qed.
Print Assumptions cut_memory_stops.

(** A process stopped after the memory was written leaves the old specification, which is then never updated. *)
Theorem crash_refuted : exists k, let w1 := fst (run (repeat good_server k) (installed true) (sample_update "us" "u")) in
  forall j, 2 <= j -> exists w2, run (repeat good_server j) w1 (sample_update "us" "u") = (w2, Return (Ok tt)) /\ w_spec w2 "us" = Some (Whole old_spec).
Proof. exact crash_witness. Qed.
Print Assumptions crash_refuted.

(** Or one that is cut short, and is never written again. *)
Theorem truncated_refuted : exists k, let w1 := fst (run (repeat good_server k) (installed true) (sample_update "us" "u")) in
  forall j, 2 <= j -> exists w2, run (repeat good_server j) w1 (sample_update "us" "u") = (w2, Return (Ok tt)) /\ w_spec w2 "us" = Some Cut.
Proof. exact truncated_witness. Qed.
Print Assumptions truncated_refuted.

(** A download that breaks off does the same. *)
Theorem lost_refuted : exists w1, run (repeat lost_server 11) (installed true) (sample_update "us" "u") = (w1, Return (Err (EOther "IncompleteRead"))) /\
  forall j, 2 <= j -> exists w2, run (repeat good_server j) w1 (sample_update "us" "u") = (w2, Return (Ok tt)) /\ w_spec w2 "us" = Some (Whole old_spec).
Proof. exact lost_witness. Qed.
Print Assumptions lost_refuted.

(** A process stopped while it writes the memory stops all later updates of its region. *)
Theorem cut_memory_refuted : exists k, let w1 := fst (run (repeat good_server k) (installed true) (sample_update "us" "u")) in
  forall ns, 1 <= List.length ns -> run ns w1 (sample_update "us" "u") = (w1, Return (Err EValue)).
Proof. exact cut_memory_witness. Qed.
Print Assumptions cut_memory_refuted.

(** Without the folder for the memory, two updates that run together may end with an exception. *)
Theorem race_refuted : exists schedule : list (nat * network), (forall jn, In jn schedule -> snd jn = good_server) /\
  nth_error (snd (run_pool schedule (installed false) (update_specs no_walk no_load no_apply (fun s => s) read_spec [("eu", "u1"); ("us", "u2")]))) 1 = Some (Return (Err (EOther "FileExistsError"))).
Proof. exact race_witness. Qed.
Print Assumptions race_refuted.

Example good_offers_ : offered read_spec (sample_make "us") [good_server] "u" new_spec.
Proof. exact good_offers. Qed.

Example update_example_ : exists w', run (repeat good_server 11) (installed true) (sample_update "us" "u") = (w', Return (Ok tt)) /\ w_spec w' "us" = Some (Whole new_spec) /\ remembers (fun s => s) w' "u" "t2".
Proof. exact update_example. Qed.

Example schedule_example_ : exists x,
  run_pool (map (fun i => (i, good_server)) (List.concat (repeat [0; 1] 11))) (installed true) (update_specs no_walk no_load no_apply (fun s => s) read_spec [("eu", "u1"); ("us", "u2")]) = x /\
  w_spec (fst x) "eu" = Some (Whole new_spec) /\ w_spec (fst x) "us" = Some (Whole new_spec) /\ snd x = [Return (Ok tt); Return (Ok tt)].
Proof. exact schedule_example. Qed.
