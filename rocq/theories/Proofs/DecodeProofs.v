(** Proofs for C50. *)
From Coq Require Import List ZArith NArith Lia Bool.
From Verif.Model Require Import Base Json Yaml Decode.
From Verif.Spec Require Import JsonText YamlNodes Decoding.
From Verif.Proofs Require Import BaseFacts JsonProofs JsonWitness YamlProofs.
Import ListNotations.
Local Open Scope Z_scope.

Lemma object_iff t : is_object t = true <-> object t.
Proof. split; [|intros []; reflexivity]. destruct t as [[[| | |d|]|[]]|]; cbn; try discriminate; intros _; constructor. Qed.
Lemma prefix_app p s : String.prefix p s = true <-> exists r, s = (p ++ r)%string.
Proof.
  revert s. induction p as [|c p IH]; intros s; [split; [intros _; now exists s | destruct s; reflexivity]|]. destruct s as [|d s]; cbn [String.prefix]; [split; [discriminate | intros [r E]; discriminate]|].
  destruct (ascii_dec c d) as [->|N]; [|split; [discriminate | intros [r E]; cbn in E; congruence]]. rewrite IH. split; intros [r E]; exists r; [cbn; now rewrite E | now injection E].
Qed.
Lemma try_json_iff p : try_json p = true <-> maybe_json p.
Proof.
  unfold try_json, maybe_json. cbn [smem existsb]. unfold starts_with. rewrite !orb_true_iff, prefix_app, !String.eqb_eq. split.
  - intros [[->|[->|K]]|K]; [now left | right; now exists ""%string | discriminate | now right].
  - intros [->|K]; [left; now left | now right].
Qed.

Section D.
Variable parse : text -> parsed.
Variable scalar : string -> string -> val + exn.
Variable int16 : text -> option Z.
Variable other : N -> option Z.
Variable depth : nat.
Notation dec := (decode_file parse scalar int16 other depth).

Definition settled (file : string) (r : res (option dtemplate * list dfinding)) : Prop :=
  exists t fs, r = Ok (t, fs) /\ ((object t /\ fs = []) \/ (~ object t /\ exists f, fs = [f] /\ d_file f = file)).
Lemma finish_one file f : d_file f = file -> settled file (finish file None [f]).
Proof. intros H. exists None, [f]. split; [reflexivity|]. right. split; [intros K; inversion K | now exists f]. Qed.
Lemma none_one file f : d_file f = file -> settled file (Ok (None, [f])).
Proof. intros H. exists None, [f]. split; [reflexivity|]. right. split; [intros K; inversion K | now exists f]. Qed.
Lemma finish_none file t : settled file (finish file t []).
Proof.
  unfold finish. destruct (is_object t) eqn:E; do 2 eexists; (split; [reflexivity|]); [left; split; [now apply object_iff | reflexivity]|]. right. split; [intros K; apply object_iff in K; congruence|]. eexists. split; reflexivity.
Qed.
Lemma c50_outcome file r : (forall s, r = Content s -> (forall e, parse s <> ParseExn e) /\ forall n, parse s = Document (Some n) -> ordinary scalar n) ->
  exists t fs, dec file r = Ok (t, fs) /\ ((object t /\ fs = []) \/ (~ object t /\ exists f, fs = [f] /\ d_file f = file)).
Proof.
  intros H. change (settled file (dec file r)). destruct r as [s|errno|]; cbn [decode_file].
  - destruct (H s eq_refl) as [H1 H2]. destruct (parse s) as [n|p m|p m| |e] eqn:E.
    + destruct n as [n|]; [|apply finish_none]. cbn [load_node]. pose proof (construct_sound scalar n (H2 n eq_refl)) as K. unfold sound_at in K. destruct (construct scalar n) as [v|[k m|m| |e]]; [apply finish_none | now apply finish_one | now apply finish_one | now apply finish_one|].
      exfalso. clear - K. remember (YExn e) as x eqn:Ex. induction K; try discriminate; auto.
    + now apply finish_one.
    + destruct (try_json p); [|now apply finish_one]. destruct (decode int16 other depth s) as [v|[msg pos key|msg pos| | | |]|q] eqn:Ed; try (now apply finish_one); try (now apply none_one); [apply finish_none | destruct msg; now apply finish_one | exfalso; exact (decode_fuel int16 other depth s Ed)].
    + now apply finish_one.
    + exfalso. now apply (H1 e).
  - destruct (Z.eqb errno 2); [now apply none_one|]. destruct (Z.eqb errno 21); [now apply none_one|]. destruct (Z.eqb errno 13); [now apply none_one | apply finish_none].
  - now apply finish_one.
Qed.
Lemma c50_yaml file s n d : parse s = Document (Some n) -> ordinary scalar n ->
  (dec file (Content s) = Ok (Some (TYaml (YDict d)), []) <-> means scalar n (YDict d) /\ forall e, ~ wrong n e).
Proof.
  intros E H. cbn [decode_file]. rewrite E. cbn [load_node]. rewrite <- (c12_accepts scalar n (YDict d) H). destruct (construct scalar n) as [v|[k m|m| |e]]; unfold finish; try (split; [discriminate | intros K; discriminate]).
  destruct (is_object (Some (TYaml v))) eqn:Eo; (split; [intros [= ->]; reflexivity | intros [= ->]; try reflexivity; discriminate]).
Qed.
Lemma c50_yaml_wrong file s n : parse s = Document (Some n) -> ordinary scalar n -> (exists e, wrong n e) ->
  exists e f, wrong n e /\ tells file e f /\ dec file (Content s) = Ok (None, [f]).
Proof.
  intros E H K. cbn [decode_file]. rewrite E. cbn [load_node]. destruct (c12_rejects scalar n H) as [[K1 _] K2]. destruct (K1 K) as [e Ee]. rewrite Ee. specialize (K2 e Ee).
  destruct e as [k m|m| |e].
  - eexists. eexists. split; [exact K2|]. split; [constructor | reflexivity].
  - exists (YNull m), (mkD (y_line m + 1) (y_col m + 1) (y_line m + 1) (y_col m + 2) file (DNull (y_line m + 1) (y_col m + 1))). split; [exact K2|]. split; [constructor|]. unfold finish, parse_error. now replace (y_col m + 1 + 1) with (y_col m + 2) by lia.
  - exfalso. clear - K2. remember YYaml as x eqn:Ex. induction K2; try discriminate; auto.
  - exfalso. clear - K2. remember (YExn e) as x eqn:Ex. induction K2; try discriminate; auto.
Qed.
Lemma c50_json file s p m v : parse s = ScannerErr p m -> maybe_json p ->
  (dec file (Content s) = Ok (Some (TJson v), []) <-> accepted int16 other s v /\ (forall x, ~ faulty v x) /\ (nesting v <= depth)%nat /\ exists b e ms, v = JObj b e ms).
Proof.
  intros E H. cbn [decode_file]. rewrite E, (proj2 (try_json_iff p) H).
  assert (G : dec file (Content s) = Ok (Some (TJson v), []) <-> decode int16 other depth s = JOk v /\ exists b e ms, v = JObj b e ms).
  { cbn [decode_file]. rewrite E, (proj2 (try_json_iff p) H). destruct (decode int16 other depth s) as [w|[msg pos key|msg pos| | | |]|q]; unfold finish; try (split; [discriminate | intros [K _]; discriminate]).
    - destruct (is_object (Some (TJson w))) eqn:Eo; (split; [intros [= ->]|intros [[= ->] K]]).
      + split; [reflexivity|]. apply object_iff in Eo. inversion Eo; subst. eauto.
      + reflexivity.
      + destruct K as [b [e [ms ->]]]. discriminate.
    - destruct msg; (split; [discriminate | intros [K _]; discriminate]). }
  cbn [decode_file] in G. rewrite E, (proj2 (try_json_iff p) H) in G. rewrite G, decode_iff. tauto.
Qed.
Lemma c50_json_wrong file s p m v x : parse s = ScannerErr p m -> maybe_json p -> accepted int16 other s v -> (nesting v <= depth)%nat -> faulty v x ->
  exists y f, faulty v y /\ d_msg f = DJson y /\ d_file f = file /\ dec file (Content s) = Ok (None, [f]).
Proof.
  intros E H H1 H2 H3. destruct (decode_faulty int16 other depth s v x H1 H2 H3) as [y [pos [k [Ed Hy]]]]. exists y, (json_error file s y pos k). split; [exact Hy|]. split; [reflexivity|]. split; [reflexivity|].
  cbn [decode_file]. rewrite E, (proj2 (try_json_iff p) H), Ed. reflexivity.
Qed.
Lemma c50_unreadable file r msg : unreadable file r msg -> dec file r = Ok (None, [mkD 1 1 1 2 file msg]).
Proof. intros []; reflexivity. Qed.
Lemma c50_other_errors file errno : errno <> 2 -> errno <> 21 -> errno <> 13 -> dec file (IOErr errno) = Ok (None, [mkD 1 1 1 1 file DNotObject]).
Proof. intros N1 N2 N3. cbn [decode_file]. rewrite (proj2 (Z.eqb_neq errno 2) N1), (proj2 (Z.eqb_neq errno 21) N2), (proj2 (Z.eqb_neq errno 13) N3). reflexivity. Qed.
Lemma c50_empty file s : parse s = Document None -> dec file (Content s) = Ok (Some (TYaml (YDict [])), []).
Proof. intros E. cbn [decode_file]. now rewrite E. Qed.
(** A mapping with one key twice that is no text; a key that is a short form; an unreadable scalar. *)
Lemma c50_raises file s m k : parse s = Document (Some (NMap m [k])) -> (exists mk t x mv v, k = (NTagS mk t x, NStr mv v)) -> dec file (Content s) = Err ETypeErr.
Proof. intros E [mk [t [x [mv [v ->]]]]]. cbn [decode_file]. rewrite E. reflexivity. Qed.
Lemma c50_raises_scalar file s m mk k mv t x e : parse s = Document (Some (NMap m [(NStr mk k, NScalar mv t x)])) -> scalar t x = inr e -> dec file (Content s) = Err e.
Proof. intros E Es. cbn [decode_file]. rewrite E. cbn [load_node construct ybind]. now rewrite Es. Qed.
End D.

(** A parser for one text: the node of good_node for the text "y", a scanner error for the others. *)
Definition parse1 (s : text) : parsed :=
  if text_eqb s [121%N] then Document (Some good_node) else if text_eqb s [98%N] then Document (Some bad_node)
  else ScannerErr "found character '\t' that cannot start any token" (mkY 0 1).
Lemma parse1_ordinary s : (forall e, parse1 s <> ParseExn e) /\ forall n, parse1 s = Document (Some n) -> ordinary ints n.
Proof.
  unfold parse1. destruct (text_eqb s [121%N]); [split; [discriminate | intros n [= <-]; exact good_node_ordinary]|].
  destruct (text_eqb s [98%N]); [split; [discriminate | intros n [= <-]; exact bad_node_ordinary]|]. split; discriminate.
Qed.
Lemma c50_yaml_example : exists d, decode_file parse1 ints int_hex no_other 9 "a.yaml" (Content [121%N]) = Ok (Some (TYaml (YDict d)), []).
Proof. eexists. reflexivity. Qed.
Lemma c50_bad_example : decode_file parse1 ints int_hex no_other 9 "a.yaml" (Content [98%N]) = Ok (None, [mkD 6 5 6 6 "a.yaml" (DRepeated "x" 6)]).
Proof. reflexivity. Qed.
Lemma c50_json_example : decode_file parse1 ints int_hex no_other 9 "a.json" (Content doc) = Ok (Some (TJson doc_value), []).
Proof. reflexivity. Qed.
Lemma c50_json_bad_example : decode_file parse1 ints int_hex no_other 9 "a.json" (Content doc2) = Ok (None, [mkD 1 15 1 16 "a.json" (DJson (MDuplicate [97%N]))]).
Proof. reflexivity. Qed.
