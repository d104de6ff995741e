(** C87: samples and deviations. *)
From Coq Require Import List String Ascii QArith Bool Lia.
From Verif.Model Require Import Base Helpers Locate Node Search Rules Refs Parameters Functions ValueRules Runner Registry.
From Verif.Spec Require Import Paths Values Registry.
From Verif.Proofs Require Import BaseFacts Samples PropertyWitness PropertyRuleProofs RegistryProofs RegistryMain.
Import Verif.Model.Rules.
Import ListNotations.
Local Open Scope string_scope.

(** A schema of a type that requires the property Size. *)
Definition float_half (_ : Q) : string := "0.5".
Lemma float_half_plain : plain_float float_half.
Proof. intros q a. cbn [float_half list_ascii_of_string In]. intuition auto 20. Qed.
Definition size_schema : val := VDict [("typeName", VStr "My::Own::Disk")].
Definition needs_size (props schema : val) : res (option string) :=
  match props with VDict d => if mem_assoc "Size" d then Ok None else Ok (Some "'Size' is a required property") | _ => Ok (Some "not an object") end.
Definition disks (resources : list (string * list (string * val))) : val :=
  VDict [("Resources", VDict (map (fun np => (fst np, VDict [("Type", VStr "My::Own::Disk"); ("Properties", VDict (snd np))])) resources))].
Definition disk_match (props : list (string * val)) : res (list string) := rmap (map rm_msg) (schema_match float_half needs_size [size_schema] (disks [("D", props)])).
Definition disk_run (registry : list val) (t : val) : res (list string) :=
  rmap (map f_msg) (snd (runner_run sample_sp (mkColl [schema_rule float_half needs_size registry] default_settings) [] (mkCfn "t.yaml" "us-east-1" (marked t)))).
(** Texts of an object, as a list. *)
Fixpoint texts (v : val) : list string :=
  match v with
  | VStr s => [s]
  | VList l => flat_map texts l
  | VDict d => flat_map (fun kv => fst kv :: texts (snd kv)) d
  | _ => []
  end.
Lemma holds_texts v s : holds_text v s -> In s (texts v).
Proof.
  induction 1 as [s|l x s Hx H IH|d k x Hx|d k x s Hx H IH]; cbn [texts].
  - now left.
  - apply in_flat_map. eauto.
  - apply in_flat_map. exists (k, x). split; [exact Hx | now left].
  - apply in_flat_map. exists (k, x). split; [exact Hx | now right].
Qed.
Definition free_of_words (v : val) : bool := forallb (fun s => forallb (fun w => negb (contains_text w s)) ("{{resolve:" :: syntax_words)) (texts v).
Lemma free_words v : free_of_words v = true -> ~ with_syntax v /\ ~ with_dynamic v /\ closed_references v.
Proof.
  intros H. assert (K : forall w s, In w ("{{resolve:" :: syntax_words) -> holds_text v s -> ~ part_of w s).
  { intros w s Hw Hs Hp. apply holds_texts in Hs. pose proof (proj1 (forallb_forall _ _) H s Hs) as K. cbv beta in K. pose proof (proj1 (forallb_forall _ _) K w Hw) as K'. cbv beta in K'. apply contains_text_iff in Hp. rewrite Hp in K'. discriminate. }
  split; [intros [w [s [Hw [Hs Hp]]]]; apply (K w s); auto; now right|]. split.
  - intros [s [Hs [a [b [c [_ E]]]]]]. apply (K "{{resolve:" s); [now left | exact Hs|]. exists a, (b ++ "}}" ++ c). exact E.
  - intros s Hs Hp. elim (K "{{resolve:" s); auto. now left.
Qed.
Definition two_disks : val := disks [("Small", [("Name", VStr "x")]); ("Large", [("Size", VInt 9); ("Name", VStr "y")]); ("Other", [("Name", VDict [("Ref", VStr "P")])])].
Lemma disk_cases name props : typed_resource two_disks name "My::Own::Disk" props -> (name, props) = ("Small", VDict [("Name", VStr "x")]) \/ (name, props) = ("Large", VDict [("Size", VInt 9); ("Name", VStr "y")]) \/ (name, props) = ("Other", VDict [("Name", VDict [("Ref", VStr "P")])]).
Proof. intros [d [rs [attrs [[= <-] [[= <-] [Hin [_ ->]]]]]]]. destruct Hin as [[= <- <-]|[[= <- <-]|[[= <- <-]|[]]]]; cbn; auto. Qed.
Lemma registry_example : let t := two_disks in let c := mkCfn "t.yaml" "us-east-1" (marked t) in
  plain_float float_half /\ template c = t /\ (exists m d, c_tmpl c = MDict m d) /\ (forall schema, In schema [size_schema] -> exists ty, schema_of schema ty) /\
  (forall schema ty name props, In schema [size_schema] -> schema_of schema ty -> typed_resource (template c) name ty props ->
     is_str props = false /\ closed_references props /\ (with_dynamic props \/ with_syntax props \/ exists r, needs_size props schema = Ok r)) /\
  schema_of size_schema "My::Own::Disk" /\ typed_resource (template c) "Small" "My::Own::Disk" (VDict [("Name", VStr "x")]) /\ ~ with_syntax (VDict [("Name", VStr "x")]) /\ ~ with_dynamic (VDict [("Name", VStr "x")]) /\
  needs_size (VDict [("Name", VStr "x")]) size_schema = Ok (Some "'Size' is a required property") /\
  disk_run [size_schema] t = Ok ["'Size' is a required property"].
Proof.
  cbv zeta. split; [exact float_half_plain|]. assert (Et : template (mkCfn "t.yaml" "us-east-1" (marked two_disks)) = two_disks) by (vm_compute; reflexivity). rewrite Et. split; [reflexivity|]. split; [do 2 eexists; reflexivity|].
  split; [intros schema [<-|[]]; exists "My::Own::Disk"; eexists; split; reflexivity|]. split.
  { intros schema ty name props [<-|[]] [d [[= <-] [= <-]]] Htr. apply disk_cases in Htr as [[= -> ->]|[[= -> ->]|[= -> ->]]]; (split; [reflexivity|]).
    - split; [now apply free_words|]. right. right. eexists. reflexivity.
    - split; [now apply free_words|]. right. right. eexists. reflexivity.
    - split; [|right; left; exists "Ref", "Ref"; split; [cbn; auto 12|]; split; [apply (ht_member _ "Name" (VDict [("Ref", VStr "P")])); [now left|]; apply (ht_name _ "Ref" (VStr "P")); now left | exists "", ""; reflexivity]].
      intros s Hs [a [b E]]. exfalso. apply holds_texts in Hs. assert (K : contains_text "{{resolve:" s = true) by (apply contains_text_iff; eauto). cbn [texts flat_map fst snd List.app In] in Hs. destruct Hs as [<-|[<-|[<-|[]]]]; vm_compute in K; discriminate. }
  split; [eexists; split; reflexivity|]. split; [do 3 eexists; split; [reflexivity|]; split; [reflexivity|]; split; [now left|]; split; reflexivity|].
  destruct (free_words (VDict [("Name", VStr "x")]) eq_refl) as [H1 [H2 _]]. split; [exact H1|]. split; [exact H2|]. split; [reflexivity|]. vm_compute. reflexivity.
Qed.
(** Reading the schemas again for a third template. *)
Definition one_folder (p : string) : option (list string) := if String.eqb p "/home/me/schemas" then Some ["disk.json"] else None.
Definition home (p : string) : string := if String.eqb p "~/schemas" then "/home/me/schemas" else p.
Definition disk_file (_ _ : string) : res val := Ok size_schema.
Lemma registry_history_example : registry_at home one_folder disk_file ["/home/me/schemas"] 0 = Ok [size_schema] /\
  registry_at home one_folder disk_file ["/home/me/schemas"] 2 = Ok [size_schema; size_schema; size_schema] /\
  disk_run [size_schema; size_schema; size_schema] two_disks = Ok ["'Size' is a required property"] /\
  rmap (@List.length rulematch) (schema_match float_half needs_size [size_schema; size_schema; size_schema] two_disks) = Ok 3.
Proof. repeat split; vm_compute; reflexivity. Qed.

(** * Deviations *)
(** A name that only contains the word Ref hides the resource, though it has no template syntax. *)
Lemma name_hides_witness : disk_match [("ReferenceId", VStr "x")] = Ok [] /\ needs_size (VDict [("ReferenceId", VStr "x")]) size_schema = Ok (Some "'Size' is a required property").
Proof. split; vm_compute; reflexivity. Qed.
(** So does text that opens a dynamic reference and does not close it, in an inner object. *)
Lemma open_reference_witness : disk_match [("Tags", VDict [("Note", VStr "{{resolve:x")])] = Ok [] /\ disk_match [("Note", VStr "{{resolve:x")] = Ok ["'Size' is a required property"].
Proof. split; vm_compute; reflexivity. Qed.
(** A schema without the name of its type ends the check with an exception. *)
Lemma nameless_schema_witness : schema_match float_half needs_size [VDict []; size_schema] two_disks = Err EKey.
Proof. reflexivity. Qed.
(** A folder below the home folder, written with a tilde, ends linting with an exception. *)
Lemma home_folder_witness : registry_at home one_folder disk_file ["~/schemas"] 0 = Err (EOther "OSError") /\ registry_at home one_folder disk_file [home "~/schemas"] 0 = Ok [size_schema].
Proof. split; reflexivity. Qed.
