(** What updating the specifications of resources must do (C88) and how they are processed (C89). *)
From Coq Require Import List String Sorted Permutation.
From Verif.Model Require Import Base Rules Maintenance.
From Verif.Spec Require Import Files.
Import ListNotations.
Local Open Scope string_scope.

(** * C88 *)
(** The folder of downloads remembers the tag [t] for [url]. *)
Definition remembers (digest : string -> string) (w : world) (url t : string) : Prop :=
  exists d, w_meta w (digest url) = Some (Whole d) /\ assoc "etag" d = Some (VStr t).
(** The server says at the moment [n] that what is remembered is the latest version. *)
Definition up_to_date (digest : string -> string) (w : world) (n : network) (url : string) : Prop :=
  exists t, t <> "" /\ remembers digest w url t /\ n_head n url = Ok (Some t).
(** [v] is made from what the server sent at one of the moments [ns], by [make]. *)
Definition offered (loads : string -> option val) (make : (string -> res shapes) -> val -> res val) (ns : list network) (url : string) (v : val) : Prop :=
  exists n m reply text spec, In n ns /\ In m ns /\
    n_get n url = Ok reply /\ r_text reply = Ok text /\ loads text = Some spec /\ make (n_shapes m) spec = Ok v.
(** The same files in both worlds. *)
Definition same_files (w w' : world) : Prop := (forall n, w_meta w' n = w_meta w n) /\ (forall r, w_spec w' r = w_spec w r).
(** The moments at which a process of a pool is advanced. *)
Definition moments (i : nat) (schedule : list (nat * network)) : list network :=
  map snd (filter (fun jn => Nat.eqb (fst jn) i) schedule).

(** * C89 *)
(** The patches for a region, in their order: folder by folder, and within a folder the JSON files by name. *)
Inductive in_order (load : string -> string -> res (list val)) : list (string * list string) -> list val -> Prop :=
| no_folders : in_order load [] []
| folder_first folder names js pss rest ps :
    Permutation js (filter (ends_with ".json") names) -> StronglySorted text_le js ->
    Forall2 (fun n l => load folder n = Ok l) js pss ->
    in_order load rest ps ->
    in_order load ((folder, names) :: rest) (List.concat pss ++ ps).
(** What one patch after another makes of the content; those that cannot be applied are passed over. *)
Inductive patched (apply : val -> val -> outcome) : list val -> val -> val -> Prop :=
| no_patches c : patched apply [] c c
| patch_applied p ps c c' c'' : apply p c = Applied c' -> patched apply ps c' c'' -> patched apply (p :: ps) c c''
| patch_refused p ps c c' c'' : apply p c = Refused c' -> patched apply ps c' c'' -> patched apply (p :: ps) c c''.
(** A key somewhere in a value. *)
Inductive key_in (k : string) : val -> Prop :=
| key_here d : In k (map fst d) -> key_in k (VDict d)
| key_member d n x : In (n, x) d -> key_in k x -> key_in k (VDict d)
| key_item l x : In x l -> key_in k x -> key_in k (VList l).
(** A reference to a type of botocore: the service, a slash, and the type; the service may contain slashes, and be missing. *)
Definition type_reference (s service type : string) : Prop :=
  has_char "/" type = false /\ (s = service ++ "/" ++ type \/ service = "" /\ s = type).
(** [l] holds the values of the enumeration that [s] refers to, in order. *)
Definition enumeration (fetch : string -> res shapes) (s : string) (l : list string) : Prop :=
  exists service type sh enum, type_reference s service type /\ fetch service = Ok sh /\ assoc type sh = Some (Some enum) /\ Permutation l enum /\ StronglySorted text_le l.
(** [v'] is [v] with its references to types of botocore replaced by the values. *)
Inductive replaced (fetch : string -> res shapes) : val -> val -> Prop :=
| re_leaf v : (forall l, v <> VList l) -> (forall d, v <> VDict d) -> replaced fetch v v
| re_list l l' : Forall2 (replaced fetch) l l' -> replaced fetch (VList l) (VList l')
| re_dict d d' :
    assoc "botocore" d' = None ->
    (forall k, k <> "AllowedValues" -> assoc k d = None -> assoc k d' = None) ->
    (forall k x, k <> "AllowedValues" -> k <> "botocore" -> assoc k d = Some x -> exists y, assoc k d' = Some y /\ replaced fetch x y) ->
    (assoc "botocore" d = None -> assoc "AllowedValues" d = None -> assoc "AllowedValues" d' = None) ->
    (forall x, assoc "botocore" d = None -> assoc "AllowedValues" d = Some x -> exists y, assoc "AllowedValues" d' = Some y /\ replaced fetch x y) ->
    (forall x, assoc "botocore" d = Some x -> exists s l y, x = VStr s /\ enumeration fetch s l /\ assoc "AllowedValues" d' = Some y /\
       (y = VList (map VStr l) \/ exists z, assoc "AllowedValues" d = Some z /\ replaced fetch z y)) ->
    replaced fetch (VDict d) (VDict d').
(** A reference, whatever it holds, somewhere in a value. *)
Inductive reference_in (r : val) : val -> Prop :=
| reference_here d : In ("botocore", r) d -> reference_in r (VDict d)
| reference_member d n x : In (n, x) d -> reference_in r x -> reference_in r (VDict d)
| reference_item l x : In x l -> reference_in r x -> reference_in r (VList l).
(** A service is mentioned in a value. *)
Inductive mentions (service : string) : val -> Prop :=
| mentions_here d s type : In ("botocore", VStr s) d -> type_reference s service type -> mentions service (VDict d)
| mentions_member d n x : In (n, x) d -> mentions service x -> mentions service (VDict d)
| mentions_item l x : In x l -> mentions service x -> mentions service (VList l).
