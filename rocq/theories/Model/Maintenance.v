(** Models of update_resource_specs, update_resource_spec and patch_spec of maintenance.py, and of the functions of helpers.py that download
    files and remember their tags. *)
From Verif.Model Require Import Base Helpers Rules Config.
Import Verif.Model.Rules.
Local Open Scope string_scope.
Local Open Scope nat_scope.

(** * Processing a specification *)
Section Processing.
(** What os.walk gives for the folder of a region below data/ExtendedSpecs: folders with the names of their files. *)
Variable walk : string -> list (string * list string).
(** load_resource, helpers.py:313-318: the patches in a file, by folder and name. *)
Variable load_patches : string -> string -> res (list val).
(** [jsonpatch.JsonPatch([patch]).apply(content, in_place=True)]: what becomes of the content, and whether JsonPatchConflict or
    JsonPointerException was raised; or another exception. *)
Inductive outcome := Applied (content : val) | Refused (content : val) | Raised (e : exn).
Variable apply_patch : val -> val -> outcome.
(** [fnmatch.filter(filenames, '*.json')], maintenance.py:141. *)
Definition json_names (names : list string) : list string := filter (ends_with ".json") (sort_strings names).
(** The loop over the patches of a file, maintenance.py:149-157. *)
Fixpoint apply_patches (patches : list val) (content : val) : res val :=
  match patches with
  | [] => Ok content
  | p :: rest =>
      match apply_patch p content with
      | Applied c | Refused c => apply_patches rest c
      | Raised e => Err e
      end
  end.
(** The loops over the folders and over the files, maintenance.py:139-147. *)
Fixpoint apply_files (folder : string) (names : list string) (content : val) : res val :=
  match names with
  | [] => Ok content
  | n :: rest => do patches <- load_patches folder n; do c <- apply_patches patches content; apply_files folder rest c
  end.
Fixpoint apply_folders (folders : list (string * list string)) (content : val) : res val :=
  match folders with
  | [] => Ok content
  | (folder, names) :: rest => do c <- apply_files folder (json_names names) content; apply_folders rest c
  end.
(** patch_spec, maintenance.py:134-159. *)
Definition patch_spec (content : val) (region : string) : res val := apply_folders (walk region) content.

(** The shapes of a service of botocore: their enumerations, if they have one. *)
Definition shapes : Type := list (string * option (list string)).
(** [botocore_cache], in the order of the downloads. *)
Definition cache : Type := list (string * shapes).
(** [value.split('/')], maintenance.py:64-66: the service is everything before the last part. *)
Definition service_of (s : string) : string := join_str "/" (removelast (split_on "/" s)).
Definition shape_of (s : string) : string := List.last (split_on "/" s) "".
(** [botocore_cache[service]['shapes'][botocore_type]['enum']], sorted, maintenance.py:67-69. *)
Definition allowed_of (fetch : string -> res shapes) (s : string) (c : cache) : res (val * cache) :=
  do c <- match assoc (service_of s) c with
          | Some _ => Ok c
          | None => do sh <- fetch (service_of s); Ok (c ++ [(service_of s, sh)])%list
          end;
  match assoc (service_of s) c with
  | Some sh =>
      match assoc (shape_of s) sh with
      | Some (Some enum) => Ok (VList (map VStr (sort_strings enum)), c)
      | _ => Err EKey
      end
  | None => Err EKey
  end.
(** search_and_replace_botocore_types, maintenance.py:59-81. *)
Fixpoint replace_types (fetch : string -> res shapes) (v : val) (c : cache) {struct v} : res (val * cache) :=
  match v with
  | VDict d =>
      do r <- (fix members (d : list (string * val)) (new : list (string * val)) (c : cache) : res (list (string * val) * cache) :=
                 match d with
                 | [] => Ok (new, c)
                 | (k, x) :: rest =>
                     if String.eqb k "botocore" then
                       match x with
                       | VStr s => do a <- allowed_of fetch s c; members rest (set_assoc "AllowedValues" (fst a) new) (snd a)
                       | _ => Err EAttribute
                       end
                     else do y <- replace_types fetch x c; members rest (set_assoc k (fst y) new) (snd y)
                 end) d [] c;
      Ok (VDict (fst r), snd r)
  | VList l =>
      do r <- (fix items (l : list val) (c : cache) : res (list val * cache) :=
                 match l with
                 | [] => Ok ([], c)
                 | x :: rest => do y <- replace_types fetch x c; do ys <- items rest (snd y); Ok (fst y :: fst ys, snd ys)
                 end) l c;
      Ok (VList (fst r), snd r)
  | _ => Ok (v, c)
  end.
(** maintenance.py:51-83, between the download and the file. *)
Definition processed (region : string) (fetch : string -> res shapes) (spec : val) : res val :=
  do a <- patch_spec spec "all"; do b <- patch_spec a region; do r <- replace_types fetch b []; Ok (fst r).

(** * Programs *)
(** A file is cut short from the moment it is opened for writing until it is closed. *)
Inductive file (A : Type) := Cut | Whole (a : A).
Global Arguments Cut {A}.
Global Arguments Whole {A} a.
(** The files of data/DownloadsMetadata, which hold objects, the files of data/CloudSpecs by region, and whether the former folder exists. *)
Record world := mkWorld { w_dir : bool; w_meta : string -> option (file (list (string * val))); w_spec : string -> option (file val) }.
(** What a server answers: the ETag of the answer and its text, if it can be read to the end. *)
Record reply := mkReply { r_tag : option string; r_text : res string }.
(** The network at one moment: HEAD requests, GET requests, and downloads of services of botocore. *)
Record network := mkNet { n_head : string -> res (option string); n_get : string -> res reply; n_shapes : string -> res shapes }.
(** What an update does to its surroundings, step by step.  The downloads of services of botocore are taken as one step. *)
Inductive program :=
| Return (r : res unit)
| ReadMeta (name : string) (k : option (file (list (string * val))) -> program)
| Head (url : string) (k : res (option string) -> program)
| Get (url : string) (k : res reply -> program)
| IsDir (k : bool -> program)
| MakeDir (k : res unit -> program)
| WriteMeta (name : string) (f : file (list (string * val))) (k : program)
| Services (k : (string -> res shapes) -> program)
| WriteSpec (region : string) (f : file val) (k : program).
Definition put {A} (f : string -> option A) (k : string) (x : A) : string -> option A := fun n => if String.eqb n k then Some x else f n.
Definition advance (n : network) (w : world) (p : program) : world * program :=
  match p with
  | Return r => (w, Return r)
  | ReadMeta name k => (w, k (w_meta w name))
  | Head url k => (w, k (n_head n url))
  | Get url k => (w, k (n_get n url))
  | IsDir k => (w, k (w_dir w))
  | MakeDir k => if w_dir w then (w, k (Err (EOther "FileExistsError"))) else (mkWorld true (w_meta w) (w_spec w), k (Ok tt))
  | WriteMeta name f k => (mkWorld (w_dir w) (put (w_meta w) name f) (w_spec w), k)
  | Services k => (w, k (n_shapes n))
  | WriteSpec region f k => (mkWorld (w_dir w) (w_meta w) (put (w_spec w) region f), k)
  end.
(** A run: one step for each moment of the network. *)
Fixpoint run (ns : list network) (w : world) (p : program) : world * program :=
  match ns with
  | [] => (w, p)
  | n :: rest => let x := advance n w p in run rest (fst x) (snd x)
  end.
(** Several processes: each step says which of them goes on. *)
Fixpoint set_nth {A} (i : nat) (x : A) (l : list A) : list A :=
  match l, i with
  | [], _ => []
  | _ :: r, O => x :: r
  | y :: r, S j => y :: set_nth j x r
  end.
Fixpoint run_pool (schedule : list (nat * network)) (w : world) (ps : list program) : world * list program :=
  match schedule with
  | [] => (w, ps)
  | (i, n) :: rest =>
      match nth_error ps i with
      | Some p => let x := advance n w p in run_pool rest (fst x) (set_nth i (snd x) ps)
      | None => run_pool rest w ps
      end
  end.

(** * Updating *)
(** hashlib.sha256(url), helpers.py:225-231, and json.loads. *)
Variable digest : string -> string.
Variable loads : string -> option val.
(** The comparison of tags, helpers.py:263. *)
Definition same_tag (cached : val) (tag : option string) : bool :=
  match tag with
  | Some t => truthy cached && negb (String.eqb t "") && eq_str t cached
  | None => false
  end.
(** url_has_newer_version, helpers.py:233-268, without Python 2. *)
Definition has_newer (url : string) (k : bool -> program) : program :=
  ReadMeta (digest url) (fun m =>
    match m with
    | None => k true
    | Some Cut => Return (Err EValue)
    | Some (Whole d) =>
        match assoc "etag" d with
        | None => k true
        | Some cached => Head url (fun r => match r with Ok tag => k (negb (same_tag cached tag)) | Err e => Return (Err e) end)
        end
    end).
(** save_metadata, helpers.py:303-310. *)
Definition save_metadata (d : list (string * val)) (name : string) (k : program) : program :=
  let save := WriteMeta name Cut (WriteMeta name (Whole d) k) in
  IsDir (fun there => if there then save else MakeDir (fun r => match r with Ok _ => save | Err e => Return (Err e) end)).
(** get_url_content with caching, helpers.py:270-291. *)
Definition get_content (url : string) (k : string -> program) : program :=
  Get url (fun r =>
    match r with
    | Err e => Return (Err e)
    | Ok reply =>
        let read := match r_text reply with Ok text => k text | Err e => Return (Err e) end in
        match r_tag reply with
        | Some tag =>
            if String.eqb tag "" then read
            else
              ReadMeta (digest url) (fun m =>
                match m with
                | Some Cut => Return (Err EValue)
                | _ =>
                    let d := match m with Some (Whole d) => d | _ => [] end in
                    save_metadata (set_assoc "url" (VStr url) (set_assoc "etag" (VStr tag) d)) (digest url) read
                end)
        | None => read
        end
    end).
(** update_resource_spec, maintenance.py:36-86. *)
Definition update_spec (region url : string) : program :=
  has_newer url (fun newer =>
    if newer then
      get_content url (fun text =>
        match loads text with
        | None => Return (Err EValue)
        | Some spec =>
            Services (fun fetch =>
              match processed region fetch spec with
              | Err e => Return (Err e)
              | Ok v => WriteSpec region Cut (WriteSpec region (Whole v) (Return (Ok tt)))
              end)
        end)
    else Return (Ok tt)).
(** update_resource_specs, maintenance.py:22-34: what the pool starts with, from SPEC_REGIONS.  Falling back to a loop when the pool raises
    AttributeError is not modelled. *)
Definition update_specs (regions : list (string * string)) : list program := map (fun ru => update_spec (fst ru) (snd ru)) regions.
End Processing.
