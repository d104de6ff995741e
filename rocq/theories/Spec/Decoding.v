(** What decoding a file should give (C50). *)
From Coq Require Import List ZArith NArith.
From Verif.Model Require Import Base Json Yaml Decode.
From Verif.Spec Require Import JsonText YamlNodes.
Import ListNotations.
Local Open Scope Z_scope.

Inductive object : option dtemplate -> Prop :=
| ob_yaml : forall d, object (Some (TYaml (YDict d)))
| ob_json : forall b e ms, object (Some (TJson (JObj b e ms))).
(** The finding for a repeated key or a null in YAML: at the key or value, lines and columns counted from 1. *)
Inductive tells (file : string) : yerr -> dfinding -> Prop :=
| te_repeated : forall k m, tells file (YDuplicate k m)
    (mkD (y_line m + 1) (y_col m + 1) (y_line m + 1) (y_col m + 1 + Z.of_nat (String.length k)) file (DRepeated k (y_line m + 1)))
| te_null : forall m, tells file (YNull m) (mkD (y_line m + 1) (y_col m + 1) (y_line m + 1) (y_col m + 2) file (DNull (y_line m + 1) (y_col m + 1))).
(** Problems of the YAML scanner with texts that may be JSON: tabs, and escapes YAML does not know. *)
Definition maybe_json (problem : string) : Prop :=
  problem = "found character '\t' that cannot start any token"%string \/ exists r, problem = ("found unknown escape character" ++ r)%string.
(** The reports for files that cannot be read. *)
Inductive unreadable (file : string) : file_read -> dmsg -> Prop :=
| un_missing : unreadable file (IOErr 2) (DNotFound file)
| un_directory : unreadable file (IOErr 21) (DDirectory file)
| un_denied : unreadable file (IOErr 13) (DDenied file)
| un_unicode : unreadable file NotUnicode (DUnreadable file).
