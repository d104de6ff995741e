(** Model of src/cfnlint/decode/__init__.py.  Reading the file and PyYAML's scanner, parser and composer are arguments. *)
From Coq Require Import NArith.
From Verif.Model Require Import Base Json Yaml.
Local Open Scope string_scope.

(** What opening and reading the file gives.  The YAML and the JSON loader read it the same way (cfn_yaml.py:200-213,
    cfn_json.py:341-355); both are assumed to find the same content. *)
Inductive file_read := Content (s : text) | IOErr (errno : Z) | NotUnicode.
(** What PyYAML makes of a text: a document (or none), an error with its problem and position, another YAMLError, another exception. *)
Inductive parsed := Document (n : option ynode) | ParserErr (problem : string) (m : ymark) | ScannerErr (problem : string) (m : ymark)
                  | OtherYaml | ParseExn (e : exn).
Inductive dmsg :=
| DNotFound (file : string) | DDirectory (file : string) | DDenied (file : string) | DUnreadable (file : string)
| DRepeated (key : string) (line : Z) | DNull (line col : Z) | DProblem (s : string) | DJson (m : jmsg) | DJsonFailed (file : string)
| DYaml | DNotObject.
(** A match of the rule ParseError (E0000). *)
Record dfinding := mkD { d_line : Z; d_col : Z; d_line_end : Z; d_col_end : Z; d_file : string; d_msg : dmsg }.
Inductive dtemplate := TYaml (v : yv) | TJson (v : jv).
Definition is_object (t : option dtemplate) : bool :=
  match t with Some (TYaml (YDict _)) => true | Some (TJson (JObj _ _ _)) => true | _ => false end.

Definition str_len (s : string) : Z := Z.of_nat (String.length s).
(** CfnParseError, cfn_yaml.py:39-52: a position from 0, and the key the match spans. *)
Definition parse_error (file : string) (m : ymark) (key_length : Z) (msg : dmsg) : dfinding :=
  mkD (y_line m + 1) (y_col m + 1) (y_line m + 1) (y_col m + 1 + key_length) file msg.
(** create_match_yaml_parser_error, decode/__init__.py:100-107. *)
Definition yaml_error (file problem : string) (m : ymark) : dfinding :=
  mkD (y_line m + 1) (y_col m + 1) (y_line m + 1) (y_col m + 1 + 1) file (DProblem problem).
(** create_match_file_error, decode/__init__.py:110-114. *)
Definition file_error (file : string) (msg : dmsg) : dfinding := mkD 1 1 1 2 file msg.
(** JSONDecodeError of cfn_json.py:46-66 and create_match_json_parser_error, decode/__init__.py:117-130 (Python 3): line and column of a
    position, from 1. *)
Definition json_line (s : text) (pos : nat) : Z := fst (position_mark s pos) + 1.
Definition json_col (s : text) (pos : nat) : Z := snd (position_mark s pos).
Definition json_error (file : string) (s : text) (m : jmsg) (pos : nat) (key : text) : dfinding :=
  mkD (json_line s pos) (json_col s pos + 1) (json_line s pos) (json_col s pos + 1 + Z.of_nat (List.length key)) file (DJson m).
Definition std_json_error (file : string) (s : text) (m : jmsg) (pos : nat) : dfinding :=
  mkD (json_line s pos) (json_col s pos) (json_line s pos) (json_col s pos + 1) file (DJson m).
(** The scanner's problems after which the file is read as JSON, decode/__init__.py:57-60. *)
Definition try_json (problem : string) : bool :=
  smem problem ["found character '\t' that cannot start any token"; "found unknown escape character"]
  || starts_with "found unknown escape character" problem.

Section Decode.
Variable parse : text -> parsed.
Variable scalar : string -> string -> val + exn.
Variable int16 : text -> option Z.
Variable other_digit : N -> option Z.
Variable depth : nat.

(** The end of decode, decode/__init__.py:93-97. *)
Definition finish (file : string) (t : option dtemplate) (ms : list dfinding) : res (option dtemplate * list dfinding) :=
  match ms with
  | [] => if is_object t then Ok (t, []) else Ok (t, [mkD 1 1 1 1 file DNotObject])
  | _ => Ok (t, ms)
  end.
(** decode, decode/__init__.py:21-97. *)
Definition decode_file (file : string) (r : file_read) : res (option dtemplate * list dfinding) :=
  match r with
  | IOErr errno =>
      let ms := if Z.eqb errno 2 then [file_error file (DNotFound file)]
                else if Z.eqb errno 21 then [file_error file (DDirectory file)]
                else if Z.eqb errno 13 then [file_error file (DDenied file)] else [] in
      match ms with [] => finish file None [] | _ => Ok (None, ms) end
  | NotUnicode => finish file None [file_error file (DUnreadable file)]
  | Content s =>
      match parse s with
      | ParserErr p m => finish file None [yaml_error file p m]
      | ScannerErr p m =>
          if try_json p then
            match decode int16 other_digit depth s with
            | JOk v => finish file (Some (TJson v)) []
            | JErr (JE msg pos key) => finish file None [json_error file s msg pos key]
            | JErr (JStd MValue _) => finish file None [yaml_error file p m]
            | JErr (JStd msg pos) => finish file None [std_json_error file s msg pos]
            | JErr JFuel => Err EOutOfFuel
            | _ => Ok (None, [file_error file (DJsonFailed file)])
            end
          else finish file None [yaml_error file p m]
      | OtherYaml => finish file None [file_error file DYaml]
      | ParseExn e => Err e
      | Document n =>
          match load_node scalar n with
          | YOk v => finish file (Some (TYaml v)) []
          | YErr (YDuplicate key m) => finish file None [parse_error file m (str_len key) (DRepeated key (y_line m + 1))]
          | YErr (YNull m) => finish file None [parse_error file m 1 (DNull (y_line m + 1) (y_col m + 1))]
          | YErr YYaml => finish file None [file_error file DYaml]
          | YErr (YExn e) => Err e
          end
      end
  end.
End Decode.
