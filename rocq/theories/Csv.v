(** The csv module of CPython 2.7 (excel dialect) as used by DictReader and DictWriter in
    mtoolkit/eqcatalog.py:144,348-350, and line iteration over a file.  Simplification: the limit
    of the csv module on the length of a field (131072) is not modelled. *)
From Coq Require Import ZArith Bool Ascii String List.
From Verif Require Import Base PyStr.
Import ListNotations.

(** File lines: iteration over an open file (mtoolkit/eqcatalog.py:134,146) splits after
    each line feed and keeps it; the last line may lack it.  [cur] is reversed. *)
Fixpoint lines_from (cur : text) (s : text) : list text :=
  match s with
  | [] => match cur with [] => [] | _ => [rev cur] end
  | c :: s' =>
      if Ascii.eqb c chr_lf then rev (c :: cur) :: lines_from [] s'
      else lines_from (c :: cur) s'
  end.
Definition file_lines (s : text) : list text := lines_from [] s.

(** States of the csv reader (Modules/_csv.c of CPython 2.7, used at
    mtoolkit/eqcatalog.py:144). *)
Inductive cstate := START_RECORD | START_FIELD | IN_FIELD | IN_QUOTED_FIELD
                  | QUOTE_IN_QUOTED_FIELD | EAT_CRNL.

(** Reader record: state, current field (reversed), finished fields (reversed). *)
Record creader : Type := mkC { c_state : cstate; c_field : text; c_fields : list text }.

Definition c_init : creader := mkC START_RECORD [] [].

(** parse_add_char *)
Definition add_char (r : creader) (st : cstate) (c : ascii) : creader :=
  mkC st (c :: c_field r) (c_fields r).
(** parse_save_field *)
Definition save_field (r : creader) (st : cstate) : creader :=
  mkC st [] (rev (c_field r) :: c_fields r).
Definition goto (r : creader) (st : cstate) : creader := mkC st (c_field r) (c_fields r).

Definition is_crlf (c : ascii) : bool := Ascii.eqb c chr_lf || Ascii.eqb c chr_cr.

(** The START_FIELD case of parse_process_char. *)
Definition start_field (r : creader) (c : option ascii) : creader :=
  match c with
  | None => save_field r START_RECORD
  | Some c =>
      if is_crlf c then save_field r EAT_CRNL
      else if Ascii.eqb c chr_quote then goto r IN_QUOTED_FIELD
      else if Ascii.eqb c chr_comma then save_field r START_FIELD
      else add_char r IN_FIELD c
  end.

(** parse_process_char of Modules/_csv.c with the excel dialect (comma, double quote,
    doublequote, not strict, no escape character); None is the end-of-line mark '\0'. *)
Definition process_char (r : creader) (c : option ascii) : res creader :=
  match c_state r with
  | START_RECORD =>
      match c with
      | None => Ok r
      | Some ch => if is_crlf ch then Ok (goto r EAT_CRNL) else Ok (start_field r c)
      end
  | START_FIELD => Ok (start_field r c)
  | IN_FIELD =>
      match c with
      | None => Ok (save_field r START_RECORD)
      | Some ch =>
          if is_crlf ch then Ok (save_field r EAT_CRNL)
          else if Ascii.eqb ch chr_comma then Ok (save_field r START_FIELD)
          else Ok (add_char r IN_FIELD ch)
      end
  | IN_QUOTED_FIELD =>
      match c with
      | None => Ok r
      | Some ch =>
          if Ascii.eqb ch chr_quote then Ok (goto r QUOTE_IN_QUOTED_FIELD)
          else Ok (add_char r IN_QUOTED_FIELD ch)
      end
  | QUOTE_IN_QUOTED_FIELD =>
      match c with
      | None => Ok (save_field r START_RECORD)
      | Some ch =>
          if Ascii.eqb ch chr_quote then Ok (add_char r IN_QUOTED_FIELD ch)
          else if Ascii.eqb ch chr_comma then Ok (save_field r START_FIELD)
          else if is_crlf ch then Ok (save_field r EAT_CRNL)
          else Ok (add_char r IN_FIELD ch)
      end
  | EAT_CRNL =>
      match c with
      | None => Ok (goto r START_RECORD)
      | Some ch => if is_crlf ch then Ok r else Err CsvError
      end
  end.

(** One line fed to the reader: every character (a NUL byte raises), then the end mark. *)
Fixpoint process_line (r : creader) (l : text) : res creader :=
  match l with
  | [] => process_char r None
  | c :: l' =>
      if Ascii.eqb c chr_nul then Err CsvError
      else bind (process_char r (Some c)) (fun r' => process_line r' l')
  end.

(** Iterating the reader over the lines of a file: the records produced, and the exception
    that ended the iteration if any.  At end of input an unfinished field is saved
    (Reader_iternext, CPython 2.7.3 and later). *)
Fixpoint csv_read (r : creader) (ls : list text) : list (list text) * option exn :=
  match ls with
  | [] =>
      match c_state r, c_field r with
      | IN_QUOTED_FIELD, _ => ([rev (c_fields (save_field r START_RECORD))], None)
      | _, [] => ([], None)
      | _, _ => ([rev (c_fields (save_field r START_RECORD))], None)
      end
  | l :: ls' =>
      match process_line r l with
      | Err e => ([], Some e)
      | Ok r' =>
          match c_state r' with
          | START_RECORD =>
              let (rows, e) := csv_read c_init ls' in (rev (c_fields r') :: rows, e)
          | _ => csv_read r' ls'
          end
      end
  end.

(** ** Writer *)

(** Does QUOTE_MINIMAL quote this field?  (join_append_data in Modules/_csv.c; used at
    mtoolkit/eqcatalog.py:348-350.) *)
Definition needs_quote (f : text) : bool :=
  existsb (fun c => Ascii.eqb c chr_comma || Ascii.eqb c chr_quote || is_crlf c) f.

Fixpoint double_quotes (f : text) : text :=
  match f with
  | [] => []
  | c :: f' => if Ascii.eqb c chr_quote then c :: c :: double_quotes f' else c :: double_quotes f'
  end.

(** One field as written. *)
Definition write_field (f : text) : text :=
  if needs_quote f then chr_quote :: double_quotes f ++ [chr_quote] else f.

(** One record as written, with the line terminator; a record that is one empty field is
    written as a pair of quotes. *)
Definition write_row (row : list text) : text :=
  match row with
  | [ [] ] => [chr_quote; chr_quote; chr_cr; chr_lf]
  | _ => join [chr_comma] (map write_field row) ++ [chr_cr; chr_lf]
  end.
