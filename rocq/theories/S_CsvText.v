(** The grammar of CSV files, as the csv module reads them (RFC 4180, but more tolerant), and the rows of their tables. *)
From Coq Require Import Ascii String List NArith ZArith Bool.
From Verif Require Import PyBase PyStr M_CsvReader S_FlatAhb S_Csv.
Import ListNotations.
Local Open Scope list_scope.

Section Csv.
  (** the delimiter; it is neither a quote nor a line end *)
  Variable delimiter : char.
  Definition sane : Prop := ~ In delimiter [34; 10; 13]%N.

  (** what can be part of a cell without quotes *)
  Definition bare_char (c : char) : Prop := c <> delimiter /\ c <> 10%N /\ c <> 13%N.
  Definition bare (s : pystr) : Prop := Forall bare_char s /\ forall r, s <> ch """" :: r.
  (** [s] with all quotes doubled *)
  Definition doubled (s : pystr) : pystr := flat_map (fun c => if N.eqb c (ch """") then u """""" else [c]) s.
  (** a cell and its text: without quotes, or in quotes, possibly followed by more text without quotes *)
  Inductive cell_text : pystr -> pystr -> Prop :=
  | bare_cell s : bare s -> cell_text s s
  | quoted_cell s rest : bare rest -> cell_text (s ++ rest) (u """" ++ doubled s ++ u """" ++ rest).
  (** one or more cells with delimiters in between *)
  Inductive cells_text : list pystr -> pystr -> Prop :=
  | one_cell s t : cell_text s t -> cells_text [s] t
  | more_cells s t l t' : cell_text s t -> cells_text l t' -> cells_text (s :: l) (t ++ [delimiter] ++ t').
  (** a row without its line end: an empty line is a row without cells *)
  Inductive row_text : list pystr -> pystr -> Prop :=
  | empty_row : row_text [] []
  | some_cells l t : cells_text l t -> t <> [] -> row_text l t.
  (** cells the last one of which has no closing quote *)
  Inductive open_text : list pystr -> pystr -> Prop :=
  | open_cell s : open_text [s] (u """" ++ doubled s)
  | open_later s t l t' : cell_text s t -> open_text l t' -> open_text (s :: l) (t ++ [delimiter] ++ t').
  (** all rows of a file; the last line feed may be missing, and so may the last quote *)
  Inductive table_text : list (list pystr) -> pystr -> Prop :=
  | no_rows : table_text [] []
  | next_row l t rows t' : row_text l t -> table_text rows t' -> table_text (l :: rows) (t ++ [10%N] ++ t')
  | last_row l t : row_text l t -> t <> [] -> table_text [l] t
  | unfinished_row l t : open_text l t -> table_text [l] t.

  (** rows written with quotes around every cell *)
  Definition in_quotes (s : pystr) : pystr := u """" ++ doubled s ++ u """".
  Fixpoint quoted_row (l : list pystr) : pystr :=
    match l with [] => [] | [s] => in_quotes s | s :: r => in_quotes s ++ [delimiter] ++ quoted_row r end.
  Definition quoted_table (rows : list (list pystr)) : pystr := flat_map (fun l => quoted_row l ++ [10%N]) rows.
End Csv.

(** no cell of the row is longer than the limit of the csv module *)
Definition short_row (limit : N) (l : list pystr) : Prop := Forall (fun s => N.of_nat (List.length s) <= limit)%N l.

(** the row as a dict: its keys are the names; the value of a column is the cell at the last position with this name, if
    the row is that long *)
Definition row_as_dict (names cells : list pystr) (r : row) : Prop :=
  first_occurrences names (map fst r)
  /\ forall key v, has r key v <-> exists l1 l2, names = l1 ++ key :: l2 /\ ~ In key l2 /\ v = nth_error cells (List.length l1).
(** the rows below the header, without empty lines, as dicts *)
Inductive dicts_of (names : list pystr) : list (list pystr) -> list row -> Prop :=
| dicts_end : dicts_of names [] []
| dicts_skip rows out : dicts_of names rows out -> dicts_of names ([] :: rows) out
| dicts_row cells r rows out : cells <> [] -> row_as_dict names cells r -> dicts_of names rows out -> dicts_of names (cells :: rows) (r :: out).
(** the header and the rows of a table *)
Inductive table_of : list (list pystr) -> option (list pystr) -> list row -> Prop :=
| empty_table : table_of [] None []
| table_with_header names rows out : dicts_of names rows out -> table_of (names :: rows) (Some names) out.
