(** Model of the csv module of CPython 3.11 (Modules/_csv.c and Lib/csv.py) as it is used by
    src/maus/reader/flat_ahb_reader.py:59-62 and 134-144, and of FlatAhbCsvReader on whole files.

    The dialect is the default one ("excel"): quotechar is the double quote, doublequote is True, there is no
    escapechar, strict and skipinitialspace are False; the delimiter is a parameter.  Simplification: the whole
    file is decoded before the first line is looked at (Python decodes chunk by chunk; the difference is which of
    two exceptions is raised if a file contains both bytes that cannot be decoded and a cell that is too long). *)
From Coq Require Import Ascii String List NArith ZArith Bool.
From Verif Require Import PyBase PyStr M_Components M_Ahb M_Schema M_CsvReader M_JsonText.
Import ListNotations.
Local Open Scope list_scope.

(** flat_ahb_reader.py:134-144 Modules/_csv.c ParserState; there is no escapechar, hence no state for escaped characters *)
Inductive csv_state := START_RECORD | START_FIELD | IN_FIELD | IN_QUOTED_FIELD | QUOTE_IN_QUOTED_FIELD | EAT_CRNL.
(** flat_ahb_reader.py:134-144 the state, the field that is being read and the fields of the current record *)
Record parser := mkParser { ps_state : csv_state; ps_field : pystr; ps_fields : list pystr }.
(** flat_ahb_reader.py:134-144 Modules/_csv.c parse_reset *)
Definition parse_reset : parser := mkParser START_RECORD [] [].

Section Csv.
  Variable delimiter : char.
  (** csv.field_size_limit(), 131072 by default *)
  Variable field_limit : N.

  (** flat_ahb_reader.py:134-144 Modules/_csv.c parse_save_field *)
  Definition parse_save_field (state : csv_state) (p : parser) : parser := mkParser state [] (ps_fields p ++ [ps_field p]).
  (** flat_ahb_reader.py:134-144 Modules/_csv.c parse_add_char *)
  Definition parse_add_char (state : csv_state) (p : parser) (c : char) : result parser :=
    if N.leb field_limit (N.of_nat (List.length (ps_field p))) then Raise CsvError
    else Ok (mkParser state (ps_field p ++ [c]) (ps_fields p)).
  (** flat_ahb_reader.py:134-144 *)
  Definition goto (state : csv_state) (p : parser) : parser := mkParser state (ps_field p) (ps_fields p).

  (** flat_ahb_reader.py:134-144 *)
  Definition is_newline (c : char) : bool := N.eqb c 10 || N.eqb c 13.
  (** flat_ahb_reader.py:134-144 Modules/_csv.c parse_process_char in the state START_FIELD; None is EOL *)
  Definition process_start_field (p : parser) (c : option char) : result parser :=
    match c with
    | None => Ok (parse_save_field START_RECORD p)
    | Some c =>
        if is_newline c then Ok (parse_save_field EAT_CRNL p)
        else if N.eqb c chr_quote then Ok (goto IN_QUOTED_FIELD p)
        else if N.eqb c delimiter then Ok (parse_save_field START_FIELD p)
        else parse_add_char IN_FIELD p c
    end.
  (** flat_ahb_reader.py:134-144 Modules/_csv.c parse_process_char *)
  Definition parse_process_char (p : parser) (c : option char) : result parser :=
    match ps_state p with
    | START_RECORD =>
        match c with
        | None => Ok p
        | Some x => if is_newline x then Ok (goto EAT_CRNL p) else process_start_field p c
        end
    | START_FIELD => process_start_field p c
    | IN_FIELD =>
        match c with
        | None => Ok (parse_save_field START_RECORD p)
        | Some c =>
            if is_newline c then Ok (parse_save_field EAT_CRNL p)
            else if N.eqb c delimiter then Ok (parse_save_field START_FIELD p)
            else parse_add_char IN_FIELD p c
        end
    | IN_QUOTED_FIELD =>
        match c with
        | None => Ok p
        | Some c => if N.eqb c chr_quote then Ok (goto QUOTE_IN_QUOTED_FIELD p) else parse_add_char IN_QUOTED_FIELD p c
        end
    | QUOTE_IN_QUOTED_FIELD =>
        match c with
        | None => Ok (parse_save_field START_RECORD p)
        | Some c =>
            if N.eqb c chr_quote then parse_add_char IN_QUOTED_FIELD p c
            else if N.eqb c delimiter then Ok (parse_save_field START_FIELD p)
            else if is_newline c then Ok (parse_save_field EAT_CRNL p)
            else parse_add_char IN_FIELD p c
        end
    | EAT_CRNL =>
        match c with
        | None => Ok (goto START_RECORD p)
        | Some c => if is_newline c then Ok p else Raise CsvError
        end
    end.
  (** flat_ahb_reader.py:134-144 Modules/_csv.c Reader_iternext: one line and EOL *)
  Fixpoint process_line (p : parser) (line : pystr) : result parser :=
    match line with
    | [] => parse_process_char p None
    | c :: r => let* p' := parse_process_char p (Some c) in process_line p' r
    end.
  (** flat_ahb_reader.py:134-144 *)
  Definition at_record_start (p : parser) : bool := match ps_state p with START_RECORD => true | _ => false end.
  (** flat_ahb_reader.py:134-144 Modules/_csv.c Reader_iternext, called again and again: the rows and the exception that ends them, if any *)
  Fixpoint reader_rows (p : parser) (lines : list pystr) : list (list pystr) * option exn :=
    match lines with
    | [] =>
        match ps_state p, ps_field p with
        | IN_QUOTED_FIELD, _ | _, _ :: _ => ([ps_fields p ++ [ps_field p]], None)
        | _, [] => ([], None)
        end
    | line :: rest =>
        match process_line p line with
        | Raise e => ([], Some e)
        | Ok p' =>
            if at_record_start p' then
              let (rows, e) := reader_rows parse_reset rest in (ps_fields p' :: rows, e)
            else reader_rows p' rest
        end
    end.

  (** flat_ahb_reader.py:59-61 the lines of a text file, with their line feeds *)
  Fixpoint file_lines (text : pystr) : list pystr :=
    match text with
    | [] => []
    | c :: r =>
        if N.eqb c 10 then [c] :: file_lines r
        else match file_lines r with [] => [[c]] | l :: ls => (c :: l) :: ls end
    end.

  (** flat_ahb_reader.py:134-144 Lib/csv.py DictReader.fieldnames *)
  Definition fieldnames (rows : list (list pystr) * option exn) : result (option (list pystr)) :=
    match rows with
    | (r :: _, _) => Ok (Some r)
    | ([], Some e) => Raise e
    | ([], None) => Ok None
    end.
  (** flat_ahb_reader.py:134-144 Lib/csv.py DictReader.__next__: a row as a dict; surplus cells are left out (see M_CsvReader.v) *)
  Definition dict_row (names cells : list pystr) : row :=
    dict_update (dict_update [] (combine names (map Some cells)))
                (map (fun key => (key, None)) (skipn (List.length cells) names)).
  (** flat_ahb_reader.py:134-144 *)
  Definition not_empty (cells : list pystr) : bool := match cells with [] => false | _ => true end.
  (** flat_ahb_reader.py:134-144 *)
  Definition dict_rows (rows : list (list pystr)) : list row :=
    match rows with
    | [] => []
    | names :: rest => map (dict_row names) (filter not_empty rest)
    end.

  (** flat_ahb_reader.py:52-68 [FlatAhbCsvReader.__init__] on the bytes of a file; [decode] belongs to the encoding *)
  Definition read_csv_file (decode : list N -> result pystr) (pruefidentifikator : option pystr) (guids : nat -> N)
             (file : list N) : result (pystr * Reader) :=
    let* text := decode file in
    let rows := reader_rows parse_reset (file_lines (universal_newlines text)) in
    let* names := fieldnames rows in
    let* _ := get_raw_rows pruefidentifikator names in
    match snd rows with
    | Some e => Raise e
    | None => new_FlatAhbCsvReader pruefidentifikator guids names (dict_rows (fst rows))
    end.
End Csv.
(** flat_ahb_reader.py:38-44 [check_file_can_be_parsed_as_ahb_csv], with the default arguments of the reader *)
Definition check_file_can_be_parsed_as_ahb_csv (field_limit : N) (guids : nat -> N) (file : list N) : result unit :=
  let* _ := read_csv_file (ch ",") field_limit decode_utf8 None guids file in Ok tt.
