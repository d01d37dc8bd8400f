(** Model of src/maus/reader/flat_ahb_reader.py.

    Not modelled: opening and decoding the file and the csv module; the reader is
    given the field names and the rows that csv.DictReader yields.  A row maps column
    names to texts; the value is None if the line of the file was too short.  (Surplus
    cells are stored by csv under the key None, which is never looked at.) *)
From Coq Require Import Ascii String List NArith ZArith Bool.
From Verif Require Import PyBase PyStr PyRe M_Components M_Ahb M_Schema.
Import ListNotations.
Local Open Scope list_scope.

(** flat_ahb_reader.py:134-144 a row of csv.DictReader *)
Definition row := list (pystr * option pystr).
(** flat_ahb_reader.py:152-170 [row[key]] *)
Definition cell (r : row) (key : pystr) : result (option pystr) :=
  match dict_get key r with Some v => Ok v | None => Raise KeyError end.

(** ** regular expressions *)

(** flat_ahb_reader.py:16 [_pruefi_pattern] ^\d{5}$ *)
Definition re_pruefi : re := re_digits 5.
(** flat_ahb_reader.py:17 [_value_pool_entry_pattern] ^(?!MP-ID)[A-Z0-9\-i]{2,}$ *)
Definition is_entry_char (c : char) : bool := is_AZ c || is_09 c || N.eqb c chr_dash || N.eqb c (ch "i").
(** flat_ahb_reader.py:17 *)
Definition re_value_pool_entry : re :=
  RSeq RBol (RSeq (RNot (RLit (u "MP-ID")))
    (RSeq (RChar is_entry_char) (RSeq (RPlus (RChar is_entry_char)) REol))).
(** flat_ahb_reader.py:18 [_numeric_value_pool_entry_pattern] ^\d+(?:\.\d+)?[a-z]?$ *)
Definition re_numeric_entry : re :=
  RSeq RBol (RSeq (RPlus (RChar is_decimal))
    (RSeq (ROpt (RSeq (RChar (N.eqb (ch "."))) (RPlus (RChar is_decimal))))
      (RSeq (ROpt (RChar is_az)) REol))).
(** flat_ahb_reader.py:19 [_ebd_code_pattern] ^([EG])_\d+$ *)
Definition re_ebd_code : re :=
  RSeq RBol (RSeq (RCap 1 (RChar (fun c => N.eqb c (ch "E") || N.eqb c (ch "G"))))
    (RSeq (RChar (N.eqb (ch "_"))) (RSeq (RPlus (RChar is_decimal)) REol))).
(** flat_ahb_reader.py:232 [_bedingung_pattern] \[(?P<key>\d+)\]\s*(?P<text>[^\[\]]+)\s*
    group 1 = key, group 2 = text *)
Definition re_bedingung : re :=
  RSeq (RLit [chr_lbracket])
    (RSeq (RCap 1 (RPlus (RChar is_decimal)))
      (RSeq (RLit [chr_rbracket])
        (RSeq (RStar true (RChar is_space))
          (RSeq (RCap 2 (RPlus (RChar not_bracket)))
            (RStar true (RChar is_space)))))).

(** ** static methods *)

(** flat_ahb_reader.py:89-95 *)
Definition keys_that_must_not_hold_any_values : list pystr :=
  [u "Segment"; u "Datenelement"; u "Codes und Qualifier"; u "Beschreibung"; u "Bedingung"].

(** flat_ahb_reader.py:97-104 [line_only_contains_segment_gruppe] *)
Definition line_only_contains_segment_gruppe (raw_line : row) : bool :=
  forallb (fun key => match dict_get key raw_line with
                      | Some (Some v) => Nat.eqb (List.length (strip v)) 0
                      | _ => true
                      end) keys_that_must_not_hold_any_values.

(** flat_ahb_reader.py:109-114 the condition; Some text: the row is a section heading *)
Definition heading_text (raw_line : row) : option pystr :=
  match dict_get (u "Segment Gruppe") raw_line with
  | Some (Some v) =>
      if truthy v && line_only_contains_segment_gruppe raw_line && negb (startswith v (u "SG"))
      then Some v else None
  | _ => None
  end.

(** flat_ahb_reader.py:121 [str(int(raw_line[""]) - 1)] *)
Definition previous_index (raw_line : row) : result pystr :=
  let* v := cell raw_line [] in
  match v with
  | None => Raise TypeError
  | Some s => match py_int 10 s with Some i => Ok (str_of_Z (i - 1)) | None => Raise ValueError end
  end.

(** flat_ahb_reader.py:120-127 the artificial row *)
Definition merged_row (index merged_section_name : pystr) : row :=
  ([], Some index)
  :: (u "Segment Gruppe", Some (replace (strip merged_section_name) (u "  ") (u " ")))
  :: map (fun key => (key, Some [])) keys_that_must_not_hold_any_values.

(** flat_ahb_reader.py:106-132 the loop; [merged_section_name] is the loop-carried text *)
Fixpoint merge_loop (merged_section_name : pystr) (raw_lines : list row) : result (list row) :=
  match raw_lines with
  | [] => Ok []
  | raw_line :: rest =>
      match heading_text raw_line with
      | Some v => merge_loop (merged_section_name ++ u " " ++ v) rest
      | None =>
          if Nat.ltb 0 (List.length merged_section_name) then
            let* index := previous_index raw_line in
            let* r := merge_loop [] rest in
            Ok (merged_row index merged_section_name :: raw_line :: r)
          else
            let* r := merge_loop [] rest in
            Ok (raw_line :: r)
      end
  end.

(** flat_ahb_reader.py:70-132 [merge_section_only_lines] *)
Definition merge_section_only_lines (raw_lines : list row) : result (list row) := merge_loop [] raw_lines.

(** flat_ahb_reader.py:204-221 [_is_value_pool_entry] *)
Definition is_value_pool_entry (candidate : option pystr) : bool :=
  match candidate with
  | None => false
  | Some s =>
      if negb (truthy s) then false
      else if matches re_value_pool_entry s then true
      else if matches re_numeric_entry s then true
      else if (match s with [c] => upper_is_self c | _ => false end) then true
      else if matches re_gabi_qualifier s then true
      else matches re_ebd_code s
  end.

(** flat_ahb_reader.py:184-202 [separate_value_pool_entry_and_name] *)
Definition separate_value_pool_entry_and_name (x y : option pystr) : option pystr * option pystr :=
  let x := option_map strip x in
  let y := option_map strip y in
  if is_value_pool_entry x && negb (is_value_pool_entry y) then (x, or_none y)
  else if is_value_pool_entry x && is_value_pool_entry y then (x, y)
  else (or_none y, or_none x).

(** flat_ahb_reader.py:223-230 [_is_segment_group]: it uses the pattern of value pool entries *)
Definition is_segment_group (candidate : option pystr) : bool :=
  match candidate with
  | None => false
  | Some s => if negb (truthy s) then false else matches re_value_pool_entry s
  end.

(** flat_ahb_reader.py:234-244 [_extract_bedingungen]; the dict is a list without duplicate keys *)
Definition extract_bedingungen (candidate : option pystr) : list (pystr * pystr) :=
  match candidate with
  | None => []
  | Some s =>
      if negb (truthy s) then []
      else
        let text (m : rst) n := match group n m with Some g => g | None => [] end in
        fold_left (fun d m => dict_set (text m 1) (strip (text m 2)) d) (finditer re_bedingung s) []
  end.

(** flat_ahb_reader.py:246-260 [_get_name_of_expression_column] *)
Definition get_name_of_expression_column (field_names : option (list pystr)) : option pystr :=
  match field_names with
  | None => None
  | Some names => find (matches re_pruefi) names
  end.

(** flat_ahb_reader.py:284-302 [_replace_hardcoded_section_names] *)
Definition hardcoded_replacements : list (pystr * pystr) :=
  [(u "OBIS-Kennzahl der Zähleinrichtung / Mengenumwerter / Smartmeter-Gateway",
    u "OBIS-Kennzahl der Zähleinrichtung / Mengenumwerter");
   (u "OBIS-Daten der Zähleinrichtung / Mengenumwerter / Smartmeter-Gateway",
    u "OBIS-Daten der Zähleinrichtung / Mengenumwerter");
   (u "OBIS Daten für Lieferant relevant", u "OBIS Daten für Marktrolle relevant")].
(** flat_ahb_reader.py:284-302 *)
Definition replace_hardcoded_section_names (section_name : option pystr) : result (option pystr) :=
  match section_name with
  | None => Ok None
  | Some s =>
      if negb (truthy s) then Ok section_name
      else if str_in (strip s) (map fst hardcoded_replacements) then
        match dict_get s hardcoded_replacements with Some r => Ok (Some r) | None => Raise KeyError end
      else Ok section_name
  end.

(** ** the reader *)

(** flat_ahb_reader.py:134-144 [get_raw_rows]: the name of the expression column, if the
    rows can be read at all.  [pruefidentifikator] is the argument of __init__. *)
Definition get_raw_rows (pruefidentifikator : option pystr) (field_names : option (list pystr)) : result pystr :=
  let p := if otruthy pruefidentifikator then pruefidentifikator else get_name_of_expression_column field_names in
  match p with
  | Some s => if truthy s then Ok s else Raise ValueError
  | None => Raise ValueError
  end.

(** flat_ahb_reader.py:52-58 the attributes of the reader that change while reading *)
Record Reader := mkReader {
  rd_section : option pystr;               (* current_section_name *)
  rd_bedingungen : list (pystr * pystr);
  rd_rows : list AhbLine
}.

(** flat_ahb_reader.py:146-174 [raw_ahb_row_to_ahbline]: the new section name, the conditions and
    the line (None: the row is skipped).  [guid] is what uuid.uuid4() returns. *)
Definition raw_ahb_row_to_ahbline (pruefidentifikator : pystr) (guid : N) (section : option pystr)
           (bedingungen : list (pystr * pystr)) (ahb_row : row)
  : result (option pystr * list (pystr * pystr) * option AhbLine) :=
  let* codes := cell ahb_row (u "Codes und Qualifier") in
  let* beschreibung := cell ahb_row (u "Beschreibung") in
  let (value_pool_entry, description) := separate_value_pool_entry_and_name codes beschreibung in
  let* bedingung := cell ahb_row (u "Bedingung") in
  let bedingungen := dict_update bedingungen (extract_bedingungen bedingung) in
  let* gruppe := cell ahb_row (u "Segment Gruppe") in
  let line (segment_group : option pystr) :=
    let* segment := cell ahb_row (u "Segment") in
    let* data_element := cell ahb_row (u "Datenelement") in
    let* expression := cell ahb_row pruefidentifikator in
    let* section_name := replace_hardcoded_section_names section in
    let* l := new_AhbLine (mkLine (Some guid) segment_group (or_none segment) (or_none data_element) None
                                  value_pool_entry description (or_none expression) None section_name None) in
    Ok (section, bedingungen, Some l) in
  if is_segment_group gruppe then line gruppe
  else match gruppe with
       | None => Raise TypeError (* len(None) *)
       | Some g => if Nat.leb 3 (List.length g) then Ok (or_none (Some (strip g)), bedingungen, None) else line None
       end.

(** flat_ahb_reader.py:67 [ahb_line.index = row_index]; the validator of index runs *)
Definition set_index (l : AhbLine) (i : nat) : AhbLine :=
  mkLine (al_guid l) (al_group l) (al_segment l) (al_element l) (al_segment_id l) (al_entry l) (al_name l)
         (al_expression l) (al_conditions l) (al_section l) (Some (Z.of_nat i)).

(** flat_ahb_reader.py:63-68 the loop of [__init__]; [guids n]: the UUID made for the n-th row *)
Fixpoint read_rows (pruefidentifikator : pystr) (guids : nat -> N) (row_index : nat) (st : Reader) (rows : list row)
  : result Reader :=
  match rows with
  | [] => Ok st
  | row :: rest =>
      let* (section, bedingungen, ahb_line) :=
        raw_ahb_row_to_ahbline pruefidentifikator (guids row_index) (rd_section st) (rd_bedingungen st) row in
      let lines := match ahb_line with None => rd_rows st | Some l => rd_rows st ++ [set_index l row_index] end in
      read_rows pruefidentifikator guids (S row_index) (mkReader section bedingungen lines) rest
  end.

(** flat_ahb_reader.py:52-68 [FlatAhbCsvReader.__init__]: the name of the expression column and the
    attributes afterwards *)
Definition new_FlatAhbCsvReader (pruefidentifikator : option pystr) (guids : nat -> N)
           (field_names : option (list pystr)) (raw_lines : list row) : result (pystr * Reader) :=
  let* p := get_raw_rows pruefidentifikator field_names in
  let* merged := merge_section_only_lines raw_lines in
  let* st := read_rows p guids 0 (mkReader None [] []) merged in
  Ok (p, st).

(** flat_ahb_reader.py:262-273 [to_flat_ahb] *)
Definition reader_to_flat_ahb (reader : pystr * Reader) : result FlatAhb :=
  let* meta := new_Meta (mkMeta (fst reader) (Some maus_VERSION) None None) in
  new_FlatAhb meta (filter holds_any_information (rd_rows (snd reader))).

(** flat_ahb_reader.py:176-182 [extract_condition_texts] *)
Definition extract_condition_texts (reader : pystr * Reader) : list (pystr * pystr) := rd_bedingungen (snd reader).
