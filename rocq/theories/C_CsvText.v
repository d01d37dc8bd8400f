(** C77: from the bytes of a CSV file to the rows of its table *)
From Coq Require Import Ascii String List NArith ZArith Bool Lia.
From Verif Require Import PyBase PyStr M_Components M_Ahb M_Schema M_CsvReader M_JsonText M_CsvText.
From Verif Require Import S_Text S_FlatAhb S_ValuePool S_Csv S_JsonText S_CsvText L_Base L_Csv L_JsonFile L_CsvText C_Csv C_JsonText.
Import ListNotations.
Local Open Scope list_scope.

(** the rows of a text: those of the grammar, if no cell is too long *)
Theorem C77_rows delimiter limit rows t : sane delimiter -> ~ In 13%N t ->
  reader_rows delimiter limit parse_reset (file_lines t) = (rows, None)
  <-> table_text delimiter rows t /\ Forall (short_row limit) rows.
Proof.
  intros Sa N. rewrite reader_top. split.
  - intros H. destruct (table_total delimiter _ t (le_n _) N) as (rows' & T).
    destruct (table_outcome delimiter limit Sa rows' t T) as [[F E]|(a & l & b & _ & _ & _ & E)]; rewrite E in H; [|discriminate].
    injection H as ->. split; [exact T|now apply rows_short].
  - intros [T F]. destruct (table_outcome delimiter limit Sa rows t T) as [[_ E]|(a & l & b & -> & _ & Fl & _)]; [exact E|exfalso].
    apply Forall_app in F as [_ F]. inversion F as [|? ? F1 _]; subst. apply row_long in Fl. contradiction.
Qed.
(** otherwise the rows in front of the one with the first cell that is too long *)
Theorem C77_rows_before_the_error delimiter limit rows e t : sane delimiter -> ~ In 13%N t ->
  reader_rows delimiter limit parse_reset (file_lines t) = (rows, Some e)
  <-> e = CsvError /\ exists row rest, table_text delimiter (rows ++ row :: rest) t /\ Forall (short_row limit) rows /\ ~ short_row limit row.
Proof.
  intros Sa N. rewrite reader_top. split.
  - intros H. destruct (table_total delimiter _ t (le_n _) N) as (rows' & T).
    destruct (table_outcome delimiter limit Sa rows' t T) as [[_ E]|(a & l & b & -> & F & Fl & E)]; rewrite E in H; [discriminate|].
    injection H as -> <-. split; [reflexivity|]. exists l, b. split; [exact T|]. split; [now apply rows_short|now apply row_long].
  - intros (-> & row & rest & T & F & Fl). destruct (table_outcome delimiter limit Sa _ t T) as [[F' E]|(a & l & b & Er & F' & Fl' & E)].
    + exfalso. apply rows_short in F'. apply Forall_app in F' as [_ F']. inversion F' as [|? ? F1 _]; subst. contradiction.
    + rewrite E. f_equal. apply rows_short in F'. apply row_long in Fl'. clear - F Fl F' Fl' Er. revert a F' Er.
      induction F as [|r rows Hr _ IH]; intros a F' Er; destruct F' as [|r' a Hr' F']; cbn [app] in Er.
      * reflexivity.
      * injection Er as <- _. contradiction.
      * injection Er as <- _. contradiction.
      * injection Er as <- Er. f_equal. now apply IH.
Qed.
(** every text is a table, and it is so in one way *)
Theorem C77_every_text_is_a_table delimiter t : sane delimiter -> ~ In 13%N t ->
  exists rows, table_text delimiter rows t /\ forall rows', table_text delimiter rows' t -> rows' = rows.
Proof.
  intros Sa N. destruct (table_total delimiter _ t (le_n _) N) as (rows & T). exists rows. split; [exact T|].
  intros rows' T'. eapply table_unique; eassumption.
Qed.
(** tables whose cells have been written with quotes around them are read back, whatever is in the cells *)
Theorem C77_round_trip delimiter limit rows : sane delimiter -> Forall (fun l => l <> []) rows -> Forall (short_row limit) rows ->
  ~ In 13%N (quoted_table delimiter rows) ->
  reader_rows delimiter limit parse_reset (file_lines (quoted_table delimiter rows)) = (rows, None).
Proof. intros Sa Ne F N. apply C77_rows; [exact Sa|exact N|]. split; [now apply quoted_table_text|exact F]. Qed.
(** the dict of a row *)
Theorem C77_columns names cells r : dict_row names cells = r <-> row_as_dict names cells r.
Proof. split; [intros <-; apply dict_row_spec|]. intros H. eapply row_as_dict_unique; [apply dict_row_spec|exact H]. Qed.
Print Assumptions C77_rows.
Print Assumptions C77_rows_before_the_error.
Print Assumptions C77_every_text_is_a_table.
Print Assumptions C77_round_trip.
Print Assumptions C77_columns.

(** the table that is in a file *)
Definition table_in (decode : list N -> result pystr) (delimiter : char) (file : list N) (rows : list (list pystr)) : Prop :=
  exists s t, decode file = Ok s /\ line_feeds s t /\ table_text delimiter rows t.

Lemma read_table decode delimiter limit given guids file rows : sane delimiter -> table_in decode delimiter file rows ->
  read_csv_file delimiter limit decode given guids file
  = match rows with
    | [] => let* _ := get_raw_rows given None in new_FlatAhbCsvReader given guids None []
    | header :: rest =>
        if row_fits limit header then
          let* _ := get_raw_rows given (Some header) in
          if forallb (row_fits limit) rest then new_FlatAhbCsvReader given guids (Some header) (dict_rows rows) else Raise CsvError
        else Raise CsvError
    end.
Proof.
  intros Sa (s & t & D & L & T). unfold read_csv_file. rewrite D. cbn [bind]. apply newlines_spec in L as ->. rewrite reader_top.
  destruct (table_outcome delimiter limit Sa rows t T) as [[F E]|(a & l & b & -> & F & Fl & E)]; rewrite E; cbn [fst snd].
  - destruct rows as [|header rest]; [reflexivity|]. inversion F as [|? ? F1 F2]; subst. rewrite F1. cbn [fieldnames bind].
    assert (K : forallb (row_fits limit) rest = true) by (apply forallb_forall; now apply Forall_forall). now rewrite K.
  - destruct a as [|header a]; cbn [app fieldnames bind]; [now rewrite Fl|]. inversion F as [|? ? F1 F2]; subst. rewrite F1.
    assert (K : forallb (row_fits limit) (a ++ l :: b) = false) by (rewrite forallb_app; cbn [forallb]; rewrite Fl; apply andb_false_r).
    now rewrite K.
Qed.
Lemma forallb_short limit rows : forallb (row_fits limit) rows = true <-> Forall (short_row limit) rows.
Proof. rewrite <- rows_short, forallb_forall, Forall_forall. reflexivity. Qed.
Lemma decode_table decode delimiter file s : sane delimiter -> decode file = Ok s -> exists rows, table_in decode delimiter file rows.
Proof.
  intros Sa D. pose proof (proj1 (newlines_spec s _) eq_refl) as L. destruct (table_total delimiter _ _ (le_n _) (feeds_no_cr _ _ L)) as (rows & T).
  exists rows, s, (universal_newlines s). auto.
Qed.
Lemma table_in_unique decode delimiter file rows rows' : sane delimiter ->
  table_in decode delimiter file rows -> table_in decode delimiter file rows' -> rows = rows'.
Proof.
  intros Sa (s & t & D & L & T) (s' & t' & D' & L' & T'). assert (s' = s) by congruence. subst s'.
  apply newlines_spec in L. apply newlines_spec in L'. rewrite L in L'. rewrite <- L' in T'. exact (table_unique delimiter rows rows' t Sa T T').
Qed.

(** which reader comes out of a file *)
Theorem C77_files decode delimiter limit given guids file reader : sane delimiter ->
  read_csv_file delimiter limit decode given guids file = Ok reader
  <-> exists rows names raw, table_in decode delimiter file rows /\ Forall (short_row limit) rows
      /\ table_of rows names raw /\ new_FlatAhbCsvReader given guids names raw = Ok reader.
Proof.
  intros Sa. split.
  - intros H. destruct (decode file) as [s|e] eqn:D; [|unfold read_csv_file in H; rewrite D in H; discriminate].
    destruct (decode_table decode delimiter file s Sa D) as (rows & T). rewrite (read_table _ _ limit given guids _ _ Sa T) in H.
    exists rows, (hd_error rows), (dict_rows rows). split; [exact T|]. destruct rows as [|header rest].
    + apply bind_ok in H as (p & _ & H). split; [constructor|]. split; [now apply table_of_spec|exact H].
    + destruct (row_fits limit header) eqn:F1; [|discriminate]. apply bind_ok in H as (p & _ & H).
      destruct (forallb (row_fits limit) rest) eqn:F2; [|discriminate]. split; [constructor; [now apply row_fits_short|now apply forallb_short]|].
      split; [now apply table_of_spec|exact H].
  - intros (rows & names & raw & T & F & O & H). rewrite (read_table _ _ limit given guids _ _ Sa T). apply table_of_spec in O as [-> ->].
    assert (G : exists p, get_raw_rows given (hd_error rows) = Ok p) by (unfold new_FlatAhbCsvReader in H; apply bind_ok in H as (p & G & _); eauto).
    destruct G as (p & G). destruct rows as [|header rest]; cbn [hd_error] in *; rewrite G; cbn [bind]; [exact H|].
    inversion F as [|? ? F1 F2]; subst. apply row_fits_short in F1. apply forallb_short in F2. rewrite F1, F2. exact H.
Qed.
(** when a cell is too long *)
Theorem C77_too_long_cells delimiter limit given guids file : sane delimiter ->
  read_csv_file delimiter limit decode_utf8 given guids file = Raise CsvError
  <-> exists header rest, table_in decode_utf8 delimiter file (header :: rest)
      /\ (~ short_row limit header \/ (exists p, expression_column given (Some header) p) /\ ~ Forall (short_row limit) rest).
Proof.
  intros Sa. split.
  - intros H. destruct (decode_utf8 file) as [s|e] eqn:D.
    + destruct (decode_table decode_utf8 delimiter file s Sa D) as (rows & T). rewrite (read_table _ _ limit given guids _ _ Sa T) in H.
      destruct rows as [|header rest].
      * exfalso. destruct (get_raw_rows given None) as [p|e] eqn:G; cbn [bind] in H.
        -- apply C50_exceptions in H as [H|[H|H]]; discriminate.
        -- unfold get_raw_rows in G. injection H as ->. destruct (if otruthy given then _ else _) as [x|]; [destruct (truthy x)|]; discriminate.
      * exists header, rest. split; [exact T|]. destruct (row_fits limit header) eqn:F1; [|left; now apply row_long].
        right. destruct (get_raw_rows given (Some header)) as [p|e] eqn:G; cbn [bind] in H.
        -- split; [exists p; now apply C52_expression_column|]. destruct (forallb (row_fits limit) rest) eqn:F2.
           ++ apply C50_exceptions in H as [H|[H|H]]; discriminate.
           ++ intros F. apply forallb_short in F. congruence.
        -- exfalso. unfold get_raw_rows in G. injection H as ->. destruct (if otruthy given then _ else _) as [x|]; [destruct (truthy x)|]; discriminate.
    + exfalso. unfold read_csv_file in H. rewrite D in H. cbn [bind] in H. injection H as ->. apply (decode_raises _ _ (le_n _)) in D. discriminate.
  - intros (header & rest & T & H). rewrite (read_table _ _ limit given guids _ _ Sa T). destruct (row_fits limit header) eqn:F1; [|reflexivity].
    destruct H as [H|((p & G) & H)]; [apply row_long in H; congruence|]. apply C52_expression_column in G. rewrite G. cbn [bind].
    destruct (forallb (row_fits limit) rest) eqn:F2; [|reflexivity]. apply forallb_short in F2. contradiction.
Qed.
Theorem C77_exceptions delimiter limit given guids file e : sane delimiter ->
  read_csv_file delimiter limit decode_utf8 given guids file = Raise e -> e = CsvError \/ e = KeyError \/ e = TypeError \/ e = ValueError.
Proof.
  intros Sa H. destruct (decode_utf8 file) as [s|e'] eqn:D.
  - destruct (decode_table decode_utf8 delimiter file s Sa D) as (rows & T). rewrite (read_table _ _ limit given guids _ _ Sa T) in H.
    assert (G : forall names e, get_raw_rows given names = Raise e -> e = ValueError).
    { clear. intros names e G. unfold get_raw_rows in G. destruct (if otruthy given then _ else _) as [x|]; [destruct (truthy x); [discriminate|]|]; congruence. }
    destruct rows as [|header rest].
    + destruct (get_raw_rows given None) eqn:E; cbn [bind] in H; [right; eapply C50_exceptions, H|]. injection H as ->. apply G in E. auto.
    + destruct (row_fits limit header); [|injection H as <-; auto].
      destruct (get_raw_rows given (Some header)) eqn:E; cbn [bind] in H; [|injection H as ->; apply G in E; auto].
      destruct (forallb _ rest); [right; eapply C50_exceptions, H|injection H as <-; auto].
  - unfold read_csv_file in H. rewrite D in H. cbn [bind] in H. injection H as ->. apply (decode_raises _ _ (le_n _)) in D. auto.
Qed.
(** which files pass the check for CSV files *)
Theorem C77_accepted_files limit guids file :
  check_file_can_be_parsed_as_ahb_csv limit guids file = Ok tt
  <-> exists s t rows names raw p merged_rows,
        utf8_text s file /\ line_feeds s t /\ table_text (ch ",") rows t /\ Forall (short_row limit) rows /\ table_of rows names raw
        /\ expression_column None names p /\ merged raw merged_rows /\ Forall (readable_row p) merged_rows.
Proof.
  assert (Sa : sane (ch ",")) by (intros [H|[H|[H|[]]]]; discriminate).
  unfold check_file_can_be_parsed_as_ahb_csv. split.
  - intros H. apply bind_ok in H as (rd & H & _). apply C77_files in H as (rows & names & raw & (s & t & D & L & T) & F & O & H); [|exact Sa].
    destruct (proj1 (C50_readable_files None guids names raw) (ex_intro _ rd H)) as (p & m & E & M & R).
    exists s, t, rows, names, raw, p, m. apply C73_decoding in D. auto 10.
  - intros (s & t & rows & names & raw & p & m & D & L & T & F & O & E & M & R). apply C73_decoding in D.
    destruct (proj2 (C50_readable_files None guids names raw)) as (rd & H); [eauto 6|].
    assert (H' : read_csv_file (ch ",") limit decode_utf8 None guids file = Ok rd).
    { apply C77_files; [exact Sa|]. exists rows, names, raw. split; [exists s, t; auto|auto]. }
    rewrite H'. reflexivity.
Qed.
Print Assumptions C77_files.
Print Assumptions C77_too_long_cells.
Print Assumptions C77_exceptions.
Print Assumptions C77_accepted_files.

(** a file with headings, quotes, an empty line, CRLF as line end and a row that is too short *)
Definition ex_crlf : pystr := [13; 10]%N.
Definition ex_csv_header : pystr := u ",Segment Gruppe,Segment,Datenelement,Codes und Qualifier,Beschreibung,11042,Bedingung" ++ ex_crlf.
Definition ex_csv_text : pystr :=
  ex_csv_header
  ++ u "0,Nachrichten-Kopfsegment,,,,,," ++ ex_crlf ++ ex_crlf
  ++ u "1,,UNH,,,,Muss," ++ ex_crlf
  ++ u "2,,UNH,""0062"",""Nachrichten-"" Referenznummer,,X,""[1] Wenn """"a, b"""" " ++ ex_crlf ++ u "ist""" ++ ex_crlf.
Definition ex_bytes (s : pystr) : list N := match encode_utf8 s with Ok b => b | Raise _ => [] end.
Example C77_instance : exists st a b,
  read_csv_file (ch ",") 131072 decode_utf8 None N.of_nat (ex_bytes ex_csv_text) = Ok (u "11042", st)
  /\ rd_rows st = [a; b] /\ al_section b = Some (u "Nachrichten-Kopfsegment") /\ al_element b = Some (u "0062")
  /\ al_name b = Some (u "Nachrichten- Referenznummer") /\ rd_bedingungen st = [(u "1", u "Wenn ""a, b"" " ++ [10%N] ++ u "ist")]
  /\ read_csv_file (ch ",") 22 decode_utf8 None N.of_nat (ex_bytes ex_csv_text) = Raise CsvError
  /\ check_file_can_be_parsed_as_ahb_csv 131072 N.of_nat (ex_bytes ex_csv_text) = Ok tt.
Proof. do 3 eexists. split; [vm_compute; reflexivity|]. repeat split; vm_compute; reflexivity. Qed.
Example C77_round_trip_instance :
  let rows := [[u "a,b"; u """"; []]; [u "x" ++ [10%N]]] in
  Forall (fun l => l <> []) rows /\ Forall (short_row 131072) rows /\ ~ In 13%N (quoted_table (ch ",") rows)
  /\ quoted_table (ch ",") rows = u """a,b"","""""""",""""" ++ [10%N] ++ u """x" ++ [10%N] ++ u """" ++ [10%N].
Proof.
  split; [repeat constructor; discriminate|]. split; [repeat constructor; vm_compute; discriminate|].
  split; [|reflexivity]. intros H. vm_compute in H. repeat (destruct H as [H|H]; [discriminate|]). exact H.
Qed.

(** a byte order mark, which many spreadsheets write, becomes part of the name of the first column: the rest of the file
    can be fine, but reading it fails with a KeyError *)
Theorem C77_byte_order_mark_refuted : exists file limit guids,
  check_file_can_be_parsed_as_ahb_csv limit guids file = Ok tt
  /\ check_file_can_be_parsed_as_ahb_csv limit guids ([239; 187; 191]%N ++ file) = Raise KeyError.
Proof. exists (ex_bytes ex_csv_text), 131072%N, N.of_nat. split; vm_compute; reflexivity. Qed.
(** a missing quote is no error: all the rest of the file becomes part of one cell *)
Theorem C77_missing_quotes delimiter limit rest : sane delimiter -> ~ In 13%N rest -> ~ In (ch """") rest ->
  (N.of_nat (List.length rest) <= limit)%N ->
  reader_rows delimiter limit parse_reset (file_lines (u """" ++ rest)) = ([[rest]], None).
Proof.
  intros Sa N Q F. apply C77_rows; [exact Sa|intros [H|H]; [discriminate|contradiction]|]. split; [|repeat constructor; exact F].
  apply unfinished_row. assert (D : doubled rest = rest).
  { clear - Q. induction rest as [|c r IH]; [reflexivity|]. rewrite doubled_cons. destruct (N.eqb_spec c 34) as [-> |N]; [exfalso; apply Q; now left|].
    cbn [app]. f_equal. apply IH. intros H. apply Q. now right. }
  rewrite <- D at 2. apply open_cell.
Qed.
Theorem C77_missing_quote_refuted : exists lines more,
  (forall guids, check_file_can_be_parsed_as_ahb_csv 131072 guids (ex_bytes (lines ++ more)) = Ok tt)
  /\ (exists st, read_csv_file (ch ",") 131072 decode_utf8 None N.of_nat (ex_bytes (lines ++ more)) = Ok (u "11042", st) /\ List.length (rd_rows st) = 1%nat)
  /\ exists st, read_csv_file (ch ",") 131072 decode_utf8 None N.of_nat (ex_bytes (lines ++ u """" ++ more)) = Ok (u "11042", st) /\ List.length (rd_rows st) = 2%nat.
Proof.
  exists (ex_csv_header ++ u "1,,UNH,,,,Muss,""a"), (ex_crlf ++ u "2,,UNH,0062,,,X," ++ ex_crlf). split; [intros guids; vm_compute; reflexivity|].
  split; eexists; (split; [vm_compute; reflexivity|reflexivity]).
Qed.
Print Assumptions C77_byte_order_mark_refuted.
Print Assumptions C77_missing_quotes.
Print Assumptions C77_missing_quote_refuted.
