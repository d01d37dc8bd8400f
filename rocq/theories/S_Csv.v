(** Specification vocabulary: reading rows of a CSV file. *)
From Coq Require Import Ascii String List NArith ZArith Bool.
From Verif Require Import PyBase PyStr M_Components M_Ahb M_Schema M_CsvReader S_Text S_Numbers S_FlatAhb S_ValuePool S_LocationXml.
Import ListNotations.
Local Open Scope list_scope.

(** the row has the column [key] with the value [v] (None: the line of the file was too short) *)
Definition has (r : row) (key : pystr) (v : option pystr) : Prop := dict_get key r = Some v.
Definition column (r : row) (key : pystr) : Prop := exists v, has r key v.
Definition other_columns : list pystr :=
  [u "Segment"; u "Datenelement"; u "Codes und Qualifier"; u "Beschreibung"; u "Bedingung"].

(** *** headings *)

(** a row that holds nothing but the text of a section heading (and possibly an expression) *)
Definition heading (r : row) (text : pystr) : Prop :=
  has r (u "Segment Gruppe") (Some text) /\ text <> [] /\ ~ (exists t, text = u "SG" ++ t)
  /\ forall key v, In key other_columns -> has r key (Some v) -> blank v.
Definition no_heading (r : row) : Prop := forall text, ~ heading r text.

(** the texts with a space in front of each *)
Definition spaced (texts : list pystr) : pystr := flat_map (fun t => u " " ++ t) texts.
(** the row that replaces the headings with the given texts in front of the row [next] *)
Definition stands_for (texts : list pystr) (next m : row) : Prop :=
  (exists s i, has next [] (Some s) /\ number_text 10 s i /\ has m [] (Some (str_of_Z (i - 1))))
  /\ (exists t t', stripped (spaced texts) t /\ replaced (u "  ") (u " ") t t' /\ has m (u "Segment Gruppe") (Some t'))
  /\ (forall key, In key other_columns -> has m key (Some []))
  /\ map fst m = [] :: u "Segment Gruppe" :: other_columns.

(** [out] is [rows] with every run of headings replaced by one row; headings at the end are dropped *)
Inductive merged : list row -> list row -> Prop :=
| merged_end hs : (forall h, In h hs -> exists t, heading h t) -> merged hs []
| merged_row_kept r rows out : no_heading r -> merged rows out -> merged (r :: rows) (r :: out)
| merged_run hs texts r rows out m :
    Forall2 heading hs texts -> hs <> [] -> no_heading r -> stands_for texts r m -> merged rows out ->
    merged (hs ++ r :: rows) (m :: r :: out).

(** [kept] are the rows that are no headings *)
Inductive without_headings : list row -> list row -> Prop :=
| without_nil : without_headings [] []
| without_keep r rows kept : no_heading r -> without_headings rows kept -> without_headings (r :: rows) (r :: kept)
| without_drop r t rows kept : heading r t -> without_headings rows kept -> without_headings (r :: rows) kept.

(** the index column of the row is there and holds an integer *)
Definition numbered (r : row) : Prop := exists s i, has r [] (Some s) /\ number_text 10 s i.

(** *** value pool entries *)

Definition capital_digit_dash_i (c : char) : bool := is_AZ c || is_09 c || N.eqb c chr_dash || N.eqb c (ch "i").
Definition code_like (s : pystr) : Prop :=
  exists w n, s = w ++ n /\ 2 <= List.length w /\ all capital_digit_dash_i w /\ maybe_newline n
    /\ ~ exists t, s = u "MP-ID" ++ t.
Definition number_like (s : pystr) : Prop :=
  exists d f l n, s = d ++ f ++ l ++ n /\ d <> [] /\ all is_decimal d
    /\ (f = [] \/ exists e, f = u "." ++ e /\ e <> [] /\ all is_decimal e)
    /\ (l = [] \/ exists c, l = [c] /\ is_az c = true) /\ maybe_newline n.
Definition one_upper_char (s : pystr) : Prop := exists c, s = [c] /\ upper_is_self c = true.
Definition gabi_like (s : pystr) : Prop :=
  exists g w t n, s = g ++ w ++ t ++ n /\ (g = [] \/ g = u "GABi")
    /\ w <> [] /\ all (fun c => capital_or_digit c || N.eqb c chr_dash) w
    /\ (t = [] \/ t = u "RLMoT" \/ t = u "RLMmT") /\ maybe_newline n
    /\ ~ exists t, s = u "MP-ID" ++ t.
Definition ebd_like (s : pystr) : Prop :=
  exists c d n, s = c :: u "_" ++ d ++ n /\ (c = ch "E" \/ c = ch "G") /\ d <> [] /\ all is_decimal d /\ maybe_newline n.
Definition looks_like_entry (s : pystr) : Prop :=
  code_like s \/ number_like s \/ one_upper_char s \/ gabi_like s \/ ebd_like s.

(** [e] and [n] are the texts [x] and [y] without the whitespace around them (None if nothing is left);
    [e] is [x] if that looks like a value pool entry, else [y] *)
Definition separated (x y e n : option pystr) : Prop :=
  exists x' y', comes_back_as x x' /\ comes_back_as y y'
    /\ ((exists s, x' = Some s /\ looks_like_entry s) /\ e = x' /\ n = y'
        \/ (~ exists s, x' = Some s /\ looks_like_entry s) /\ e = y' /\ n = x').

(** *** conditions *)

(** [d] is the dict that holds the last value listed for each key, in the order of the first occurrences *)
Definition last_wins {V} (pairs d : list (pystr * V)) : Prop :=
  first_occurrences (map fst pairs) (map fst d)
  /\ forall k t, In (k, t) d <-> exists l1 l2, pairs = l1 ++ (k, t) :: l2 /\ ~ In k (map fst l2).

(** no brackets *)
Definition bracket_free (s : pystr) : Prop := ~ In chr_lbracket s /\ ~ In chr_rbracket s.
Definition condition_key (k : pystr) : Prop := k <> [] /\ all is_decimal k.
(** [s] begins with the condition "[k]" followed by [text], which extends to the next bracket *)
Definition begins_with (s k text rest : pystr) : Prop :=
  s = u "[" ++ k ++ u "]" ++ text ++ rest /\ condition_key k /\ text <> [] /\ bracket_free text
  /\ (rest = [] \/ exists t, rest = u "[" ++ t \/ rest = u "]" ++ t).
(** the conditions found anywhere in a text, from left to right; without the whitespace around their texts *)
Inductive conditions_in : pystr -> list (pystr * pystr) -> Prop :=
| conditions_end : conditions_in [] []
| conditions_here s k text t rest l :
    begins_with s k text rest -> stripped text t -> conditions_in rest l -> conditions_in s ((k, t) :: l)
| conditions_later c s l :
    ~ (exists k text rest, begins_with (c :: s) k text rest) -> conditions_in s l -> conditions_in (c :: s) l.
(** "[931] Format: ZZZ = +00 [932] ..." *)
Definition listing (conditions : list (pystr * pystr)) : pystr :=
  flat_map (fun kt => u "[" ++ fst kt ++ u "]" ++ snd kt) conditions.
Definition with_text (conditions : list (pystr * pystr)) : list (pystr * pystr) :=
  filter (fun kt => match snd kt with [] => false | _ :: _ => true end) conditions.
(** the pair without the whitespace around the text *)
Definition trimmed (a b : pystr * pystr) : Prop := fst b = fst a /\ stripped (snd a) (snd b).
(** the conditions of the cells of a column, from top to bottom; None: there is no text in the cell *)
Inductive all_conditions : list (option pystr) -> list (pystr * pystr) -> Prop :=
| all_conditions_nil : all_conditions [] []
| all_conditions_none cells l : all_conditions cells l -> all_conditions (None :: cells) l
| all_conditions_some s cells l l' :
    conditions_in s l -> all_conditions cells l' -> all_conditions (Some s :: cells) (l ++ l').

(** *** lines *)

(** an empty cell is None *)
Inductive cell_value : option pystr -> option pystr -> Prop :=
| cell_missing : cell_value None None
| cell_empty : cell_value (Some []) None
| cell_text s : s <> [] -> cell_value (Some s) (Some s).

(** rows that become lines: the segment group is a code (kept) or has at most two characters (dropped) *)
Inductive line_row (r : row) : option pystr -> Prop :=
| line_with_group g : has r (u "Segment Gruppe") (Some g) -> code_like g -> line_row r (Some g)
| line_without_group g : has r (u "Segment Gruppe") (Some g) -> ~ code_like g -> List.length g <= 2 -> line_row r None.
(** rows that name a section *)
Definition section_row (r : row) (text : pystr) : Prop :=
  has r (u "Segment Gruppe") (Some text) /\ ~ code_like text /\ 3 <= List.length text.

(** the section of position [i]: the closest section row in front of it *)
Definition section_at (rows : list row) (i : nat) (section : option pystr) : Prop :=
  (exists j r t, j < i /\ nth_error rows j = Some r /\ section_row r t /\ comes_back_as (Some t) section
     /\ forall k r', j < k < i -> nth_error rows k = Some r' -> forall t', ~ section_row r' t')
  \/ ((forall k r', k < i -> nth_error rows k = Some r' -> forall t', ~ section_row r' t') /\ section = None).
(** three section names are changed *)
Definition published_section (a b : option pystr) : Prop :=
  a = Some (u "OBIS-Kennzahl der Zähleinrichtung / Mengenumwerter / Smartmeter-Gateway")
    /\ b = Some (u "OBIS-Kennzahl der Zähleinrichtung / Mengenumwerter")
  \/ a = Some (u "OBIS-Daten der Zähleinrichtung / Mengenumwerter / Smartmeter-Gateway")
    /\ b = Some (u "OBIS-Daten der Zähleinrichtung / Mengenumwerter")
  \/ a = Some (u "OBIS Daten für Lieferant relevant") /\ b = Some (u "OBIS Daten für Marktrolle relevant")
  \/ a <> Some (u "OBIS-Kennzahl der Zähleinrichtung / Mengenumwerter / Smartmeter-Gateway")
     /\ a <> Some (u "OBIS-Daten der Zähleinrichtung / Mengenumwerter / Smartmeter-Gateway")
     /\ a <> Some (u "OBIS Daten für Lieferant relevant") /\ b = a.

(** [l] is the line made of the row at position [i] *)
Definition line_at (pruefi : pystr) (guids : nat -> N) (rows : list row) (i : nat) (l : AhbLine) : Prop :=
  exists r, nth_error rows i = Some r /\ line_row r (al_group l)
    /\ (exists c, has r (u "Segment") c /\ cell_value c (al_segment l))
    /\ (exists c, has r (u "Datenelement") c /\ cell_value c (al_element l))
    /\ (exists c, has r pruefi c /\ cell_value c (al_expression l))
    /\ (exists x y, has r (u "Codes und Qualifier") x /\ has r (u "Beschreibung") y /\ separated x y (al_entry l) (al_name l))
    /\ (exists s, section_at rows i s /\ published_section s (al_section l))
    /\ al_guid l = Some (guids i) /\ al_index l = Some (Z.of_nat i) /\ al_segment_id l = None /\ al_conditions l = None.

(** [lines] are the lines made of all the rows that become lines, in the order of the rows *)
Definition lines_of (pruefi : pystr) (guids : nat -> N) (rows : list row) (lines : list AhbLine) : Prop :=
  exists positions,
    (forall a i b j c, positions = a ++ i :: b ++ j :: c -> i < j)
    /\ (forall i, In i positions <-> exists r g, nth_error rows i = Some r /\ line_row r g)
    /\ Forall2 (line_at pruefi guids rows) positions lines.

(** the reader can deal with the row *)
Definition readable_row (pruefi : pystr) (r : row) : Prop :=
  column r (u "Codes und Qualifier") /\ column r (u "Beschreibung") /\ column r (u "Bedingung")
  /\ (exists g, has r (u "Segment Gruppe") (Some g))
  /\ forall g, line_row r g ->
       column r (u "Segment") /\ column r (u "Datenelement") /\ column r pruefi
       /\ forall s, has r pruefi (Some s) -> blank s -> s = [].

(** the column with the expressions *)
Definition five_digits (s : pystr) : Prop := exists d n, s = d ++ n /\ n_digits 5 d /\ maybe_newline n.
Definition first_five_digits (names : list pystr) (p : pystr) : Prop :=
  exists l1 l2, names = l1 ++ p :: l2 /\ five_digits p /\ forall q, In q l1 -> ~ five_digits q.
(** the column that is used: the one asked for, else the first one that looks like a Pruefidentifikator *)
Definition expression_column (given : option pystr) (names : option (list pystr)) (p : pystr) : Prop :=
  (given = Some p /\ p <> [])
  \/ ((given = None \/ given = Some []) /\ exists ns, names = Some ns /\ first_five_digits ns p).
