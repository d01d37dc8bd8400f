(** Model of the texts between lxml and xmltodict (src/maus/reader/ahb_location_xml.py:106-138):
    etree.tostring (lxml 5, libxml2), and xmltodict.parse (xmltodict 0.13.0, expat 2.6) without
    namespace processing. *)
From Coq Require Import Ascii String List NArith ZArith Bool.
From Verif Require Import PyBase PyStr M_Components M_Schema M_JsonText M_Navigation M_Xml M_LocationXml.
Import ListNotations.
Local Open Scope list_scope.

(** ** expat *)

(** ahb_location_xml.py:116, 128 BT_S, BT_CR, BT_LF *)
Definition is_xml_space (c : char) : bool := (N.eqb c 32 || N.eqb c 9 || N.eqb c 10 || N.eqb c 13)%bool.

(** ahb_location_xml.py:116, 128 the longest prefix of characters that satisfy [p], and the rest *)
Fixpoint span (p : char -> bool) (s : pystr) : pystr * pystr :=
  match s with
  | [] => ([], [])
  | c :: r => if p c then let (a, b) := span p r in (c :: a, b) else ([], s)
  end.
(** ahb_location_xml.py:116, 128 the text in front of the first occurrence of [sep], and the text behind it *)
Fixpoint cut (sep : pystr) (s : pystr) : option (pystr * pystr) :=
  if startswith s sep then Some ([], skipn (List.length sep) s)
  else match s with
       | [] => None
       | c :: r => match cut sep r with Some (a, b) => Some (c :: a, b) | None => None end
       end.
(** ahb_location_xml.py:116, 128 raise an error unless [b] *)
Definition well_formed (b : bool) : result unit := check b ExpatError.
(** ahb_location_xml.py:116, 128 the text behind [prefix] *)
Definition expect (prefix s : pystr) : result pystr :=
  if startswith s prefix then Ok (skipn (List.length prefix) s) else Raise ExpatError.

(** ahb_location_xml.py:116, 128 references: the text behind the ampersand; returns the character and the text behind the semicolon *)
Definition entities : list (pystr * char) :=
  [(u "lt;", ch "<"); (u "gt;", ch ">"); (u "amp;", ch "&"); (u "quot;", ch """"); (u "apos;", ch "'")].
(** ahb_location_xml.py:116, 128 *)
Definition find_entity (s : pystr) : result (char * pystr) :=
  match find (fun e => startswith s (fst e)) entities with
  | Some (name, c) => Ok (c, skipn (List.length name) s)
  | None => Raise ExpatError
  end.
(** ahb_location_xml.py:116, 128 checkCharRefNumber *)
Definition character_number (digits rest : pystr) (value : N) : result (char * pystr) :=
  let* _ := well_formed (negb (match digits with [] => true | _ => false end)) in
  let* rest := expect (u ";") rest in
  let* _ := well_formed (is_xml_char value && N.ltb value 1114112)%bool in
  Ok (value, rest).
(** ahb_location_xml.py:116, 128 *)
Definition is_hex (c : char) : bool := match hex_value c with Some _ => true | None => false end.
(** ahb_location_xml.py:116, 128 *)
Definition hex_number (digits : pystr) : N :=
  fold_left (fun acc c => acc * 16 + match hex_value c with Some v => v | None => 0 end)%N digits 0%N.
(** ahb_location_xml.py:116, 128 *)
Definition scan_reference (s : pystr) : result (char * pystr) :=
  if startswith s (u "#x") then
    let (digits, rest) := span is_hex (skipn 2 s) in character_number digits rest (hex_number digits)
  else if startswith s (u "#") then
    let (digits, rest) := span is_09 (skipn 1 s) in character_number digits rest (digits_value digits)
  else find_entity s.

Section Expat.
  (** which characters above 127 may start a name (BT_NMSTRT) and which others may be in a name (BT_NAME) *)
  Variable high_name_start high_name_char : char -> bool.
  (** which texts between <?xml and ?> are XML declarations (XmlParseXmlDecl) *)
  Variable is_declaration : pystr -> bool.
  (** what becomes of a document with a document type declaration *)
  Variable with_doctype : pystr -> result element.

  (** ahb_location_xml.py:116, 128 *)
  Definition is_name_start (c : char) : bool :=
    if N.ltb c 128 then (is_AZ c || in_range 97%N 122%N c || N.eqb c 95 || N.eqb c 58)%bool else high_name_start c.
  (** ahb_location_xml.py:116, 128 *)
  Definition is_name_char (c : char) : bool :=
    (is_name_start c || if N.ltb c 128 then is_09 c || N.eqb c 45 || N.eqb c 46 else high_name_char c)%bool.
  (** ahb_location_xml.py:116, 128 *)
  Definition scan_name (s : pystr) : result (pystr * pystr) :=
    match s with
    | c :: _ => if is_name_start c then Ok (span is_name_char s) else Raise ExpatError
    | [] => Raise ExpatError
    end.

  (** ahb_location_xml.py:116, 128 a comment: the text behind <!-- *)
  Definition scan_comment (s : pystr) : result pystr :=
    match cut (u "--") s with
    | Some (inner, rest) => let* _ := well_formed (forallb is_xml_char inner) in expect (u ">") rest
    | None => Raise ExpatError
    end.
  (** ahb_location_xml.py:116, 128 a CDATA section: the text behind <![CDATA[ *)
  Definition scan_cdata (s : pystr) : result (pystr * pystr) :=
    match cut (u "]]>") s with
    | Some (inner, rest) => let* _ := well_formed (forallb is_xml_char inner) in Ok (universal_newlines inner, rest)
    | None => Raise ExpatError
    end.
  (** ahb_location_xml.py:116, 128 a processing instruction: the text behind <?; returns the target, the data and the rest *)
  Definition is_xml_target (target : pystr) : bool :=
    match target with
    | [x; m; l] => ((N.eqb x 88 || N.eqb x 120) && (N.eqb m 77 || N.eqb m 109) && (N.eqb l 76 || N.eqb l 108))%bool
    | _ => false
    end.
  (** ahb_location_xml.py:116, 128 *)
  Definition scan_instruction (s : pystr) : result pystr :=
    let* (target, r) := scan_name s in
    let* _ := well_formed (negb (is_xml_target target)) in
    if startswith r (u "?>") then Ok (skipn 2 r)
    else match r with
         | c :: r' =>
             let* _ := well_formed (is_xml_space c) in
             match cut (u "?>") r' with
             | Some (inner, rest) => let* _ := well_formed (forallb is_xml_char inner) in Ok rest
             | None => Raise ExpatError
             end
         | [] => Raise ExpatError
         end.

  (** ahb_location_xml.py:116, 128 appendAttributeValue: references are replaced, whitespace becomes a space *)
  Fixpoint attribute_value (fuel : nat) (s : pystr) : result pystr :=
    match fuel with
    | O => Raise ExpatError
    | S f =>
        match s with
        | [] => Ok []
        | c :: r =>
            if N.eqb c 60 then Raise ExpatError
            else if N.eqb c 38 then
              let* (x, rest) := scan_reference r in let* v := attribute_value f rest in Ok (x :: v)
            else if N.eqb c 13 then
              let* v := attribute_value f (if startswith r [10%N] then skipn 1 r else r) in Ok (32%N :: v)
            else if (N.eqb c 9 || N.eqb c 10)%bool then let* v := attribute_value f r in Ok (32%N :: v)
            else let* _ := well_formed (is_xml_char c) in
                 let* v := attribute_value f r in Ok (c :: v)
        end
    end.
  (** ahb_location_xml.py:116, 128 scanAtts and the end of the tag: the text behind the name of the element; returns the attributes, whether
      the tag ends with a slash, and the rest *)
  Fixpoint scan_attributes (fuel : nat) (found : list (pystr * pystr)) (s : pystr)
    : result (list (pystr * pystr) * bool * pystr) :=
    match fuel with
    | O => Raise ExpatError
    | S f =>
        let (w, r) := span is_xml_space s in
        if startswith r (u ">") then Ok (found, false, skipn 1 r)
        else if startswith r (u "/>") then Ok (found, true, skipn 2 r)
        else
          let* _ := well_formed (negb (match w with [] => true | _ => false end)) in
          let* (name, r1) := scan_name r in
          let* r2 := expect (u "=") (snd (span is_xml_space r1)) in
          match snd (span is_xml_space r2) with
          | q :: r3 =>
              let* _ := well_formed (N.eqb q 34 || N.eqb q 39) in
              match cut [q] r3 with
              | Some (raw, r4) =>
                  let* value := attribute_value (S (List.length raw)) raw in
                  let* _ := well_formed (negb (str_in name (map fst found))) in
                  scan_attributes f (found ++ [(name, value)]) r4
              | None => Raise ExpatError
              end
          | [] => Raise ExpatError
          end
    end.

  (** ahb_location_xml.py:116, 128 an element, whose content is read by [read_content]; the text behind < *)
  Definition scan_element (read_content : pystr -> result (pystr * list element * pystr)) (s : pystr)
    : result (element * pystr) :=
    let* (name, r) := scan_name s in
    let* (attributes, closed, r) := scan_attributes (S (List.length r)) [] r in
    if closed then Ok (Element name attributes None [], r)
    else
      let* (text, children, r) := read_content r in
      let* r := expect (u "</") r in
      let* (end_name, r) := scan_name r in
      let* _ := well_formed (str_eqb end_name name) in
      let* r := expect (u ">") (snd (span is_xml_space r)) in
      Ok (Element name attributes (or_none (Some text)) children, r).

  (** ahb_location_xml.py:116, 128 everything but elements and text: returns the characters it stands for and the rest *)
  Definition scan_markup (s : pystr) : option (result (pystr * pystr)) :=
    if startswith s (u "&") then Some (let* (c, rest) := scan_reference (skipn 1 s) in Ok ([c], rest))
    else if startswith s (u "<!--") then Some (let* rest := scan_comment (skipn 4 s) in Ok ([], rest))
    else if startswith s (u "<![CDATA[") then Some (scan_cdata (skipn 9 s))
    else if startswith s (u "<?") then Some (let* rest := scan_instruction (skipn 2 s) in Ok ([], rest))
    else None.
  (** ahb_location_xml.py:116, 128 the content of an element: all character data, the children and the rest, which starts with </.
      Simplification: the character data around the children are put together (xmltodict does the same).  [fuel]
      bounds the number of nested calls; each consumes a character. *)
  Fixpoint scan_content (fuel : nat) (s : pystr) : result (pystr * list element * pystr) :=
    match fuel with
    | O => Raise ExpatError
    | S f =>
        let (raw, r) := span (fun c => negb (N.eqb c 60 || N.eqb c 38)) s in
        let* _ := well_formed (forallb is_xml_char raw && negb (contains raw (u "]]>"))) in
        if startswith r (u "</") then Ok (universal_newlines raw, [], r)
        else
          match scan_markup r with
          | Some m =>
              let* (x, r) := m in
              let* (text, children, rest) := scan_content f r in
              Ok (universal_newlines raw ++ x ++ text, children, rest)
          | None =>
              let* r := expect (u "<") r in
              let* (child, r) := scan_element (scan_content f) r in
              let* (text, children, rest) := scan_content f r in
              Ok (universal_newlines raw ++ text, child :: children, rest)
          end
    end.

  (** ahb_location_xml.py:116, 128 whitespace, comments and processing instructions *)
  Fixpoint skip_misc (fuel : nat) (s : pystr) : result pystr :=
    match fuel with
    | O => Raise ExpatError
    | S f =>
        let r := snd (span is_xml_space s) in
        if startswith r (u "<!--") then let* rest := scan_comment (skipn 4 r) in skip_misc f rest
        else if startswith r (u "<?") then let* rest := scan_instruction (skipn 2 r) in skip_misc f rest
        else Ok r
    end.
  (** ahb_location_xml.py:116, 128 an optional byte order mark and an optional XML declaration *)
  Definition skip_declaration (s : pystr) : result pystr :=
    let s := if startswith s [65279%N] then skipn 1 s else s in
    if startswith s (u "<?") then
      let* (target, r) := scan_name (skipn 2 s) in
      if str_eqb target (u "xml") then
        match cut (u "?>") r with
        | Some (inner, rest) => let* _ := well_formed (is_declaration inner) in Ok rest
        | None => Raise ExpatError
        end
      else Ok s
    else Ok s.
  (** ahb_location_xml.py:116, 128 parser.Parse(xml_input, True) *)
  Definition scan_document (s : pystr) : result element :=
    let* r := skip_declaration s in
    let* r := skip_misc (S (List.length r)) r in
    if startswith r (u "<!DOCTYPE") then with_doctype s
    else
      let* r := expect (u "<") r in
      let* (root, r) := scan_element (scan_content (S (List.length r))) r in
      let* r := skip_misc (S (List.length r)) r in
      let* _ := well_formed (match r with [] => true | _ => false end) in
      Ok root.

  (** ahb_location_xml.py:116, 128 xmltodict.parse of a str: it is encoded first *)
  Definition xmltodict_parse (s : pystr) : result xvalue :=
    let* _ := encode_utf8 s in
    let* root := scan_document s in
    Ok (parse root).

  (** ahb_location_xml.py:106-117 [from_xml_element] of a str *)
  Definition from_xml_text (xml : pystr) : result Location :=
    let* d := xmltodict_parse xml in
    let* xml_dict := subscript d (u "ahbLocation") in
    xml_dict_to_location xml_dict.
  (** ahb_location_xml.py:120-138 [from_xml_elements] of a str *)
  Definition from_xml_texts (xml : pystr) : result (list Location) :=
    let* d := xmltodict_parse xml in
    let* xml_list := subscript d (u "ahbLocations") in
    let* element := subscript xml_list (u "ahbLocation") in
    match element with
    | XList l => mapM xml_dict_to_location l
    | XDict _ => let* location := xml_dict_to_location element in Ok [location]
    | _ => Raise ValueError
    end.
End Expat.

(** ** etree.tostring *)

(** ahb_location_xml.py:113, 125 libxml2 xmlEscapeEntities, output in ASCII *)
Definition number_reference (c : char) : pystr := u "&#" ++ str_of_N c ++ u ";".
(** ahb_location_xml.py:113, 125 *)
Definition escape_text_char (c : char) : pystr :=
  (if N.eqb c 60 then u "&lt;"
   else if N.eqb c 62 then u "&gt;"
   else if N.eqb c 38 then u "&amp;"
   else if (N.eqb c 13 || negb (N.ltb c 128))%bool then number_reference c
   else [c])%N.
(** ahb_location_xml.py:113, 125 libxml2 xmlAttrSerializeTxtContent, output in ASCII *)
Definition escape_attribute_char (c : char) : pystr :=
  (if N.eqb c 34 then u "&quot;"
   else if (N.eqb c 10 || N.eqb c 9)%bool then number_reference c
   else escape_text_char c)%N.
(** ahb_location_xml.py:113, 125 *)
Definition write_attribute (kv : pystr * pystr) : pystr :=
  u " " ++ fst kv ++ u "=""" ++ flat_map escape_attribute_char (snd kv) ++ u """".
(** ahb_location_xml.py:113, 125 libxml2 xmlNodeDumpOutput *)
Fixpoint tostring (e : element) : pystr :=
  match e with
  | Element tag attrib text children =>
      u "<" ++ tag ++ flat_map write_attribute attrib ++
      match text, children with
      | None, [] => u "/>"
      | _, _ => u ">" ++ flat_map escape_text_char (match text with Some t => t | None => [] end)
                ++ flat_map tostring children ++ u "</" ++ tag ++ u ">"
      end
  end.
