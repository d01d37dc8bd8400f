(** The grammar of XML documents without document type declarations (XML 1.0), namespaces not considered. *)
From Coq Require Import Ascii String List NArith ZArith Bool.
From Verif Require Import PyBase PyStr M_Navigation M_Xml S_Text S_Numbers S_JsonText.
Import ListNotations.
Local Open Scope list_scope.

(** *** characters *)

(** Char: the characters a document may contain *)
Definition xml_character (c : char) : Prop :=
  In c [9; 10; 13]%N \/ (32 <= c <= 55295)%N \/ (57344 <= c <= 65533)%N \/ (65536 <= c)%N.
(** S: [whitespace] of S_JsonText.v (spaces, tabs, line feeds, carriage returns) *)

(** CharRef, and the references to the predefined entities: the character and the reference *)
Inductive hex_number_is : pystr -> N -> Prop :=
| no_hex_digits : hex_number_is [] 0
| last_hex_digit d n c x : hex_number_is d n -> hex_digit_is c x -> hex_number_is (d ++ [c]) (16 * n + x).
Definition referable (c : char) : Prop := xml_character c /\ (c <= 1114111)%N.
Inductive reference_text : char -> pystr -> Prop :=
| entity_reference n c : In (n, c) [(u "lt", ch "<"); (u "gt", ch ">"); (u "amp", ch "&"); (u "quot", ch """"); (u "apos", ch "'")] ->
    reference_text c (u "&" ++ n ++ u ";")
| decimal_reference d c : d <> [] -> ascii_digits d -> decimal_value d c -> referable c -> reference_text c (u "&#" ++ d ++ u ";")
| hex_reference d c : d <> [] -> hex_number_is d c -> referable c -> reference_text c (u "&#x" ++ d ++ u ";").

(** CharData: text without markup; line ends become line feeds *)
Definition char_data (v t : pystr) : Prop :=
  Forall (fun c => xml_character c /\ c <> ch "<" /\ c <> ch "&") t /\ ~ occurs (u "]]>") t /\ line_feeds t v.

(** AttValue between two quotes [q], and the value it stands for: tabs and line ends become spaces *)
Inductive value_text (q : char) : pystr -> pystr -> Prop :=
| value_end : value_text q [] []
| value_char c v t : xml_character c -> ~ In c [ch "<"; ch "&"; q; 9; 10; 13]%N -> value_text q v t -> value_text q (c :: v) (c :: t)
| value_space c v t : c = 9%N \/ c = 10%N -> value_text q v t -> value_text q (ch " " :: v) (c :: t)
| value_crlf v t : value_text q v t -> value_text q (ch " " :: v) (13 :: 10 :: t)%N
| value_cr v t : (forall r, t <> 10%N :: r) -> value_text q v t -> value_text q (ch " " :: v) (13%N :: t)
| value_reference c r v t : reference_text c r -> value_text q v t -> value_text q (c :: v) (r ++ t).

(** *** markup that is no element *)

(** Comment *)
Definition comment_text (t : pystr) : Prop :=
  exists inner, t = u "<!--" ++ inner ++ u "-->" /\ Forall xml_character inner /\ ~ occurs (u "--") (inner ++ u "-").
(** CDSect *)
Definition cdata_text (v t : pystr) : Prop :=
  exists inner, t = u "<![CDATA[" ++ inner ++ u "]]>" /\ Forall xml_character inner
    /\ ~ occurs (u "]]>") (inner ++ u "]]") /\ line_feeds inner v.

Section Grammar.
  (** which characters above 127 may start a name and which others may be in a name *)
  Variable high_name_start high_name_char : char -> bool.
  (** which texts between <?xml and ?> are XML declarations *)
  Variable is_declaration : pystr -> bool.

  (** Name *)
  Definition name_start (c : char) : Prop :=
    (65 <= c <= 90)%N \/ (97 <= c <= 122)%N \/ c = ch "_" \/ c = ch ":" \/ (128 <= c)%N /\ high_name_start c = true.
  Definition name_char (c : char) : Prop :=
    name_start c \/ (48 <= c <= 57)%N \/ c = ch "-" \/ c = ch "." \/ (128 <= c)%N /\ high_name_char c = true.
  Definition name_text (n : pystr) : Prop := exists c r, n = c :: r /\ name_start c /\ Forall name_char r.

  (** PI; the target is not xml, in upper or lower case *)
  Definition reserved_target (n : pystr) : Prop :=
    exists x m l, n = [x; m; l] /\ In x (u "xX") /\ In m (u "mM") /\ In l (u "lL").
  Definition instruction_text (t : pystr) : Prop :=
    exists target data, t = u "<?" ++ target ++ data ++ u "?>" /\ name_text target /\ ~ reserved_target target
      /\ (data = [] \/ exists w inner, data = w ++ inner /\ w <> [] /\ whitespace w /\ Forall xml_character inner)
      /\ ~ occurs (u "?>") (data ++ u "?").

  (** characters that are written as markup *)
  Inductive markup_text : pystr -> pystr -> Prop :=
  | markup_reference c t : reference_text c t -> markup_text [c] t
  | markup_comment t : comment_text t -> markup_text [] t
  | markup_cdata v t : cdata_text v t -> markup_text v t
  | markup_instruction t : instruction_text t -> markup_text [] t.

  (** *** elements *)
  Inductive attribute_text : pystr * pystr -> pystr -> Prop :=
  | attribute n v w w1 w2 q t : name_text n -> w <> [] -> whitespace w -> whitespace w1 -> whitespace w2 ->
      q = ch """" \/ q = ch "'" -> value_text q v t -> attribute_text (n, v) (w ++ n ++ w1 ++ u "=" ++ w2 ++ [q] ++ t ++ [q]).
  Definition attributes_text (l : list (pystr * pystr)) (t : pystr) : Prop :=
    NoDup (map fst l) /\ exists ts, Forall2 attribute_text l ts /\ t = concat ts.

  Inductive element_text : element -> pystr -> Prop :=
  | empty_element n l a w : name_text n -> attributes_text l a -> whitespace w ->
      element_text (Element n l None []) (u "<" ++ n ++ a ++ w ++ u "/>")
  | full_element n l a w v cs c w' : name_text n -> attributes_text l a -> whitespace w -> content_text v cs c -> whitespace w' ->
      element_text (Element n l (match v with [] => None | _ => Some v end) cs)
                   (u "<" ++ n ++ a ++ w ++ u ">" ++ c ++ u "</" ++ n ++ w' ++ u ">")
  (** the character data (put together) and the children of an element *)
  with content_text : pystr -> list element -> pystr -> Prop :=
  | content_end v t : char_data v t -> content_text v [] t
  | content_markup v t x m w cs r : char_data v t -> markup_text x m -> content_text w cs r ->
      content_text (v ++ x ++ w) cs (t ++ m ++ r)
  | content_element v t e m w cs r : char_data v t -> element_text e m -> content_text w cs r ->
      content_text (v ++ w) (e :: cs) (t ++ m ++ r).

  (** *** documents *)
  Inductive misc_text : pystr -> Prop :=
  | misc_end w : whitespace w -> misc_text w
  | misc_comment w t r : whitespace w -> comment_text t -> misc_text r -> misc_text (w ++ t ++ r)
  | misc_instruction w t r : whitespace w -> instruction_text t -> misc_text r -> misc_text (w ++ t ++ r).
  (** an optional byte order mark and an optional XML declaration *)
  Definition prolog_text (t : pystr) : Prop :=
    exists mark declaration, t = mark ++ declaration /\ (mark = [] \/ mark = [65279%N])
      /\ (declaration = []
          \/ exists d, declaration = u "<?xml" ++ d ++ u "?>" /\ (forall c r, d = c :: r -> ~ name_char c)
               /\ is_declaration d = true /\ ~ occurs (u "?>") (d ++ u "?")).
  Definition xml_document (e : element) (t : pystr) : Prop :=
    exists p m x m', t = p ++ m ++ x ++ m' /\ prolog_text p /\ misc_text m /\ element_text e x /\ misc_text m'.
  Definition has_doctype (t : pystr) : Prop :=
    exists p m r, t = p ++ m ++ u "<!DOCTYPE" ++ r /\ prolog_text p /\ misc_text m.

  (** *** elements as lxml keeps them: valid ASCII names, no attribute twice, only characters of XML *)
  Definition ascii (s : pystr) : Prop := Forall (fun c => c < 128)%N s.
  Inductive lxml_element : element -> Prop :=
  | lxml_node n l text cs :
      name_text n -> ascii n -> NoDup (map fst l) ->
      Forall (fun kv => name_text (fst kv) /\ ascii (fst kv) /\ Forall referable (snd kv)) l ->
      (forall t, text = Some t -> Forall referable t) -> Forall lxml_element cs ->
      lxml_element (Element n l text cs).
End Grammar.

(** an element whose text is the empty string cannot be told from one without text *)
Fixpoint without_empty_texts (e : element) : element :=
  match e with
  | Element n l text cs => Element n l (match text with Some [] => None | _ => text end) (map without_empty_texts cs)
  end.

(** all texts of a location are Python strs, whose characters are code points *)
Definition location_texts (l : Location) : list (option pystr) :=
  flat_map (fun y => [ly_key y; Some (ly_opening y); ly_qualifier y]) (lo_layers l) ++ [lo_segment l; lo_element l; lo_qualifier l].
Definition python_texts (l : Location) : Prop :=
  forall t, In (Some t) (location_texts l) -> Forall (fun c => c <= 1114111)%N t.
