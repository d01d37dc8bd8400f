(** XML element trees (lxml.etree elements) and the dictionaries xmltodict makes of them.

    [etree.tostring] followed by [xmltodict.parse] (xmltodict 0.13.0) is the function
    [parse] below; the text in between is modelled in M_XmlText.v. *)
From Coq Require Import Ascii String List NArith ZArith Bool.
From Verif Require Import PyBase PyStr.
Import ListNotations.
Local Open Scope list_scope.

(** ahb_location_xml.py:39-78, mig_xml_reader.py:53-70 an element: tag, attributes, text in front of the first child, children.
    Simplification: the text behind a child (its tail) is assumed to be whitespace
    and is dropped; comments and processing instructions are not modelled.  An attribute
    in a namespace is stored the way it is serialized, i.e. together with the declaration
    of its prefix. *)
Inductive element := Element (tag : pystr) (attrib : list (pystr * pystr)) (text : option pystr) (children : list element).
(** mig_xml_reader.py:91, 110 *)
Definition el_tag (e : element) : pystr := match e with Element t _ _ _ => t end.
(** etree_element_helpers.py:17-59 *)
Definition el_attrib (e : element) : list (pystr * pystr) := match e with Element _ a _ _ => a end.
(** ahb_location_xml.py:66 *)
Definition el_text (e : element) : option pystr := match e with Element _ _ x _ => x end.
(** ahb_location_xml.py:57-60 *)
Definition el_children (e : element) : list element := match e with Element _ _ _ c => c end.

(** ahb_location_xml.py:66 what lxml accepts as text: the characters of XML 1.0 *)
Definition is_xml_char (c : char) : bool :=
  (N.eqb c 9 || N.eqb c 10 || N.eqb c 13
   || (N.leb 32 c && N.leb c 55295) || (N.leb 57344 c && N.leb c 65533) || N.leb 65536 c)%N%bool.
(** ahb_location_xml.py:66 [elem.text = s]: ValueError if the string cannot be part of an XML document *)
Definition set_text (s : pystr) : result (option pystr) :=
  if forallb is_xml_char s then Ok (Some s) else Raise ValueError.

(** ahb_location_xml.py:116, 128 what xmltodict makes of an element: None, a text, a list or a dict *)
Inductive xvalue :=
| XNone
| XStr (s : pystr)
| XList (l : list xvalue)
| XDict (d : list (pystr * xvalue)).

(** ahb_location_xml.py:116, 128 xmltodict 0.13.0 [_DictSAXHandler.push_data]: a key that is there already gets a list *)
Fixpoint push_data (item : list (pystr * xvalue)) (key : pystr) (data : xvalue) : list (pystr * xvalue) :=
  match item with
  | [] => [(key, data)]
  | (k, value) :: r =>
      if str_eqb k key
      then (k, match value with XList l => XList (l ++ [data]) | _ => XList [value; data] end) :: r
      else (k, value) :: push_data r key data
  end.

(** ahb_location_xml.py:116, 128 xmltodict 0.13.0 [_DictSAXHandler.endElement]: data.strip() or None *)
Definition text_data (text : option pystr) : option pystr :=
  match text with
  | None => None
  | Some t => if truthy t then or_none (Some (strip t)) else None
  end.

(** ahb_location_xml.py:116, 128 xmltodict 0.13.0 [_DictSAXHandler.startElement] and [endElement] of one element:
    the attributes get the prefix "@", then come the children in order, then the text *)
Fixpoint value_of (e : element) : xvalue :=
  match e with
  | Element _ attrib text children =>
      let item := map (fun kv => (u "@" ++ fst kv, XStr (snd kv))) attrib in
      let item := fold_left (fun d c => push_data d (el_tag c) (value_of c)) children item in
      match item, text_data text with
      | [], None => XNone
      | [], Some t => XStr t
      | _, None => XDict item
      | _, Some t => XDict (push_data item (u "#text") (XStr t))
      end
  end.

(** ahb_location_xml.py:113-116, 125-128 [xmltodict.parse(etree.tostring(e))] *)
Definition parse (e : element) : xvalue := XDict [(el_tag e, value_of e)].

(** *** the Python operations used on these values *)

(** ahb_location_xml.py:95, 116, 128-130 *)
Fixpoint dict_lookup (d : list (pystr * xvalue)) (key : pystr) : option xvalue :=
  match d with
  | [] => None
  | (k, v) :: r => if str_eqb k key then Some v else dict_lookup r key
  end.
(** ahb_location_xml.py:95, 116, 128-130 [v[key]] for a str key *)
Definition subscript (v : xvalue) (key : pystr) : result xvalue :=
  match v with
  | XDict d => match dict_lookup d key with Some w => Ok w | None => Raise KeyError end
  | _ => Raise TypeError
  end.
(** ahb_location_xml.py:96, 132 [for x in v] *)
Definition iterate (v : xvalue) : result (list xvalue) :=
  match v with
  | XNone => Raise TypeError
  | XStr s => Ok (map (fun c => XStr [c]) s)
  | XList l => Ok l
  | XDict d => Ok (map (fun kv => XStr (fst kv)) d)
  end.
(** ahb_location_xml.py:83 [v.items()] *)
Definition items (v : xvalue) : result (list (pystr * xvalue)) :=
  match v with XDict d => Ok d | _ => Raise AttributeError end.
