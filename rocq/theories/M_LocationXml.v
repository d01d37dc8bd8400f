(** Model of src/maus/reader/ahb_location_xml.py *)
From Coq Require Import Ascii String List NArith ZArith Bool.
From Verif Require Import PyBase PyStr PyRe M_Components M_Ahb M_Sgh M_Navigation M_Xml.
Import ListNotations.
Local Open Scope list_scope.

(** ahb_location_xml.py:63 [etree.SubElement(result, attr_name, attrib={"{xsi}nil": "true"})]:
    lxml declares the prefix ns0 for the namespace "xsi" at the element *)
Definition nil_attributes : list (pystr * pystr) := [(u "xmlns:ns0", u "xsi"); (u "ns0:nil", u "true")].

(** ahb_location_xml.py:62-66 the sub element of an attribute that is not a list *)
Definition attribute_to_xml (attr_name : pystr) (attr_value : option pystr) : result element :=
  match attr_value with
  | None => Ok (Element attr_name nil_attributes None [])
  | Some v => let* text := set_text v in Ok (Element attr_name [] text [])
  end.

(** ahb_location_xml.py:39-67 [to_xml_element] of a layer (or of the dict that attrs.asdict
    made of a layer: the same element) *)
Definition layer_to_xml_element (layer : Layer) : result element :=
  let* key := attribute_to_xml (u "segment_group_key") (ly_key layer) in
  let* opening := attribute_to_xml (u "opening_segment_code") (Some (ly_opening layer)) in
  let* qualifier := attribute_to_xml (u "opening_qualifier") (ly_qualifier layer) in
  Ok (Element (u "ahbLocationLayer") [] None [key; opening; qualifier]).

(** ahb_location_xml.py:39-67 [to_xml_element] of a location *)
Definition to_xml_element (location : Location) : result element :=
  let* layers := mapM layer_to_xml_element (lo_layers location) in
  let* segment := attribute_to_xml (u "segment_code") (lo_segment location) in
  let* data_element := attribute_to_xml (u "data_element_id") (lo_element location) in
  let* qualifier := attribute_to_xml (u "qualifier") (lo_qualifier location) in
  Ok (Element (u "ahbLocation") [] None [Element (u "layers") [] None layers; segment; data_element; qualifier]).

(** ahb_location_xml.py:70-78 [to_xml_elements] *)
Definition to_xml_elements (locations : list Location) : result element :=
  let* children := mapM to_xml_element locations in
  Ok (Element (u "ahbLocations") [] None children).

(** ahb_location_xml.py:84-86 *)
Definition is_nil (value : xvalue) : bool :=
  match value with
  | XDict d =>
      existsb (fun kv => startswith (fst kv) (u "@ns") && endswith (fst kv) (u ":nil")
                         && match snd kv with XStr s => str_eqb s (u "true") | _ => false end)%bool d
  | _ => false
  end.

(** ahb_location_xml.py:81-90 [_replace_nil_element_with_none] *)
Definition replace_nil_element_with_none (raw_dict : xvalue) : result (list (pystr * xvalue)) :=
  let* d := items raw_dict in
  Ok (map (fun kv => (fst kv, if is_nil (snd kv) then XNone else snd kv)) d).

(** navigation.py:147-161, 198-214 the value of a keyword argument that has to be a str or None: the validators raise a
    TypeError for the others (matches_re because the pattern is applied to something that is no str) *)
Definition text_argument (v : xvalue) : result (option pystr) :=
  match v with
  | XNone => Ok None
  | XStr s => Ok (Some s)
  | _ => Raise TypeError
  end.
(** ahb_location_xml.py:98 a keyword argument without a default: TypeError if it is missing *)
Definition keyword (d : list (pystr * xvalue)) (name : pystr) : result xvalue :=
  match dict_lookup d name with
  | None => Raise TypeError
  | Some v => Ok v
  end.
(** ahb_location_xml.py:102 a keyword argument with the default None (navigation.py:199, 206, 213) *)
Definition keyword_or_none (d : list (pystr * xvalue)) (name : pystr) : xvalue :=
  match dict_lookup d name with
  | None => XNone
  | Some v => v
  end.
(** navigation.py:139-169 as [new_Layer], with arguments that may have any type; the validators run in the order of the
    attributes after all the arguments have been bound *)
Definition new_Layer_from (key opening qualifier : xvalue) : result Layer :=
  let* key := text_argument key in
  let* _ := check_optional (check_re re_segment_group) key in
  let* opening := text_argument opening in
  let* opening := check_is_str opening in
  let* _ := check_re re_three_letters opening in
  let* qualifier := text_argument qualifier in
  let* _ := check_optional (check_re re_opening_qualifier) qualifier in
  Ok (mkLayer key opening qualifier).
(** navigation.py:172-216 as [new_Location], with arguments that may have any type *)
Definition new_Location_from (layers : list Layer) (segment element qualifier : xvalue) : result Location :=
  let* _ := check (negb (Nat.eqb (List.length layers) 0)) ValueError in
  let* segment := text_argument segment in
  let* _ := check_optional (check_re re_three_letters) segment in
  let* element := text_argument element in
  let* _ := check_optional (check_re (re_digits 4)) element in
  let* qualifier := text_argument qualifier in
  Ok (mkLocation false layers segment element qualifier).
(** ahb_location_xml.py:98, 102 unexpected keyword arguments: TypeError *)
Definition only_keywords (names : list pystr) (d : list (pystr * xvalue)) : result unit :=
  check (forallb (fun kv => str_in (fst kv) names) d) TypeError.

(** ahb_location_xml.py:97-98 *)
Definition dict_to_layer (layer_dict : xvalue) : result Layer :=
  let* d := replace_nil_element_with_none layer_dict in
  let* _ := only_keywords [u "segment_group_key"; u "opening_segment_code"; u "opening_qualifier"] d in
  let* key := keyword d (u "segment_group_key") in
  let* opening := keyword d (u "opening_segment_code") in
  let* qualifier := keyword d (u "opening_qualifier") in
  new_Layer_from key opening qualifier.

(** ahb_location_xml.py:93-102 [_xml_dict_to_location] *)
Definition xml_dict_to_location (xml_dict : xvalue) : result Location :=
  let* layers := subscript xml_dict (u "layers") in
  let* layer_dicts := subscript layers (u "ahbLocationLayer") in
  let* layer_dicts := iterate layer_dicts in
  let* layers := mapM dict_to_layer layer_dicts in
  let* d := items xml_dict in
  let leftovers := filter (fun kv => negb (str_eqb (fst kv) (u "layers"))) d in
  let* d := replace_nil_element_with_none (XDict leftovers) in
  let* _ := only_keywords [u "segment_code"; u "data_element_id"; u "qualifier"] d in
  new_Location_from layers (keyword_or_none d (u "segment_code")) (keyword_or_none d (u "data_element_id"))
    (keyword_or_none d (u "qualifier")).

(** ahb_location_xml.py:106-117 [from_xml_element] of an element *)
Definition from_xml_element (xml : element) : result Location :=
  let* xml_dict := subscript (parse xml) (u "ahbLocation") in
  xml_dict_to_location xml_dict.

(** ahb_location_xml.py:120-138 [from_xml_elements] of an element *)
Definition from_xml_elements (xml : element) : result (list Location) :=
  let* xml_list := subscript (parse xml) (u "ahbLocations") in
  let* element := subscript xml_list (u "ahbLocation") in
  match element with
  | XList l => mapM xml_dict_to_location l
  | XDict _ => let* location := xml_dict_to_location element in Ok [location]
  | _ => Raise ValueError
  end.
