(** Specification vocabulary: which XML elements are locations. *)
From Coq Require Import Ascii String List NArith ZArith Bool.
From Verif Require Import PyBase PyStr M_Navigation M_Xml S_Text S_LocationXml.
Import ListNotations.
Local Open Scope list_scope.

(** the tags are names of XML, which start with neither @ nor # *)
Inductive xml_tags : element -> Prop :=
| xml_tags_node n l t cs : (forall r, n <> ch "@" :: r) -> (forall r, n <> ch "#" :: r) -> Forall xml_tags cs -> xml_tags (Element n l t cs).

(** the only child with a tag; no child with a tag *)
Definition only_child (cs : list element) (name : pystr) (c : element) : Prop :=
  exists a b, cs = a ++ c :: b /\ el_tag c = name /\ ~ In name (map el_tag (a ++ b)).
Definition no_child (cs : list element) (name : pystr) : Prop := ~ In name (map el_tag cs).

(** an element marked as nil stands for None, whatever else there is in it; any other element must have neither
    attributes nor children and stands for its text *)
Inductive field_element : element -> option pystr -> Prop :=
| nil_field e k a b : In (k, u "true") (el_attrib e) -> k = u "ns" ++ a -> k = b ++ u ":nil" -> field_element e None
| text_field n t o : comes_back_as t o -> field_element (Element n [] t []) o.
Definition required_field (cs : list element) (name : pystr) (o : option pystr) : Prop :=
  exists c, only_child cs name c /\ field_element c o.
Definition optional_field (cs : list element) (name : pystr) (o : option pystr) : Prop :=
  required_field cs name o \/ no_child cs name /\ o = None.

(** no attributes, no text, only children with these tags *)
Definition only_children (e : element) (names : list pystr) : Prop :=
  el_attrib e = [] /\ comes_back_as (el_text e) None /\ forall c, In c (el_children e) -> In (el_tag c) names.

Definition layer_element (e : element) (y : Layer) : Prop :=
  only_children e [u "segment_group_key"; u "opening_segment_code"; u "opening_qualifier"]
  /\ required_field (el_children e) (u "segment_group_key") (ly_key y)
  /\ required_field (el_children e) (u "opening_segment_code") (Some (ly_opening y))
  /\ required_field (el_children e) (u "opening_qualifier") (ly_qualifier y)
  /\ valid_layer_object y.
(** the children with a tag, in order *)
Definition children_named (name : pystr) (cs : list element) : list element := filter (fun c => str_eqb (el_tag c) name) cs.
Definition location_content (e : element) (l : Location) : Prop :=
  only_children e [u "layers"; u "segment_code"; u "data_element_id"; u "qualifier"]
  /\ (exists ls, only_child (el_children e) (u "layers") ls
        /\ let layers := children_named (u "ahbLocationLayer") (el_children ls) in
           2 <= List.length layers /\ Forall2 layer_element layers (lo_layers l))
  /\ optional_field (el_children e) (u "segment_code") (lo_segment l)
  /\ optional_field (el_children e) (u "data_element_id") (lo_element l)
  /\ optional_field (el_children e) (u "qualifier") (lo_qualifier l)
  /\ valid_location l.
Definition location_element (e : element) (l : Location) : Prop := el_tag e = u "ahbLocation" /\ location_content e l.
(** attributes, texts and other children of the list are ignored *)
Definition locations_element (e : element) (ls : list Location) : Prop :=
  el_tag e = u "ahbLocations"
  /\ let locations := children_named (u "ahbLocation") (el_children e) in
     locations <> [] /\ Forall2 location_content locations ls.
