(** C82: which XML elements are locations *)
From Coq Require Import Ascii String List NArith ZArith Bool Lia.
From Verif Require Import PyBase PyStr M_Components M_Ahb M_Schema M_Cli M_JsonText M_Navigation M_Xml M_LocationXml M_XmlText.
From Verif Require Import L_Base L_Str S_Text S_Numbers S_JsonText S_LocationXml L_LocationXml S_XmlText L_XmlText C_XmlText S_LocationRead L_LocationRead.
Import ListNotations.
Local Open Scope list_scope.

(** the elements that are read as a location *)
Theorem C82_location e l : xml_tags e -> (from_xml_element e = Ok l <-> location_element e l).
Proof. apply element_spec. Qed.
Print Assumptions C82_location.
(** the elements that are read as a list of locations *)
Theorem C82_locations e ls : xml_tags e -> (from_xml_elements e = Ok ls <-> locations_element e ls).
Proof. apply elements_spec. Qed.
Print Assumptions C82_locations.
(** an element is one location only *)
Theorem C82_one_location e l l' : xml_tags e -> location_element e l -> location_element e l' -> l = l'.
Proof. intros X H H'. apply element_spec in H, H'; try exact X. congruence. Qed.
Print Assumptions C82_one_location.
(** every other element is rejected with one of four errors *)
Theorem C82_errors e x : from_xml_element e = Raise x \/ from_xml_elements e = Raise x ->
  In x [KeyError; TypeError; AttributeError; ValueError].
Proof.
  change (from_xml_element e = Raise x \/ from_xml_elements e = Raise x -> location_error x). intros [H|H].
  - unfold from_xml_element in H. apply bind_raise in H as [H|(d & _ & H)]; [exact (subscript_error _ _ _ H)|exact (dict_error _ _ H)].
  - unfold from_xml_elements in H. apply bind_raise in H as [H|(d & _ & H)]; [exact (subscript_error _ _ _ H)|]. apply bind_raise in H as [H|(v & _ & H)]; [exact (subscript_error _ _ _ H)|].
    destruct v as [|s|l|d'].
    + injection H as <-. err.
    + injection H as <-. err.
    + apply mapM_raise in H as (a & _ & H). exact (dict_error _ _ H).
    + apply bind_raise in H as [H|(l & _ & H)]; [exact (dict_error _ _ H)|discriminate].
Qed.
Print Assumptions C82_errors.

Section C82.
  Variable high_name_start high_name_char : char -> bool.
  Variable is_declaration : pystr -> bool.
  Variable with_doctype : pystr -> result element.
  Notation xml_document := (xml_document high_name_start high_name_char is_declaration).
  Notation has_doctype := (has_doctype high_name_start high_name_char is_declaration).
  Notation from_xml_text := (from_xml_text high_name_start high_name_char is_declaration with_doctype).
  Notation from_xml_texts := (from_xml_texts high_name_start high_name_char is_declaration with_doctype).

  Lemma name_plain n : name_text high_name_start high_name_char n -> plain_name n.
  Proof. intros (c & r & -> & S0 & _). split; intros r' E; injection E as -> _; apply (proj2 (name_start_spec high_name_start high_name_char _)) in S0; discriminate S0. Qed.
  Lemma document_tags : (forall e t, element_text high_name_start high_name_char e t -> xml_tags e)
                        /\ (forall v cs t, content_text high_name_start high_name_char v cs t -> Forall xml_tags cs).
  Proof.
    apply element_content_ind; intros; try (constructor; assumption); try assumption; try constructor; try (now apply name_plain); auto.
  Qed.
  Lemma xml_document_tags e s : xml_document e s -> xml_tags e.
  Proof. intros (p & m & x & m' & _ & _ & _ & E & _). exact (proj1 document_tags e x E). Qed.

  (** the texts that are read as a location, and those that are read as a list of locations *)
  Theorem C82_text s : ~ has_doctype s ->
    (forall l, from_xml_text s = Ok l <-> Forall scalar_value s /\ exists e, xml_document e s /\ location_element e l)
    /\ (forall ls, from_xml_texts s = Ok ls <-> Forall scalar_value s /\ exists e, xml_document e s /\ locations_element e ls).
  Proof.
    intros ND. destruct (C81_what_can_be_read high_name_start high_name_char is_declaration with_doctype s ND) as (T1 & T2). split; intros x; [rewrite T1|rewrite T2];
    (split; intros (F & e & D & H); (split; [exact F|]); exists e; (split; [exact D|]); pose proof (xml_document_tags e s D) as X); [now apply element_spec|now apply element_spec|now apply elements_spec|now apply elements_spec].
  Qed.
End C82.
Print Assumptions C82_text.

(** *** instances *)
Definition nil_element (name : pystr) : element := Element name [(u "ns7:nil", u "true")] (Some (u "ignored")) [].
Definition text_element (name text : pystr) : element := Element name [] (Some text) [].
Definition ex_layer1 : element :=
  Element (u "ahbLocationLayer") [] (Some [10; 32]%N)
    [text_element (u "opening_segment_code") (u " UNH "); nil_element (u "segment_group_key"); Element (u "opening_qualifier") [] None []].
Definition ex_layer2 : element :=
  Element (u "ahbLocationLayer") [] None
    [text_element (u "segment_group_key") (u "SG2"); text_element (u "opening_segment_code") (u "NAD"); text_element (u "opening_qualifier") (u "MS")].
(** the order of the children does not matter, whitespace around texts is dropped, what is not written is None;
    other children and attributes of the list of layers are ignored *)
Definition ex_read : element :=
  Element (u "ahbLocation") [] None
    [text_element (u "qualifier") (u "Z01"); Element (u "layers") [(u "a", u "b")] None [ex_layer1; Element (u "other") [] None []; ex_layer2]].
Definition ex_read_location : Location :=
  mkLocation false [mkLayer None (u "UNH") None; mkLayer (Some (u "SG2")) (u "NAD") (Some (u "MS"))] None None (Some (u "Z01")).
Lemma tags_check e : xml_tags e <-> (forall r, el_tag e <> ch "@" :: r) /\ (forall r, el_tag e <> ch "#" :: r) /\ Forall xml_tags (el_children e).
Proof. split; [intros [n l t cs H1 H2 H3]; auto|]. destruct e as [n l t cs]. intros (H1 & H2 & H3). now constructor. Qed.
Ltac tags := repeat first [apply Forall_nil | apply Forall_cons | (apply tags_check; split; [intros ? TAG; discriminate TAG|split; [intros ? TAG; discriminate TAG|cbn [el_children]]])].
Example C82_instance : xml_tags ex_read /\ location_element ex_read ex_read_location.
Proof.
  assert (X : xml_tags ex_read) by (unfold ex_read, ex_layer1, ex_layer2; tags). split; [exact X|]. apply element_spec; [exact X|]. vm_compute. reflexivity.
Qed.
Example C82_list_instance :
  let e := Element (u "ahbLocations") [(u "x", u "y")] None [ex_read; Element (u "other") [] None []; ex_read] in
  xml_tags e /\ locations_element e [ex_read_location; ex_read_location].
Proof.
  cbv zeta. assert (X : xml_tags (Element (u "ahbLocations") [(u "x", u "y")] None [ex_read; Element (u "other") [] None []; ex_read])) by (unfold ex_read, ex_layer1, ex_layer2; tags).
  split; [exact X|]. apply elements_spec; [exact X|]. vm_compute. reflexivity.
Qed.
(** one layer only; an attribute that is not expected; a field that occurs twice; a missing field; a field with children *)
Example C82_rejected_instance :
  Forall (fun e => xml_tags e /\ forall l, ~ location_element e l)
    [Element (u "ahbLocation") [] None [Element (u "layers") [] None [ex_layer2]];
     Element (u "ahbLocation") [(u "a", u "b")] None [Element (u "layers") [] None [ex_layer1; ex_layer2]];
     Element (u "ahbLocation") [] None [Element (u "layers") [] None [ex_layer1; ex_layer2]; text_element (u "qualifier") (u "A"); text_element (u "qualifier") (u "A")];
     Element (u "ahbLocation") [] None [Element (u "layers") [] None [ex_layer1; Element (u "ahbLocationLayer") [] None [text_element (u "segment_group_key") (u "SG2")]]];
     Element (u "ahbLocation") [] None [Element (u "layers") [] None [ex_layer1; ex_layer2]; Element (u "qualifier") [] None [text_element (u "a") (u "b")]]].
Proof.
  assert (K : forall e, xml_tags e -> (exists x, from_xml_element e = Raise x) -> xml_tags e /\ forall l, ~ location_element e l).
  { intros e X (x & E). split; [exact X|]. intros l H. apply element_spec in H; [|exact X]. congruence. }
  repeat (constructor; [apply K; [unfold ex_layer1, ex_layer2; tags|match goal with |- exists x, ?a = Raise x => let r := eval vm_compute in a in match r with Raise ?y => exists y; vm_compute; reflexivity end end]|]). constructor.
Qed.
