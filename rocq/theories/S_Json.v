(** Specification vocabulary: objects that satisfy the validators of their classes,
    and which keys a JSON object has. *)
From Coq Require Import Ascii String List NArith ZArith Bool.
From Verif Require Import PyBase PyStr M_Components M_Ahb M_Sgh M_Schema S_Text S_Numbers S_FlatAhb S_ValuePool S_DeepAhb.
Import ListNotations.
Local Open Scope list_scope.

(** a string, if there is one, that is not blank *)
Definition some_text (v : option pystr) : Prop := forall s, v = Some s -> ~ blank s.

Definition valid_meta (m : Meta) : Prop := some_text (me_description m) /\ some_text (me_direction m).
(** a UUID is a number of 128 bits *)
Definition valid_line (l : AhbLine) : Prop :=
  some_text (al_expression l)
  /\ (forall i, al_index l = Some i -> (0 <= i)%Z)
  /\ (forall n, al_guid l = Some n -> (n < 2 ^ 128)%N).
(** a chunk of lines that contains the section name Abschnitts-Kontrollsegment *)
Definition has_control_segment (c : list AhbLine) : Prop :=
  exists l, In l c /\ al_section l = Some (u "Abschnitts-Kontrollsegment").
Definition valid_flat (a : FlatAhb) : Prop :=
  valid_meta (fa_meta a) /\ Forall valid_line (fa_lines a) /\ Forall accepted_line (fa_lines a)
  /\ exists cs n, is_chunking enters_group (fa_lines a) cs /\ count_of has_control_segment cs n /\ n <= 2.

Definition valid_entry (e : ValuePoolEntry) : Prop :=
  accepted_qualifier (ve_qualifier e) /\ ~ blank (ve_expression e).
Definition valid_element (d : DataElement) : Prop :=
  match d with
  | DFree f => some_text (ft_discriminator f) /\ n_digits 4 (ft_id f) /\ ~ blank (ft_expression f)
  | DPool p => some_text (vp_discriminator p) /\ n_digits 4 (vp_id p) /\ Forall valid_entry (vp_pool p)
  end.
Definition valid_segment (s : Segment) : Prop :=
  ~ blank (seg_expression s) /\ Forall valid_element (seg_elements s)
  /\ (forall i, seg_id s = Some i -> n_digits 5 i).
(** all groups and segments of the AHB, at any depth *)
Definition valid_group_tree (g : SegmentGroup) : Prop :=
  (forall h, inside g h -> ~ blank (g_expression h)) /\ (forall s, segment_inside g s -> valid_segment s).
Definition valid_deep (a : DeepAhb) : Prop :=
  valid_meta (da_meta a)
  /\ (forall g, group_of a g -> ~ blank (g_expression g))
  /\ (forall s, segment_of a s -> valid_segment s).

(** every segment has a section name and every data element a type *)
Definition type_of (d : DataElement) : option DataType := match d with DFree f => ft_type f | DPool p => vp_type p end.
Definition complete_segment (s : Segment) : Prop :=
  seg_section s <> None /\ forall d, In d (seg_elements s) -> type_of d <> None.
Definition complete (a : DeepAhb) : Prop := forall s, segment_of a s -> complete_segment s.


(** ** which object a JSON value describes *)
Section Describes.
  (** attributes of the class of data types that are no members, see M_Schema.v *)
  Variable class_attribute : pystr -> option bool.
  Notation obj := (list (pystr * json)).

  Definition only_keys (allowed : list pystr) (o : obj) : Prop := forall k, In k (map fst o) -> In k allowed.
  Definition field (o : obj) (k : pystr) (v : json) : Prop := dict_get k o = Some v.
  (** the key is missing or its value is null *)
  Definition nothing (o : obj) (k : pystr) : Prop := dict_get k o = None \/ field o k JNull.
  Definition text (o : obj) (k : pystr) (s : pystr) : Prop := field o k (JStr s).
  Definition text_or_null (o : obj) (k : pystr) (v : option pystr) : Prop :=
    match v with Some s => text o k s | None => field o k JNull end.
  Definition text_or_nothing (o : obj) (k : pystr) (v : option pystr) : Prop :=
    match v with Some s => text o k s | None => nothing o k end.
  (** the key is missing and [v] is the default, or its value is text or null *)
  Definition text_or_default (o : obj) (k : pystr) (d v : option pystr) : Prop :=
    dict_get k o = None /\ v = d \/ text_or_null o k v.
  (** a list of values that are related by [R] to the elements of [xs] *)
  Inductive list_field {A} (R : json -> A -> Prop) (o : obj) (k : pystr) (xs : list A) : Prop :=
  | a_list js : field o k (JList js) -> Forall2 R js xs -> list_field R o k xs.
  Inductive opt_list_field {A} (R : json -> A -> Prop) (o : obj) (k : pystr) : option (list A) -> Prop :=
  | no_list : nothing o k -> opt_list_field R o k None
  | some_list js xs : field o k (JList js) -> Forall2 R js xs -> opt_list_field R o k (Some xs).
  (** the list must be given but may be null *)
  Inductive null_list_field {A} (R : json -> A -> Prop) (o : obj) (k : pystr) : option (list A) -> Prop :=
  | null_list : field o k JNull -> null_list_field R o k None
  | given_list js xs : field o k (JList js) -> Forall2 R js xs -> null_list_field R o k (Some xs).

  (** integers may be written as numbers or as text, floats are truncated *)
  Definition is_integer (j : json) (z : Z) : Prop :=
    j = JInt z \/ j = JFloat (Some z) \/ exists s, j = JStr s /\ number_text 10 s z.
  Definition is_uuid (j : json) (n : N) : Prop := exists s, j = JStr s /\ uuid_text s n.
  Definition value_or_nothing {A} (R : json -> A -> Prop) (o : obj) (k : pystr) (v : option A) : Prop :=
    match v with Some x => exists j, field o k j /\ R j x | None => nothing o k end.

  Inductive describes_sgh : json -> Sgh -> Prop :=
  | describes_sgh_intro o k op subs :
      only_keys [u "segment_group"; u "opening_segment"; u "sub_hierarchy"] o ->
      text_or_null o (u "segment_group") k -> text o (u "opening_segment") op ->
      null_list_field describes_sgh o (u "sub_hierarchy") subs ->
      describes_sgh (JObj o) (mkSgh k op subs).

  Definition describes_line (j : json) (l : AhbLine) : Prop :=
    exists o, j = JObj o
    /\ only_keys [u "guid"; u "segment_group_key"; u "segment_code"; u "segment_id"; u "data_element";
                  u "value_pool_entry"; u "name"; u "ahb_expression"; u "conditions"; u "section_name"; u "index"] o
    /\ value_or_nothing is_uuid o (u "guid") (al_guid l)
    /\ text_or_nothing o (u "segment_group_key") (al_group l)
    /\ text_or_nothing o (u "segment_code") (al_segment l)
    /\ text_or_nothing o (u "segment_id") (al_segment_id l)
    /\ text_or_nothing o (u "data_element") (al_element l)
    /\ text_or_nothing o (u "value_pool_entry") (al_entry l)
    /\ text_or_nothing o (u "name") (al_name l)
    /\ text_or_nothing o (u "ahb_expression") (al_expression l)
    /\ text_or_nothing o (u "conditions") (al_conditions l)
    /\ text_or_nothing o (u "section_name") (al_section l)
    /\ value_or_nothing is_integer o (u "index") (al_index l)
    /\ valid_line l.

  Definition describes_meta (j : json) (m : Meta) : Prop :=
    exists o, j = JObj o
    /\ only_keys [u "pruefidentifikator"; u "maus_version"; u "description"; u "direction"] o
    /\ text o (u "pruefidentifikator") (me_pruefi m)
    /\ text_or_default o (u "maus_version") (Some (u "0.3.0")) (me_version m)
    /\ text_or_default o (u "description") None (me_description m)
    /\ text_or_default o (u "direction") None (me_direction m)
    /\ valid_meta m.

  Definition describes_flat (j : json) (a : FlatAhb) : Prop :=
    exists o, j = JObj o /\ only_keys [u "meta"; u "lines"] o
    /\ (exists jm, field o (u "meta") jm /\ describes_meta jm (fa_meta a))
    /\ list_field describes_line o (u "lines") (fa_lines a)
    /\ valid_flat a.

  Definition describes_entry (j : json) (e : ValuePoolEntry) : Prop :=
    exists o, j = JObj o /\ only_keys [u "qualifier"; u "meaning"; u "ahb_expression"] o
    /\ text o (u "qualifier") (ve_qualifier e) /\ text o (u "meaning") (ve_meaning e)
    /\ text o (u "ahb_expression") (ve_expression e) /\ valid_entry e.

  (** the type: [d] if the key is missing; else the name of a type.  (Names of class attributes
      that happen to be None are accepted as well.) *)
  Definition names_of_types : list pystr := [u "TEXT"; u "DATETIME"; u "VALUE_POOL"].
  Definition name_of_type (t : DataType) : pystr :=
    match t with TEXT => u "TEXT" | DATETIME => u "DATETIME" | VALUE_POOL => u "VALUE_POOL" end.
  Inductive type_field (o : obj) (d : DataType) : option DataType -> Prop :=
  | type_default : dict_get (u "value_type") o = None -> type_field o d (Some d)
  | type_given t : text o (u "value_type") (name_of_type t) -> type_field o d (Some t)
  | type_attribute s : text o (u "value_type") s -> ~ In s names_of_types -> class_attribute s = Some true -> type_field o d None.

  Definition describes_element (j : json) (d : DataElement) : Prop :=
    exists o, j = JObj o /\ valid_element d /\
    match d with
    | DFree f =>
        only_keys [u "discriminator"; u "data_element_id"; u "entered_input"; u "value_type"; u "ahb_expression"] o
        /\ text_or_null o (u "discriminator") (ft_discriminator f) /\ text o (u "data_element_id") (ft_id f)
        /\ text_or_nothing o (u "entered_input") (ft_input f) /\ type_field o TEXT (ft_type f)
        /\ text o (u "ahb_expression") (ft_expression f)
    | DPool p =>
        only_keys [u "discriminator"; u "data_element_id"; u "entered_input"; u "value_type"; u "value_pool"] o
        /\ text_or_null o (u "discriminator") (vp_discriminator p) /\ text o (u "data_element_id") (vp_id p)
        /\ text_or_nothing o (u "entered_input") (vp_input p) /\ type_field o VALUE_POOL (vp_type p)
        /\ list_field describes_entry o (u "value_pool") (vp_pool p)
    end.

  (** a missing section name is accepted, null is not *)
  Definition describes_segment (j : json) (s : Segment) : Prop :=
    exists o, j = JObj o
    /\ only_keys [u "discriminator"; u "ahb_expression"; u "data_elements"; u "section_name"; u "segment_id"] o
    /\ text o (u "discriminator") (seg_discriminator s) /\ text o (u "ahb_expression") (seg_expression s)
    /\ list_field describes_element o (u "data_elements") (seg_elements s)
    /\ match seg_section s with Some n => text o (u "section_name") n | None => dict_get (u "section_name") o = None end
    /\ text_or_nothing o (u "segment_id") (seg_id s)
    /\ seg_index s = None /\ valid_segment s.

  Inductive describes_group : json -> SegmentGroup -> Prop :=
  | describes_group_intro o d e ss gs :
      only_keys [u "discriminator"; u "ahb_expression"; u "segments"; u "segment_groups"] o ->
      text o (u "discriminator") d -> text o (u "ahb_expression") e -> ~ blank e ->
      opt_list_field describes_segment o (u "segments") ss ->
      opt_list_field describes_group o (u "segment_groups") gs ->
      describes_group (JObj o) (mkGroup d e None ss gs).

  Definition describes_deep (j : json) (a : DeepAhb) : Prop :=
    exists o, j = JObj o /\ only_keys [u "meta"; u "lines"] o
    /\ (exists jm, field o (u "meta") jm /\ describes_meta jm (da_meta a))
    /\ list_field describes_group o (u "lines") (da_lines a).
End Describes.
