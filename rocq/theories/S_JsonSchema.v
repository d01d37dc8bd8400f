(** Specification vocabulary: JSON Schema draft 7, the keywords that the published schema uses
    (and no others), and the parts of a JSON document of a deep AHB. *)
From Coq Require Import Ascii String List NArith ZArith Bool.
From Verif Require Import PyBase PyStr M_Components M_Schema S_Json.
Import ListNotations.
Local Open Scope list_scope.

(** section 6.1.1 of the validation specification.  (Floats with integral values are integers as
    well; a float does not know its fraction here and the published schema has no numbers.) *)
Definition has_type (j : json) (t : pystr) : Prop :=
  match j with
  | JNull => t = u "null"
  | JBool _ => t = u "boolean"
  | JInt _ => t = u "integer" \/ t = u "number"
  | JFloat _ => t = u "number"
  | JStr _ => t = u "string"
  | JList _ => t = u "array"
  | JObj _ => t = u "object"
  end.
Definition type_keyword (s : list (pystr * json)) (j : json) : Prop :=
  match dict_get (u "type") s with
  | None => True
  | Some (JStr t) => has_type j t
  | Some (JList ts) => exists t, In (JStr t) ts /\ has_type j t
  | Some _ => False
  end.
(** 6.1.2 *)
Definition enum_keyword (s : list (pystr * json)) (j : json) : Prop :=
  match dict_get (u "enum") s with
  | None => True
  | Some (JList l) => In j l
  | Some _ => False
  end.
(** 6.5.3 *)
Definition required_keyword (s : list (pystr * json)) (j : json) : Prop :=
  match dict_get (u "required") s, j with
  | Some (JList l), JObj o => forall k, In (JStr k) l -> dict_get k o <> None
  | _, _ => True
  end.
(** the schemas of the properties, 6.5.4 *)
Definition properties_of (s : list (pystr * json)) : list (pystr * json) :=
  match dict_get (u "properties") s with Some (JObj ps) => ps | _ => [] end.
(** 6.5.6; there are no patternProperties *)
Definition additional_keyword (s : list (pystr * json)) (j : json) : Prop :=
  match dict_get (u "additionalProperties") s, j with
  | Some (JBool false), JObj o => forall k, dict_get k o <> None -> dict_get k (properties_of s) <> None
  | _, _ => True
  end.
(** "#/definitions/name" *)
Definition points_to (root : json) (reference : pystr) (t : json) : Prop :=
  exists o defs name, root = JObj o /\ dict_get (u "definitions") o = Some (JObj defs)
    /\ reference = u "#/definitions/" ++ name /\ dict_get name defs = Some t.

(** the instance [j] is valid against the schema [s] of the document [root]; keywords next to a
    reference are ignored (section 8.3 of the core specification) *)
Inductive conforms (root : json) : json -> json -> Prop :=
| conforms_reference s r t j : dict_get (u "$ref") s = Some (JStr r) -> points_to root r t ->
    conforms root t j -> conforms root (JObj s) j
| conforms_keywords s j : dict_get (u "$ref") s = None ->
    type_keyword s j -> enum_keyword s j -> required_keyword s j -> additional_keyword s j ->
    (forall o k p v, j = JObj o -> dict_get k (properties_of s) = Some p -> dict_get k o = Some v -> conforms root p v) ->
    (forall l i x, j = JList l -> dict_get (u "items") s = Some i -> In x l -> conforms root i x) ->
    conforms root (JObj s) j.

(** ** the parts of a document *)

(** the JSON value of a segment in the JSON value of a group, at any depth *)
Inductive segment_value : json -> json -> Prop :=
| own_segment o l s : field o (u "segments") (JList l) -> In s l -> segment_value (JObj o) s
| deeper_segment o l g s : field o (u "segment_groups") (JList l) -> In g l -> segment_value g s -> segment_value (JObj o) s.
(** in the JSON value of a deep AHB *)
Definition segment_value_of (j s : json) : Prop :=
  exists o l g, j = JObj o /\ field o (u "lines") (JList l) /\ In g l /\ segment_value g s.
(** the JSON value of the meta information has a key *)
Definition meta_key (j : json) (k : pystr) : Prop :=
  exists o m, j = JObj o /\ field o (u "meta") (JObj m) /\ dict_get k m <> None.
