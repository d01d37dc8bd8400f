(** Specification vocabulary: locations as XML. *)
From Coq Require Import Ascii String List NArith ZArith Bool.
From Verif Require Import PyBase PyStr M_Navigation M_Xml S_Text.
Import ListNotations.
Local Open Scope list_scope.

(** the location satisfies the validators of its class (which is not the internal
    pseudo location class) *)
Definition valid_layer_object (y : Layer) : Prop :=
  (forall k, ly_key y = Some k -> SG_key k) /\ three_capitals (ly_opening y)
  /\ (forall q, ly_qualifier y = Some q -> capitals_then_digits q).
Definition valid_location (l : Location) : Prop :=
  lo_pseudo l = false /\ lo_layers l <> [] /\ Forall valid_layer_object (lo_layers l)
  /\ (forall s, lo_segment l = Some s -> three_capitals s)
  /\ (forall d, lo_element l = Some d -> n_digits 4 d).

(** all characters may occur in an XML document *)
Definition xml_text (s : pystr) : Prop := all is_xml_char s.
(** there is something in it and no whitespace around it *)
Definition clean (s : pystr) : Prop := s <> [] /\ stripped s s.
(** nothing in the location gets lost in an XML document *)
Definition nothing_to_trim (l : Location) : Prop :=
  (forall q, lo_qualifier l = Some q -> clean q)
  /\ Forall (fun y => ly_qualifier y <> Some []) (lo_layers l).

(** how an optional text is read from an XML document: without the whitespace around it;
    None if nothing is left *)
Inductive comes_back_as : option pystr -> option pystr -> Prop :=
| comes_none : comes_back_as None None
| comes_blank s : blank s -> comes_back_as (Some s) None
| comes_text s t : stripped s t -> t <> [] -> comes_back_as (Some s) (Some t).
Definition layer_comes_back_as (a b : Layer) : Prop :=
  ly_key b = ly_key a /\ ly_opening b = ly_opening a /\ comes_back_as (ly_qualifier a) (ly_qualifier b).
Definition location_comes_back_as (a b : Location) : Prop :=
  lo_pseudo b = false /\ Forall2 layer_comes_back_as (lo_layers a) (lo_layers b)
  /\ lo_segment b = lo_segment a /\ lo_element b = lo_element a
  /\ comes_back_as (lo_qualifier a) (lo_qualifier b).

(** two documents that differ only in the whitespace around the texts *)
Definition same_text (a b : option pystr) : Prop :=
  exists t, (a = None /\ t = [] \/ exists s, a = Some s /\ stripped s t)
         /\ (b = None /\ t = [] \/ exists s, b = Some s /\ stripped s t).
Inductive same_but_layout : element -> element -> Prop :=
| same_element tag attrib t t' cs cs' :
    same_text t t' -> Forall2 same_but_layout cs cs' ->
    same_but_layout (Element tag attrib t cs) (Element tag attrib t' cs').
