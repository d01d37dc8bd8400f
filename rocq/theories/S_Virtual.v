(** Specification vocabulary: virtual groups of a MIG. *)
From Coq Require Import Ascii String List NArith ZArith Bool.
From Verif Require Import PyBase PyStr M_Xml S_MigXml.
Import ListNotations.
Local Open Scope list_scope.

Definition virtual_group (e : element) : Prop := el_tag e = u "class" /\ carries e (u "meta.virtual") (u "true").

(** [below e f]: f is a child of e, a child of a child, ... *)
Inductive below (e : element) : element -> Prop :=
| below_child c : In c (el_children e) -> below e c
| below_deeper c f : In c (el_children e) -> below c f -> below e f.

(** an element without its children *)
Definition alone (e : element) : element := Element (el_tag e) (el_attrib e) (el_text e) [].
(** all the elements of a document, without their children *)
Fixpoint all_elements (e : element) : list element :=
  match e with Element t a x cs => Element t a x [] :: flat_map all_elements cs end.

(** The elements of a list together with the information whether they are groups that have to be unpacked.  Unpacking the
    first of them: its children come, in reverse order, in front of the element before the group; if the group is the
    first element they come, in their order, in front of the last element. *)
Definition kept (e : element) : bool * element := (false, e).
Inductive unpack_next : list (bool * element) -> list (bool * element) -> Prop :=
| next_behind before neighbour group behind :
    Forall (fun x => fst x = false) (before ++ [neighbour]) ->
    unpack_next (before ++ neighbour :: (true, group) :: behind) (before ++ rev (map kept (el_children group)) ++ neighbour :: behind)
| next_in_front group behind last :
    unpack_next ((true, group) :: behind ++ [last]) (behind ++ map kept (el_children group) ++ [last])
| next_alone group : unpack_next [(true, group)] (map kept (el_children group)).
(** all of them, one after the other *)
Inductive unpack_each : list (bool * element) -> list element -> Prop :=
| each_done l : unpack_each (map kept l) l
| each_next l l' result : unpack_next l l' -> unpack_each l' result -> unpack_each l result.

(** [unpacked e f]: f is e with unpacked groups: the virtual groups among its children are unpacked (not those that come
    into its children that way), then the groups in each of the children it has then *)
Inductive unpacked : element -> element -> Prop :=
| Unpacked tag attributes text children marks children' children'' :
    Forall2 (fun c x => snd x = c /\ (fst x = true <-> virtual_group c)) children marks ->
    unpack_each marks children' -> Forall2 unpacked children' children'' ->
    unpacked (Element tag attributes text children) (Element tag attributes text children'').
