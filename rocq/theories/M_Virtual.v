(** Model of mig_xml_reader.py:72-85 [_unpack_virtual_groups].  The method is private and is not called at this
    commit (mig_xml_reader.py:63).

    The method collects nodes first and changes the tree afterwards, so the nodes need an identity: a node carries
    the position it had in the document.  A group that has been removed is not part of the tree any more; changing
    it later has no effect that could be seen.  As in M_Xml.v there are no comments and no texts behind children. *)
From Coq Require Import Ascii String List NArith ZArith Bool Arith.
From Verif Require Import PyBase PyStr M_Components M_Xml M_MigXml.
Import ListNotations.
Local Open Scope list_scope.

(** mig_xml_reader.py:79-85 an element of the tree that is being changed; [id] is its identity *)
Inductive node := Node (id : pos) (tag : pystr) (attrib : list (pystr * pystr)) (text : option pystr) (children : list node).
(** mig_xml_reader.py:79-85 *)
Definition node_id (n : node) : pos := match n with Node i _ _ _ _ => i end.
(** mig_xml_reader.py:79-85 *)
Definition node_children (n : node) : list node := match n with Node _ _ _ _ c => c end.

(** mig_xml_reader.py:79-81 identities are compared ("is") *)
Fixpoint pos_eqb (a b : pos) : bool :=
  match a, b with
  | [], [] => true
  | i :: a', j :: b' => Nat.eqb i j && pos_eqb a' b'
  | _, _ => false
  end.

(** mig_xml_reader.py:79, 81 class[@meta.virtual="true"] *)
Definition is_virtual (tag : pystr) (attrib : list (pystr * pystr)) : bool :=
  str_eqb tag (u "class") && ostr_eqb (dict_get (u "meta.virtual") attrib) (Some (u "true")).
(** mig_xml_reader.py:79 *)
Definition virtual_element (e : element) : bool := is_virtual (el_tag e) (el_attrib e).
(** mig_xml_reader.py:81 *)
Definition virtual_node (n : node) : bool := match n with Node _ t a _ _ => is_virtual t a end.

(** mig_xml_reader.py:53-62 the tree of a document *)
Fixpoint label (p : pos) (e : element) : node :=
  match e with
  | Element t a x cs =>
      Node p t a x
        ((fix each (i : nat) (l : list element) : list node :=
            match l with [] => [] | c :: r => label (p ++ [i]) c :: each (S i) r end) 0 cs)
  end.
(** mig_xml_reader.py:53-62 the document a tree stands for *)
Fixpoint erase (n : node) : element := match n with Node _ t a x cs => Element t a x (map erase cs) end.

(** mig_xml_reader.py:79 xpath('//class[@meta.virtual="true"]/parent::*'): in document order, no node twice *)
Fixpoint parents (n : node) : list pos :=
  match n with
  | Node p _ _ _ cs => (if existsb virtual_node cs then [p] else []) ++ flat_map parents cs
  end.

(** mig_xml_reader.py:82 element.index(child) *)
Fixpoint index_of_node (k : pos) (l : list node) : option nat :=
  match l with
  | [] => None
  | n :: r => if pos_eqb (node_id n) k then Some 0 else option_map S (index_of_node k r)
  end.
(** mig_xml_reader.py:84 element.insert(i - 1, child) (lxml): in front of the child at the index; at -1 there is the
    last child; if there is no child at the index the new one is appended *)
Definition insert_child (i : nat) (x : node) (l : list node) : list node :=
  let j := match i with O => List.length l - 1 | S j => j end in
  firstn j l ++ x :: skipn j l.
(** mig_xml_reader.py:85 element.remove(child) *)
Definition remove_child (k : pos) (l : list node) : list node := filter (fun n => negb (pos_eqb (node_id n) k)) l.

(** mig_xml_reader.py:82-85 one virtual group [k] among the children [l].  lxml looks for the next child of the
    group before the loop body moves the current one, so the loop visits all of them. *)
Definition unpack_group (l : list node) (k : pos) : list node :=
  match index_of_node k l with
  | None => l
  | Some foo_group_index =>
      let fields := match nth_error l foo_group_index with Some g => node_children g | None => [] end in
      remove_child k (fold_left (fun l foo_field => insert_child foo_group_index foo_field l) fields l)
  end.
(** mig_xml_reader.py:81-85 all the virtual groups among the children *)
Definition unpack_children (l : list node) : list node := fold_left unpack_group (map node_id (filter virtual_node l)) l.

(** mig_xml_reader.py:80-85 the node [k], if it is (still) part of the tree *)
Fixpoint unpack_at (k : pos) (n : node) : node :=
  match n with
  | Node i t a x cs => if pos_eqb i k then Node i t a x (unpack_children cs) else Node i t a x (map (unpack_at k) cs)
  end.

(** mig_xml_reader.py:72-85 [_unpack_virtual_groups]: what becomes of the document *)
Definition unpack_virtual_groups (document : element) : element :=
  let root := label [] document in
  erase (fold_left (fun n k => unpack_at k n) (parents root) root).
