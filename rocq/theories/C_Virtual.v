(** C93: unpacking the virtual groups of a MIG (mig_xml_reader.py:72-85) *)
From Coq Require Import Ascii String List NArith ZArith Bool Arith Permutation.
From Verif Require Import PyBase PyStr M_Components M_Xml M_MigXml M_Virtual S_MigXml S_Virtual L_Base L_Qualifiers L_Virtual L_VirtualAll.
Import ListNotations.
Local Open Scope list_scope.

(** the root stays what it is, and except for virtual groups every element of the document is kept, once, with its
    attributes and its text *)
Theorem C93_elements_are_kept document :
  alone (unpack_virtual_groups document) = alone document
  /\ exists groups, Forall virtual_group groups
       /\ Permutation (all_elements document) (all_elements (unpack_virtual_groups document) ++ groups).
Proof.
  unfold unpack_virtual_groups. split.
  - rewrite unpack_all_top. now rewrite erase_label.
  - destruct (unpack_all_flat (parents (label [] document)) (label [] document) (label_nodup [] document)) as (gs & F & P).
    exists (map snd gs). split.
    + apply Forall_forall. intros e H. apply in_map_iff in H as (x & <- & H). rewrite Forall_forall in F. apply virtual_element_iff. now apply F.
    + rewrite erase_flat, <- map_app, <- P, <- erase_flat, erase_label. reflexivity.
Qed.
Print Assumptions C93_elements_are_kept.

(** if no virtual group is directly inside another one, all the virtual groups below the root are gone *)
Theorem C93_no_group_is_left document :
  (forall e c, e = document \/ below document e -> virtual_group e -> In c (el_children e) -> ~ virtual_group c) ->
  forall e, below (unpack_virtual_groups document) e -> ~ virtual_group e.
Proof.
  intros H e B V. unfold unpack_virtual_groups in B. apply below_node in B as (m & c & M & C & ->). apply virtual_node_iff in V.
  refine (unpack_all_keeps (parents (label [] document)) (label [] document) (label_nodup [] document) _ _ m c M C V).
  - intros n d N Vn D. apply virtual_node_false. apply (H (erase n)).
    + apply all_nodes_below in N as [-> |N]; [left; apply erase_label|right]. now rewrite erase_label in N.
    + now apply virtual_node_iff.
    + rewrite erase_children. now apply in_map.
  - apply only_at_parents.
Qed.
Print Assumptions C93_no_group_is_left.

(** a document without virtual groups (below its root) is not changed *)
Theorem C93_nothing_to_unpack document :
  (forall e, below document e -> ~ virtual_group e) -> unpack_virtual_groups document = document.
Proof. intros H. unfold unpack_virtual_groups. rewrite no_parents by exact H. cbn [fold_left]. apply erase_label. Qed.
Print Assumptions C93_nothing_to_unpack.

(** the example of the documentation: a group that is the only child is replaced by its children *)
Theorem C93_only_child tag attributes text group :
  virtual_group group -> (forall e, below group e -> ~ virtual_group e) ->
  unpack_virtual_groups (Element tag attributes text [group]) = Element tag attributes text (el_children group).
Proof. apply unpack_only. Qed.
Print Assumptions C93_only_child.

(** the children of a group that is not the first child come, in reverse order, in front of the element before the group *)
Theorem C93_group_behind_an_element tag attributes text before neighbour group behind :
  virtual_group group -> (forall e, below group e -> ~ virtual_group e) ->
  (forall c, In c (before ++ neighbour :: behind) -> ~ virtual_group c /\ forall e, below c e -> ~ virtual_group e) ->
  unpack_virtual_groups (Element tag attributes text (before ++ neighbour :: group :: behind))
  = Element tag attributes text (before ++ rev (el_children group) ++ neighbour :: behind).
Proof. apply unpack_behind. Qed.
Print Assumptions C93_group_behind_an_element.

(** the children of a group that is the first child come in front of the last child *)
Theorem C93_group_in_front tag attributes text group behind last :
  virtual_group group -> (forall e, below group e -> ~ virtual_group e) ->
  (forall c, In c (behind ++ [last]) -> ~ virtual_group c /\ forall e, below c e -> ~ virtual_group e) ->
  unpack_virtual_groups (Element tag attributes text (group :: behind ++ [last]))
  = Element tag attributes text (behind ++ el_children group ++ [last]).
Proof. apply unpack_first. Qed.
Print Assumptions C93_group_in_front.

(** what becomes of any document, with any number of groups at any places: exactly the result that S_Virtual.v describes *)
Theorem C93_description document result : unpack_virtual_groups document = result <-> unpacked document result.
Proof.
  assert (U : unpacked document (unpack_virtual_groups document)).
  { pose proof (unpack_all_unpacked _ (label [] document) (le_n _) (label_nodup [] document)) as H. now rewrite erase_label in H. }
  split; [intros <-; exact U|]. intros H. exact (unpacked_unique _ _ U _ H).
Qed.
Print Assumptions C93_description.

Section Examples.
  Let field (name : string) : element := Element (u "field") [(u "name", u name)] None [].
  Let group (children : list element) : element := Element (u "class") [(u "meta.virtual", u "true")] None children.
  Let root (children : list element) : element := Element (u "UTILMD") [] None children.

  Lemma group_virtual children : virtual_group (group children).
  Proof. split; [reflexivity|]. exists [], []. split; [reflexivity|]. intros []. Qed.
  Lemma field_not_virtual name : ~ virtual_group (field name).
  Proof. intros [H _]. apply str_eqb_eq in H. vm_compute in H. discriminate. Qed.
  Lemma field_empty name e : ~ below (field name) e.
  Proof. intros H. inversion H as [c C|c f C _]; exact C. Qed.
  Lemma below_group names e : below (group (map field names)) e -> ~ virtual_group e.
  Proof.
    intros H. inversion H as [c C|c f C B]; subst; cbn in C; apply in_map_iff in C as (n & <- & _).
    - apply field_not_virtual.
    - now apply field_empty in B.
  Qed.

  (** the children do not always take the place of the group, in their order *)
  Theorem C93_place_of_the_group_refuted :
    ~ (forall tag attributes text before group behind,
         virtual_group group -> (forall e, below group e -> ~ virtual_group e) ->
         (forall c, In c (before ++ behind) -> ~ virtual_group c /\ forall e, below c e -> ~ virtual_group e) ->
         unpack_virtual_groups (Element tag attributes text (before ++ group :: behind))
         = Element tag attributes text (before ++ el_children group ++ behind)).
  Proof.
    intros H. specialize (H (u "UTILMD") [] None [field "a"] (group (map field ["b"; "c"]%string)) [] (group_virtual _) (below_group _)).
    assert (V : forall c, In c ([field "a"] ++ []) -> ~ virtual_group c /\ forall e, below c e -> ~ virtual_group e).
    { intros c [<- |[]]. split; [apply field_not_virtual|]. intros e B. now apply field_empty in B. }
    specialize (H V). vm_compute in H. discriminate.
  Qed.
  Print Assumptions C93_place_of_the_group_refuted.

  (** a group in a group is still there *)
  Theorem C93_group_in_a_group_refuted :
    ~ (forall document e, below (unpack_virtual_groups document) e -> ~ virtual_group e).
  Proof.
    intros H. apply (H (root [group [group [field "a"]]]) (group [field "a"])); [|apply group_virtual].
    apply below_child. left. vm_compute. reflexivity.
  Qed.
  Print Assumptions C93_group_in_a_group_refuted.

  (** the hypotheses are met: two groups, one of them below an element *)
  Example C93_instance :
    let document := root [field "a"; group [field "b"; field "c"]; Element (u "class") [] None [group [field "d"]; field "e"; field "f"]] in
    (forall e c, e = document \/ below document e -> virtual_group e -> In c (el_children e) -> ~ virtual_group c)
    /\ unpack_virtual_groups document = root [field "c"; field "b"; field "a"; Element (u "class") [] None [field "e"; field "d"; field "f"]].
  Proof.
    intros document. split; [|vm_compute; reflexivity].
    intros e c B V C.
    assert (K : exists names, e = group (map field names)).
    { destruct V as [T V]. unfold carries in V.
      assert (A : attr (u "meta.virtual") e = Some (u "true")) by (now apply attr_carries).
      clear V. destruct B as [-> |B]; [vm_compute in A; discriminate|].
      inversion B as [d D|d f D B']; subst.
      - cbn in D. destruct D as [<- |[<- |[<- |[]]]]; [vm_compute in A; discriminate|now exists ["b"; "c"]%string|vm_compute in A; discriminate].
      - cbn in D. destruct D as [<- |[<- |[<- |[]]]].
        + now apply field_empty in B'.
        + exfalso. apply (below_group ["b"; "c"]%string e); [exact B'|]. split; [exact T|]. now apply attr_carries.
        + inversion B' as [d D|d f D B'']; subst; cbn in D; destruct D as [<- |[<- |[<- |[]]]];
            try (vm_compute in A; discriminate); try (now exists ["d"]%string); try (now apply field_empty in B'').
          exfalso. apply (below_group ["d"]%string e); [exact B''|]. split; [exact T|]. now apply attr_carries. }
    destruct K as (names & ->). cbn in C. apply in_map_iff in C as (n & <- & _). apply field_not_virtual.
  Qed.

  (** groups in groups: the group in the first one moves out of it, and only what is inside of it is unpacked *)
  Example C93_description_instance :
    unpacked (root [group [group [group [field "a"; field "b"]; field "c"]]; field "d"; group [field "e"]])
             (root [field "d"; field "e"; group [field "a"; field "b"; field "c"]]).
  Proof. apply C93_description. vm_compute. reflexivity. Qed.
End Examples.
