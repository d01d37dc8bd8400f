(** Specification vocabulary: functions of the user that remember something ([W]) between their calls or raise exceptions. *)
From Coq Require Import Ascii String List NArith ZArith Bool.
From Verif Require Import PyBase PyStr M_Components M_Ahb S_ValuePool S_DeepAhb.
Import ListNotations.
Local Open Scope list_scope.

(** a function is asked the questions one after the other until it raises an exception: the answers, what it
    remembers before and afterwards, the exception *)
Inductive interview {W Q B : Type} (f : Q -> W -> W * result B) : list Q -> list B -> W -> W -> option exn -> Prop :=
| no_question w : interview f [] [] w w None
| answered q b qs bs w w' w'' x : f q w = (w', Ok b) -> interview f qs bs w' w'' x -> interview f (q :: qs) (b :: bs) w w'' x
| refused q qs w w' e : f q w = (w', Raise e) -> interview f (q :: qs) [] w w' (Some e).

(** the data elements of a group: those of its nested groups come first *)
Fixpoint elements_in_turn (g : SegmentGroup) : list DataElement :=
  match g with
  | mkGroup _ _ _ segments groups =>
      match groups with None => [] | Some l => flat_map elements_in_turn l end ++ flat_map seg_elements (olist segments)
  end.
Definition all_elements_in_turn (a : DeepAhb) : list DataElement := flat_map elements_in_turn (da_lines a).

(** the inputs of some data elements are replaced one after the other, until the function raises an exception; the elements that
    have no discriminator are not asked for *)
Inductive replaced_in_turn {W : Type} (f : pystr -> W -> W * result Replacement) :
  list DataElement -> list DataElement -> W -> W -> option exn -> Prop :=
| nothing_to_replace w : replaced_in_turn f [] [] w w None
| without_discriminator d l l' w w' x :
    discriminator_of d = None -> replaced_in_turn f l l' w w' x -> replaced_in_turn f (d :: l) (d :: l') w w' x
| with_replacement d d' disc r l l' w w' w'' x :
    discriminator_of d = Some disc -> f disc w = (w', Ok r) -> rp_found r = true -> only_input_set (rp_input r) d d' ->
    replaced_in_turn f l l' w' w'' x -> replaced_in_turn f (d :: l) (d' :: l') w w'' x
| without_replacement d disc r l l' w w' w'' x :
    discriminator_of d = Some disc -> f disc w = (w', Ok r) -> rp_found r = false ->
    replaced_in_turn f l l' w' w'' x -> replaced_in_turn f (d :: l) (d :: l') w w'' x
| interrupted d disc e l w w' :
    discriminator_of d = Some disc -> f disc w = (w', Raise e) -> replaced_in_turn f (d :: l) (d :: l) w w' (Some e).

(** two AHBs that differ in data elements only *)
Definition same_shape (a a' : DeepAhb) : Prop := ahbs_related (fun _ _ => True) eq a a'.

(** those of the things that have been answered with yes *)
Definition chosen {A} (l : list A) (answers : list bool) : list A := map fst (filter snd (combine l answers)).
(** [r'] is [r] followed by those of [l] that are not there yet *)
Inductive with_new {A} : list A -> list A -> list A -> Prop :=
| nothing_new r : with_new r [] r
| is_known r x l r' : In x r -> with_new r l r' -> with_new r (x :: l) r'
| is_new r x l r' : ~ In x r -> with_new (r ++ [x]) l r' -> with_new r (x :: l) r'.
(** the groups that are asked for, given the top level groups: the groups nested in a top level group are asked for
    twice, before and behind the top level group *)
Inductive asked_for : list SegmentGroup -> list SegmentGroup -> Prop :=
| asked_for_nothing : asked_for [] []
| asked_for_line line lines inner questions :
    lists_preorder_all (olist (g_groups line)) inner -> asked_for lines questions ->
    asked_for (line :: lines) (inner ++ line :: inner ++ questions).
(** the groups that are found if those questions are answered in this way *)
Inductive groups_found : list SegmentGroup -> list bool -> list SegmentGroup -> Prop :=
| found_nothing : groups_found [] [] []
| found_for_line lines answers result line inner answers1 answers2 result' :
    groups_found lines answers result ->
    lists_preorder_all (olist (g_groups line)) inner ->
    List.length answers1 = List.length inner -> List.length answers2 = S (List.length inner) ->
    with_new (result ++ chosen inner answers1) (chosen (line :: inner) answers2) result' ->
    groups_found (lines ++ [line]) (answers ++ answers1 ++ answers2) result'.

(** the segments of a group in the order of the preorder of its groups *)
Definition segments_in_order (g : SegmentGroup) (l : list Segment) : Prop :=
  exists groups, lists_preorder g groups /\ l = flat_map (fun h => olist (g_segments h)) groups.
(** the segments that are asked for: those inside of the groups found, then those that are directly in the top level groups *)
Definition asked_segments (lines groups : list SegmentGroup) (l : list Segment) : Prop :=
  exists inner, Forall2 segments_in_order groups inner /\ l = concat inner ++ flat_map (fun line => olist (g_segments line)) lines.

(** what a merger is asked for the qualifier [q] of a pool: the meaning of the last entry with that qualifier, and [q] *)
Definition merger_question (pool : list ValuePoolEntry) (q : pystr) (question : pystr * pystr) : Prop :=
  snd question = q
  /\ exists i e, nth_error pool i = Some e /\ ve_qualifier e = q /\ last_of_its_qualifier pool i /\ fst question = ve_meaning e.
(** the part of a mapping that is about some qualifiers *)
Definition only (qualifiers : list pystr) (mapping : list (pystr * option pystr)) : list (pystr * option pystr) :=
  filter (fun kv => str_in (fst kv) qualifiers) mapping.
Definition is_mapped (mapping : list (pystr * option pystr)) (q : pystr) : bool := str_in q (map fst mapping).
