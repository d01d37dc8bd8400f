(** Specification vocabulary: deep AHBs. *)
From Coq Require Import Ascii String List NArith ZArith Bool.
From Verif Require Import PyBase PyStr M_Components M_Ahb.
Import ListNotations.
Local Open Scope list_scope.

(** [h] is [g] or nested in [g], at any depth *)
Inductive inside (g : SegmentGroup) : SegmentGroup -> Prop :=
| inside_self : inside g g
| inside_deeper h k l : inside g h -> g_groups h = Some l -> In k l -> inside g k.
(** [g] is one of the groups of the AHB, at any depth *)
Definition group_of (a : DeepAhb) (g : SegmentGroup) : Prop := exists line, In line (da_lines a) /\ inside line g.
(** [s] is one of the segments that are directly in [g] *)
Definition direct_segment (g : SegmentGroup) (s : Segment) : Prop := exists l, g_segments g = Some l /\ In s l.
(** [s] is a segment in [g], at any depth *)
Definition segment_inside (g : SegmentGroup) (s : Segment) : Prop := exists h, inside g h /\ direct_segment h s.
Definition segment_of (a : DeepAhb) (s : Segment) : Prop := exists g, group_of a g /\ direct_segment g s.
Definition pool_of (a : DeepAhb) (p : ValuePool) : Prop := exists s, segment_of a s /\ In (DPool p) (seg_elements s).

(** [l] lists [g] and the groups nested in it: first the group, then the groups
    nested in its first child, and so on *)
Inductive lists_preorder : SegmentGroup -> list SegmentGroup -> Prop :=
| preorder_group g ls : lists_preorder_all (olist (g_groups g)) ls -> lists_preorder g (g :: ls)
with lists_preorder_all : list SegmentGroup -> list SegmentGroup -> Prop :=
| preorder_nil : lists_preorder_all [] []
| preorder_cons g gs l ls : lists_preorder g l -> lists_preorder_all gs ls -> lists_preorder_all (g :: gs) (l ++ ls).

(** [l] lists the segments of [g] and of the groups nested in it that satisfy [p], in document order:
    the segments that are directly in a group come before those of the groups nested in it *)
Definition lists_segments (p : Segment -> bool) (g : SegmentGroup) (l : list Segment) : Prop :=
  exists groups, lists_preorder g groups /\ l = filter p (flat_map (fun h => olist (g_segments h)) groups).
(** [l] lists the value pools among some data elements, in their order *)
Inductive lists_pools : list DataElement -> list ValuePool -> Prop :=
| no_pools : lists_pools [] []
| a_pool p ds l : lists_pools ds l -> lists_pools (DPool p :: ds) (p :: l)
| a_free_text t ds l : lists_pools ds l -> lists_pools (DFree t :: ds) l.
(** [r] has of every key the first element of [l] with this key, in the order of [l] *)
Inductive first_of_each {A K : Type} (key : A -> K) : list A -> list A -> Prop :=
| first_nil : first_of_each key [] []
| first_new l r x : first_of_each key l r -> ~ In (key x) (map key l) -> first_of_each key (l ++ [x]) (r ++ [x])
| first_known l r x : first_of_each key l r -> In (key x) (map key l) -> first_of_each key (l ++ [x]) r.

(** the expression [e] occurs on a group, a segment, a free text or a value pool entry *)
Inductive expression_of (a : DeepAhb) : pystr -> Prop :=
| of_group g : group_of a g -> expression_of a (g_expression g)
| of_segment s : segment_of a s -> expression_of a (seg_expression s)
| of_free_text s f : segment_of a s -> In (DFree f) (seg_elements s) -> expression_of a (ft_expression f)
| of_pool_entry s p e : segment_of a s -> In (DPool p) (seg_elements s) -> In e (vp_pool p) -> expression_of a (ve_expression e).

(** [a] comes before [b] in a dictionary ordered by code points *)
Definition code_point_less (a b : pystr) : Prop :=
  exists common a' b', a = common ++ a' /\ b = common ++ b'
    /\ (a' = [] /\ b' <> [] \/ exists x y r r', a' = x :: r /\ b' = y :: r' /\ (x < y)%N).

(** two AHBs of the same shape; data elements are related by [R], line indexes by [I],
    everything else is equal *)
Inductive opt_related {A B} (R : A -> B -> Prop) : option A -> option B -> Prop :=
| opt_none : opt_related R None None
| opt_some x y : R x y -> opt_related R (Some x) (Some y).
Definition segments_related (R : DataElement -> DataElement -> Prop) (I : option Z -> option Z -> Prop) (s s' : Segment) : Prop :=
  seg_discriminator s' = seg_discriminator s /\ seg_expression s' = seg_expression s /\ I (seg_index s) (seg_index s')
  /\ Forall2 R (seg_elements s) (seg_elements s') /\ seg_section s' = seg_section s /\ seg_id s' = seg_id s.
Inductive groups_related (R : DataElement -> DataElement -> Prop) (I : option Z -> option Z -> Prop) : SegmentGroup -> SegmentGroup -> Prop :=
| groups_are_related d e i i' ss ss' gs gs' :
    I i i' -> opt_related (Forall2 (segments_related R I)) ss ss' -> opt_related (Forall2 (groups_related R I)) gs gs' ->
    groups_related R I (mkGroup d e i ss gs) (mkGroup d e i' ss' gs').
Definition ahbs_related R I (a a' : DeepAhb) : Prop :=
  da_meta a' = da_meta a /\ Forall2 (groups_related R I) (da_lines a) (da_lines a').

(** everything of a data element but its entered input is unchanged; the new input is [v] *)
Definition only_input_set (v : option pystr) (d d' : DataElement) : Prop :=
  match d, d' with
  | DFree f, DFree f' => ft_input f' = v /\ ft_discriminator f' = ft_discriminator f /\ ft_id f' = ft_id f
                         /\ ft_type f' = ft_type f /\ ft_expression f' = ft_expression f
  | DPool p, DPool p' => vp_input p' = v /\ vp_discriminator p' = vp_discriminator p /\ vp_id p' = vp_id p
                         /\ vp_type p' = vp_type p /\ vp_pool p' = vp_pool p
  | _, _ => False
  end.
Definition discriminator_of (d : DataElement) : option pystr :=
  match d with DFree f => ft_discriminator f | DPool p => vp_discriminator p end.
(** [d'] is [d] after the replacement function has been applied *)
Definition input_replaced (f : pystr -> Replacement) (d d' : DataElement) : Prop :=
  (forall disc, discriminator_of d = Some disc -> rp_found (f disc) = true -> only_input_set (rp_input (f disc)) d d')
  /\ (forall disc, discriminator_of d = Some disc -> rp_found (f disc) = false -> d' = d)
  /\ (discriminator_of d = None -> d' = d).

(** the groups found for the top level groups [ls]: for each of them the matching groups nested in
    it, in preorder, and then the top level group itself if it matches and is not yet (equal to) a result *)
Inductive found (p : SegmentGroup -> bool) : list SegmentGroup -> list SegmentGroup -> Prop :=
| found_none : found p [] []
| found_line ls result line inner top :
    found p ls result ->
    lists_preorder_all (olist (g_groups line)) inner ->
    (p line = true /\ ~ In line (result ++ filter p inner) -> top = [line]) ->
    (p line = false \/ In line (result ++ filter p inner) -> top = []) ->
    found p (ls ++ [line]) (result ++ filter p inner ++ top).
