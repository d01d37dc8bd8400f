(** Model of src/maus/models/message_implementation_guide.py *)
From Coq Require Import List NArith ZArith Bool Ascii String.
From Verif Require Import PyBase PyStr M_Components.
Import ListNotations.

(** message_implementation_guide.py:16-35 [SegmentGroupHierarchy]: segment_group,
    opening_segment, sub_hierarchy *)
Inductive Sgh :=
  mkSgh (segment_group : option pystr) (opening_segment : pystr) (sub_hierarchy : option (list Sgh)).

(** message_implementation_guide.py:16-35 *)
Definition sgh_key (h : Sgh) : option pystr := let 'mkSgh k _ _ := h in k.
(** message_implementation_guide.py:16-35 *)
Definition sgh_opening (h : Sgh) : pystr := let 'mkSgh _ o _ := h in o.
(** message_implementation_guide.py:16-35 *)
Definition sgh_subs (h : Sgh) : option (list Sgh) := let 'mkSgh _ _ s := h in s.

(** message_implementation_guide.py:37-46 [flattened] *)
Fixpoint flattened (h : Sgh) : list (option pystr * pystr) :=
  match h with
  | mkSgh k o subs =>
      (k, o) :: match subs with Some l => flat_map flattened l | None => [] end
  end.

(** message_implementation_guide.py:48-59 [is_hierarchically_below]; the for
    loop with its two early returns is [existsb] *)
Fixpoint is_hierarchically_below (h : Sgh) (segment_group_key : option pystr) : bool :=
  match h with
  | mkSgh _ _ None => false
  | mkSgh _ _ (Some subs) =>
      existsb (fun sub => if ostr_eqb (sgh_key sub) segment_group_key then true
                          else is_hierarchically_below sub segment_group_key) subs
  end.

(** message_implementation_guide.py:61-80 [sg_is_hierarchically_below] *)
Fixpoint sg_is_hierarchically_below (h : Sgh) (x y : option pystr) : bool :=
  if ostr_eqb x y then false
  else if ostr_eqb (sgh_key h) y && ostr_in x (map fst (flattened h)) then true
  else match h with
       | mkSgh _ _ (Some subs) => existsb (fun sub => sg_is_hierarchically_below sub x y) subs
       | mkSgh _ _ None => false
       end.
