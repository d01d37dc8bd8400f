(** Specification vocabulary: hierarchy changes and locations. *)
From Coq Require Import Ascii String List NArith ZArith Bool.
From Verif Require Import PyBase PyStr M_Components M_Ahb M_Sgh M_Navigation S_Prefix S_Text S_Sgh.
Import ListNotations.
Local Open Scope list_scope.

(** [v] is the value of the attribute [f] on the first line at or behind position [i] that
    has it; None if there is no such line *)
Definition next_at (f : AhbLine -> option pystr) (lines : list AhbLine) (i : nat) (v : option pystr) : Prop :=
  (exists j l, i <= j /\ nth_error lines j = Some l /\ f l = v /\ v <> None
     /\ forall k l', i <= k < j -> nth_error lines k = Some l' -> f l' = None)
  \/ (v = None /\ forall k l', i <= k -> nth_error lines k = Some l' -> f l' = None).

(** the segment group key of the line before position [i]; None in front of the first line *)
Definition previous_key (lines : list AhbLine) (i : nat) (k : option pystr) : Prop :=
  (i = 0 /\ k = None) \/ exists j l, i = S j /\ nth_error lines j = Some l /\ al_group l = k.

(** some group with the key [x] is below a group with the key [y] *)
Definition key_below (h : Sgh) (x y : option pystr) : Prop :=
  exists a d, occurs_in a h /\ sgh_key a = y /\ below d a /\ sgh_key d = x.

(** the (next segment, next qualifier) of the latest position before [i] at which a change has
    been reported; before the first change: (None, UNH) *)
Definition last_opening (lines : list AhbLine) (changes : list (AhbLine * Change)) (i : nat) (s q : option pystr) : Prop :=
  (exists j l c, j < i /\ nth_error changes j = Some (l, c) /\ c <> STAY
     /\ (forall k l' c', j < k < i -> nth_error changes k = Some (l', c') -> c' = STAY)
     /\ next_at al_segment lines j s /\ next_at al_entry lines j q)
  \/ ((forall k l' c', k < i -> nth_error changes k = Some (l', c') -> c' = STAY) /\ s = None /\ q = Some (u "UNH")).

(** the groups [x] and [y] as neighbouring lines: [y] is the root group or a child of a group
    that one is in when one is in [x] *)
Definition may_follow (h : Sgh) (x y : option pystr) : Prop :=
  exists p n q m, node_at h p = Some n /\ sgh_key n = x /\ node_at h q = Some m /\ sgh_key m = y
    /\ (q = [] \/ exists q' i, q = q' ++ [i] /\ is_prefix q' p).
(** no line enters a group whose parent group it is not inside of *)
Fixpoint disciplined (h : Sgh) (previous : option pystr) (lines : list AhbLine) : Prop :=
  match lines with
  | [] => True
  | l :: r => may_follow h previous (al_group l) /\ disciplined h (al_group l) r
  end.

(** the format that the validators of locations and layers require *)
Definition acceptable_segment (s : option pystr) : Prop := forall v, s = Some v -> three_capitals v.
Definition acceptable_element (s : option pystr) : Prop := forall v, s = Some v -> n_digits 4 v.
Definition acceptable_qualifier (s : option pystr) : Prop := forall v, s = Some v -> capitals_then_digits v.
