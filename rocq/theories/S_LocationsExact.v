(** Specification vocabulary: which layers a location has (property C89). *)
From Coq Require Import List.
From Verif Require Import PyBase PyStr M_Ahb M_Components M_Sgh M_Navigation S_Sgh S_Navigation.
Import ListNotations.
Local Open Scope list_scope.

(** [k] is a position at which a group with the key [key] is entered *)
Definition entered_at (changes : list (AhbLine * Change)) (key : option pystr) (k : nat) : Prop :=
  exists line change, nth_error changes k = Some (line, change) /\ change <> STAY /\ al_group line = key.

(** [k] is the last position up to [i] at which a group with the key [key] is entered *)
Definition last_entered (changes : list (AhbLine * Change)) (i : nat) (key : option pystr) (k : nat) : Prop :=
  k <= i /\ entered_at changes key k /\ forall m, k < m <= i -> ~ entered_at changes key m.

(** The layer for the group with the key [key] in a location of line [i]: it has the segment and
    the qualifier that come next where the group has been entered last.  The message itself is
    not entered at the beginning: unless it is re-entered later, it has its own opening segment
    and the first qualifier of the file. *)
Inductive layer_for (h : Sgh) (lines : list AhbLine) (changes : list (AhbLine * Change)) (i : nat) (key : option pystr) : Layer -> Prop :=
| layer_entered k opening qualifier :
    last_entered changes i key k ->
    next_at al_segment lines k (Some opening) -> next_at al_entry lines k qualifier ->
    layer_for h lines changes i key (mkLayer key opening qualifier)
| layer_of_the_message qualifier :
    key = sgh_key h -> (forall k, k <= i -> ~ entered_at changes key k) ->
    next_at al_entry lines 0 qualifier ->
    layer_for h lines changes i key (mkLayer key (sgh_opening h) qualifier).
