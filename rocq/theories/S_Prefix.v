(** Specification vocabulary: prefixes of lists. *)
From Coq Require Import List.
Import ListNotations.

(** [p] is a prefix of [l] *)
Definition is_prefix {A} (p l : list A) : Prop := exists r, l = p ++ r.

(** [p] is the longest list that is a prefix of both *)
Definition is_longest_common_prefix {A} (p xs ys : list A) : Prop :=
  is_prefix p xs /\ is_prefix p ys /\ forall q, is_prefix q xs -> is_prefix q ys -> is_prefix q p.
