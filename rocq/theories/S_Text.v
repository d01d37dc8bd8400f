(** Specification vocabulary: shapes of strings.
    [is_decimal], [is_space], [is_AZ], [is_az] are the character classes of Python
    (PyStr.v); a string is a list of characters. *)
From Coq Require Import List NArith Bool Ascii String.
From Verif Require Import PyStr.
Import ListNotations.
Local Open Scope list_scope.

(** every character of [s] is in the class [p] *)
Definition all (p : char -> bool) (s : pystr) : Prop := Forall (fun c => p c = true) s.
Definition blank (s : pystr) : Prop := all is_space s.
Definition maybe_newline (t : pystr) : Prop := t = [] \/ t = [chr_newline].
Definition n_digits (n : nat) (s : pystr) : Prop := List.length s = n /\ all is_decimal s.
(** e.g. SG12 *)
Definition SG_key (s : pystr) : Prop := exists ds, s = u "SG" ++ ds /\ ds <> [] /\ all is_decimal ds.
Definition three_capitals (s : pystr) : Prop := List.length s = 3 /\ all is_AZ s.
Definition capitals (s : pystr) : Prop := s <> [] /\ all is_AZ s.
Definition is_letter (c : char) : bool := is_AZ c || is_az c.
(** e.g. R0001 *)
Definition letters_then_four_digits (s : pystr) : Prop :=
  exists a d, s = a ++ d /\ a <> [] /\ all is_letter a /\ n_digits 4 d.
Definition capitals_then_digits (s : pystr) : Prop :=
  exists a d, s = a ++ d /\ all is_AZ a /\ all is_decimal d.

(** [t] is [s] without the whitespace around it *)
Definition stripped (s t : pystr) : Prop :=
  exists a b, s = a ++ t ++ b /\ blank a /\ blank b
    /\ (forall c r, t = c :: r -> is_space c = false)
    /\ (forall c r, t = r ++ [c] -> is_space c = false).
