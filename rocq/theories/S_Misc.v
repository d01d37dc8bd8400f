(** Specification vocabulary for names of fields and for Pruefidentifikatoren. *)
From Coq Require Import Ascii String List NArith Bool.
From Verif Require Import PyStr S_Text.
Import ListNotations.
Local Open Scope list_scope.

(** [c] is the small letter [k] or the corresponding capital (ASCII letters) *)
Definition letter_in_any_case (k c : char) : Prop := c = k \/ (c + 32 = k)%N.
(** [w], in small ASCII letters, occurs in [s], whatever the case of the letters *)
Definition mentions_word (w s : pystr) : Prop :=
  exists a x b, s = a ++ x ++ b /\ Forall2 letter_in_any_case w x.

(** a digit from 1 to 9 followed by four (Unicode) decimal digits *)
Definition five_digits (s : pystr) : Prop :=
  exists c ds, s = c :: ds /\ (49 <= c <= 57)%N /\ n_digits 4 ds.
