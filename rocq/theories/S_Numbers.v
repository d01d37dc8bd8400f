(** Specification vocabulary: numbers and UUIDs as texts.
    [is_decimal], [digit_value] and [is_space] are Unicode properties of a character
    (PyStr.v); a text is a list of characters. *)
From Coq Require Import Ascii String List NArith ZArith Bool.
From Verif Require Import PyStr.
Import ListNotations.
Local Open Scope list_scope.

(** whitespace around a number: the characters Python calls space, but not the ASCII separators 28 to 31 *)
Definition number_space (c : char) : Prop := is_space c = true /\ ~ (28 <= c <= 31)%N.

(** the character [c] is a digit that stands for [d]: any Unicode decimal digit, in base 16 also a letter up to F *)
Definition digit_of (base : N) (c : char) (d : N) : Prop :=
  is_decimal c = true /\ d = digit_value c
  \/ base = 16%N /\ ((97 <= c <= 102)%N /\ d = (c - 97 + 10)%N \/ (65 <= c <= 70)%N /\ d = (c - 65 + 10)%N).
(** digits, at most one underscore between two of them *)
Inductive digits_of (base : N) : pystr -> list N -> Prop :=
| last_digit c d : digit_of base c d -> digits_of base [c] [d]
| next_digit c d sep s ds : digit_of base c d -> sep = [] \/ sep = u "_" -> digits_of base s ds ->
    digits_of base (c :: sep ++ s) (d :: ds).
(** the number these digits stand for *)
Definition positional (base : N) (ds : list N) : N := fold_left (fun n d => n * base + d)%N ds 0%N.

(** [s] is a text for the integer [z] *)
Definition number_text (base : N) (s : pystr) (z : Z) : Prop :=
  exists before sign prefix digits behind ds,
    s = before ++ sign ++ prefix ++ digits ++ behind
    /\ Forall number_space before /\ Forall number_space behind
    /\ (prefix = [] \/ base = 16%N /\ In prefix [u "0x"; u "0X"; u "0x_"; u "0X_"])
    /\ digits_of base digits ds
    /\ ((sign = [] \/ sign = u "+") /\ z = Z.of_N (positional base ds) \/ sign = u "-" /\ z = (- Z.of_N (positional base ds))%Z).

(** [t] is [s] with all occurrences of [old] replaced by [new], from left to right *)
Definition occurs (old s : pystr) : Prop := exists a b, s = a ++ old ++ b.
Inductive replaced (old new : pystr) : pystr -> pystr -> Prop :=
| replaced_none s : ~ occurs old s -> replaced old new s s
| replaced_first a s t : (forall a' b', a ++ old = a' ++ old ++ b' -> a' = a) -> replaced old new s t ->
    replaced old new (a ++ old ++ s) (a ++ new ++ t).

(** [s] is a text for the UUID with the given number *)
Definition brace (c : char) : Prop := c = ch "{" \/ c = ch "}".
Definition uuid_text (s : pystr) (n : N) : Prop :=
  exists a b before inner behind hex,
    replaced (u "urn:") [] s a /\ replaced (u "uuid:") [] a b
    /\ b = before ++ inner ++ behind /\ Forall brace before /\ Forall brace behind
    /\ (forall c r, inner = c :: r -> ~ brace c) /\ (forall c r, inner = r ++ [c] -> ~ brace c)
    /\ replaced (u "-") [] inner hex
    /\ List.length hex = 32 /\ number_text 16 hex (Z.of_N n).
