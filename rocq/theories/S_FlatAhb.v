(** Specification vocabulary: lists of AHB lines. *)
From Coq Require Import Ascii String List NArith ZArith Bool.
From Verif Require Import PyStr M_Ahb S_Text.
Import ListNotations.
Local Open Scope list_scope.

(** [gs] lists the values occurring in [ks], each once, ordered by their first occurrence *)
Definition first_occurrences {A} (ks gs : list A) : Prop :=
  NoDup gs
  /\ (forall k, In k gs <-> In k ks)
  /\ forall g1 x g2 y g3, gs = g1 ++ x :: g2 ++ y :: g3 ->
       exists l1 l2, ks = l1 ++ x :: l2 /\ ~ In y l1.

(** neighbours in a list *)
Definition adjacent {A} (x y : A) (l : list A) : Prop := exists l1 l2, l = l1 ++ x :: y :: l2.

(** [cs] are the chunks of [l] between the places where [cut] holds *)
Definition is_chunking {A} (cut : A -> A -> Prop) (l : list A) (cs : list (list A)) : Prop :=
  concat cs = l
  /\ (forall c, In c cs -> c <> [] /\ forall x y, adjacent x y c -> ~ cut x y)
  /\ (forall c d x y, adjacent c d cs -> (exists r, c = r ++ [x]) -> (exists r, d = y :: r) -> cut x y).

(** from a line without to a line with a segment group *)
Definition enters_group (x y : AhbLine) : Prop := al_group x = None /\ al_group y <> None.

(** what the three checks of a line in a flat AHB accept *)
Definition accepted_group (s : pystr) : Prop := exists k t, s = k ++ t /\ SG_key k /\ maybe_newline t.
Definition accepted_segment (s : pystr) : Prop := exists k t, s = k ++ t /\ capitals k /\ maybe_newline t.
Definition accepted_element (s : pystr) : Prop :=
  exists k t, s = k ++ t /\ (n_digits 4 k \/ n_digits 5 k \/ letters_then_four_digits k) /\ maybe_newline t.
Definition accepted_line (l : AhbLine) : Prop :=
  (forall s, al_group l = Some s -> accepted_group s)
  /\ (forall s, al_segment l = Some s -> accepted_segment s)
  /\ (forall s, al_element l = Some s -> accepted_element s).

(** [n] of the elements of [l] satisfy [P] *)
Inductive count_of {A} (P : A -> Prop) : list A -> nat -> Prop :=
| count_nil : count_of P [] 0
| count_yes x l n : P x -> count_of P l n -> count_of P (x :: l) (S n)
| count_no x l n : ~ P x -> count_of P l n -> count_of P (x :: l) n.
