(** Specification vocabulary: qualifiers and value pools. *)
From Coq Require Import Ascii String List NArith ZArith Bool.
From Verif Require Import PyStr M_Components S_Text.
Import ListNotations.
Local Open Scope list_scope.

Definition capital_or_digit (c : char) : bool := is_AZ c || is_decimal c.
(** e.g. E01, 9, 1.1a, but also "E01 foo" *)
Definition starts_with_capital_or_digit (s : pystr) : Prop := exists c r, s = c :: r /\ capital_or_digit c = true.
(** a dash, then capitals, digits and dashes, then possibly RLMoT or RLMmT *)
Definition dash_qualifier (s : pystr) : Prop :=
  exists w t n, s = chr_dash :: w ++ t ++ n
    /\ all (fun c => capital_or_digit c || N.eqb c chr_dash) w
    /\ (t = [] \/ t = u "RLMoT" \/ t = u "RLMmT") /\ maybe_newline n.
Definition accepted_qualifier (s : pystr) : Prop :=
  ~ blank s /\ (starts_with_capital_or_digit s \/ dash_qualifier s).

(** the position [i] is the last one in the pool with its qualifier *)
Definition last_of_its_qualifier (pool : list ValuePoolEntry) (i : nat) : Prop :=
  forall e j e', nth_error pool i = Some e -> i < j -> nth_error pool j = Some e' -> ve_qualifier e' <> ve_qualifier e.

(** the meaning after a replacement *)
Definition new_meaning (merger : option (pystr -> pystr -> pystr)) (e : ValuePoolEntry) : pystr :=
  match merger with None => ve_meaning e | Some f => f (ve_meaning e) (ve_qualifier e) end.

(** [image q]: what the mapping says about the qualifier q; None: q is not in the
    mapping, Some v: q is mapped to v (which is a str or, at run time, possibly None) *)
Definition valid_image (image : pystr -> option (option pystr)) (q : pystr) : Prop :=
  match image q with
  | None => True
  | Some None => False
  | Some (Some q') => accepted_qualifier q'
  end.
(** [e] renamed by the mapping *)
Definition renamed (image : pystr -> option (option pystr)) (merger : option (pystr -> pystr -> pystr))
           (e e' : ValuePoolEntry) : Prop :=
  match image (ve_qualifier e) with
  | None => e' = e
  | Some None => False
  | Some (Some q') => e' = mkEntry q' (new_meaning merger e) (ve_expression e)
  end.

(** [a] is obtained from [b] by deleting elements *)
Inductive subsequence {A} : list A -> list A -> Prop :=
| subseq_nil l : subsequence [] l
| subseq_take x a b : subsequence a b -> subsequence (x :: a) (x :: b)
| subseq_skip x a b : subsequence a b -> subsequence a (x :: b).
