(** Python's [re] as far as the code uses it.

    A pattern is an abstract syntax tree; matching is backtracking, expressed as
    the list of all ways to match in the order in which Python tries them.
    [re.match] takes the first one, [re.fullmatch] the first one that consumes
    the whole string.  Simplification: an iteration of a repetition that
    consumes nothing is dropped; no modelled pattern contains such a body. *)
From Coq Require Import List NArith Bool Arith Ascii.
From Verif Require Import PyBase PyStr.
Import ListNotations.
Local Open Scope list_scope.

(** used by edifact_components.py:127-145, 544-573, anwendungshandbuch.py:252-298, flat_ahb_reader.py:16-20, 205-260, etree_element_helpers.py:23-49 *)
Inductive re : Type :=
| RChar (p : char -> bool)            (* one character of a class *)
| REps                                (* the empty pattern *)
| RSeq (a b : re)
| RAlt (a b : re)                     (* a|b, a is tried first *)
| RStar (greedy : bool) (a : re)      (* a* / a*? *)
| RCap (n : nat) (a : re)             (* group number n *)
| RBol                                (* ^ without MULTILINE: position 0 *)
| REol                                (* $ without MULTILINE: end, or before a final line feed *)
| RNot (a : re).                      (* (?!a) *)

(** used by edifact_components.py:127-145, 544-573, anwendungshandbuch.py:252-298, flat_ahb_reader.py:16-20, 205-260, etree_element_helpers.py:23-49: position, text to the right of the position, captured groups (latest first) *)
Record rst := mkst { st_pos : nat; st_rest : pystr; st_caps : list (nat * pystr) }.

(** [fuel] is the length of the remaining text; every iteration consumes. *)
Section Star.
  Variable greedy : bool.
  Variable step : rst -> list rst.
  (** used by edifact_components.py:127-145, 544-573, anwendungshandbuch.py:252-298, flat_ahb_reader.py:16-20, 205-260, etree_element_helpers.py:23-49 *)
  Fixpoint star_runs (fuel : nat) (st : rst) : list rst :=
    match fuel with
    | O => [st]
    | S f =>
        let more :=
          flat_map (fun st' => if st_pos st <? st_pos st' then star_runs f st' else []) (step st) in
        if greedy then more ++ [st] else st :: more
    end.
End Star.

(** used by edifact_components.py:127-145, 544-573, anwendungshandbuch.py:252-298, flat_ahb_reader.py:16-20, 205-260, etree_element_helpers.py:23-49 *)
Fixpoint runs (r : re) (st : rst) : list rst :=
  match r with
  | RChar p =>
      match st_rest st with
      | c :: t => if p c then [mkst (S (st_pos st)) t (st_caps st)] else []
      | [] => []
      end
  | REps => [st]
  | RSeq a b => flat_map (runs b) (runs a st)
  | RAlt a b => runs a st ++ runs b st
  | RStar g a => star_runs g (runs a) (length (st_rest st)) st
  | RCap n a =>
      map (fun st' =>
             mkst (st_pos st') (st_rest st')
                  ((n, firstn (st_pos st' - st_pos st) (st_rest st)) :: st_caps st'))
          (runs a st)
  | RBol => match st_pos st with O => [st] | S _ => [] end
  | REol =>
      match st_rest st with
      | [] => [st]
      | [c] => if N.eqb c chr_newline then [st] else []
      | _ => []
      end
  | RNot a => match runs a st with [] => [st] | _ => [] end
  end.

(** used by edifact_components.py:127-145, 544-573, anwendungshandbuch.py:252-298, flat_ahb_reader.py:16-20, 205-260, etree_element_helpers.py:23-49: [m[n]]: text of group n, None if the group did not take part *)
Definition group (n : nat) (st : rst) : option pystr :=
  match find (fun c => Nat.eqb n (fst c)) (st_caps st) with
  | Some (_, s) => Some s
  | None => None
  end.

(** used by edifact_components.py:127-145, 544-573, anwendungshandbuch.py:252-298, flat_ahb_reader.py:16-20, 205-260, etree_element_helpers.py:23-49 *)
Definition start (s : pystr) : rst := mkst 0 s [].

(** used by edifact_components.py:127-145, 544-573, anwendungshandbuch.py:252-298, flat_ahb_reader.py:16-20, 205-260, etree_element_helpers.py:23-49: pattern.match(s) *)
Definition re_match (r : re) (s : pystr) : option rst := hd_error (runs r (start s)).
(** used by edifact_components.py:127-145, 544-573, anwendungshandbuch.py:252-298, flat_ahb_reader.py:16-20, 205-260, etree_element_helpers.py:23-49: pattern.fullmatch(s) *)
Definition re_fullmatch (r : re) (s : pystr) : option rst :=
  find (fun st => match st_rest st with [] => true | _ => false end) (runs r (start s)).
(** used by edifact_components.py:127-145, 544-573, anwendungshandbuch.py:252-298, flat_ahb_reader.py:16-20, 205-260, etree_element_helpers.py:23-49 *)
Definition matches (r : re) (s : pystr) : bool := is_some (re_match r s).
(** used by edifact_components.py:127-145, 544-573, anwendungshandbuch.py:252-298, flat_ahb_reader.py:16-20, 205-260, etree_element_helpers.py:23-49 *)
Definition fullmatches (r : re) (s : pystr) : bool := is_some (re_fullmatch r s).

(** used by edifact_components.py:127-145, 544-573, anwendungshandbuch.py:252-298, flat_ahb_reader.py:16-20, 205-260, etree_element_helpers.py:23-49: pattern.finditer(s) for patterns that never match the empty string: leftmost
    matches, the search continues behind each match.  [skip] counts the
    characters of the last match that still have to be passed. *)
Fixpoint finditer_go (r : re) (pos skip : nat) (s : pystr) : list rst :=
  match s with
  | [] => []
  | _ :: t =>
      match skip with
      | S k => finditer_go r (S pos) k t
      | O =>
          match hd_error (runs r (mkst pos s [])) with
          | Some st => st :: finditer_go r (S pos) (st_pos st - pos - 1) t
          | None => finditer_go r (S pos) 0 t
          end
      end
  end.
(** used by edifact_components.py:127-145, 544-573, anwendungshandbuch.py:252-298, flat_ahb_reader.py:16-20, 205-260, etree_element_helpers.py:23-49 *)
Definition finditer (r : re) (s : pystr) : list rst := finditer_go r 0 0 s.

(** ** Abbreviations *)
(** used by edifact_components.py:127-145, 544-573, anwendungshandbuch.py:252-298, flat_ahb_reader.py:16-20, 205-260, etree_element_helpers.py:23-49 *)
Definition RPlus (a : re) : re := RSeq a (RStar true a).
(** used by edifact_components.py:127-145, 544-573, anwendungshandbuch.py:252-298, flat_ahb_reader.py:16-20, 205-260, etree_element_helpers.py:23-49 *)
Definition RPlusLazy (a : re) : re := RSeq a (RStar false a).
(** used by edifact_components.py:127-145, 544-573, anwendungshandbuch.py:252-298, flat_ahb_reader.py:16-20, 205-260, etree_element_helpers.py:23-49 *)
Definition ROpt (a : re) : re := RAlt a REps.
(** used by edifact_components.py:127-145, 544-573, anwendungshandbuch.py:252-298, flat_ahb_reader.py:16-20, 205-260, etree_element_helpers.py:23-49 *)
Fixpoint RRep (n : nat) (a : re) : re :=
  match n with O => REps | S k => RSeq a (RRep k a) end.
(** used by edifact_components.py:127-145, 544-573, anwendungshandbuch.py:252-298, flat_ahb_reader.py:16-20, 205-260, etree_element_helpers.py:23-49 *)
Fixpoint RLit (s : pystr) : re :=
  match s with [] => REps | c :: t => RSeq (RChar (N.eqb c)) (RLit t) end.
