(** Python [str] as a list of code points. *)
From Coq Require Import List NArith ZArith Bool Ascii String.
From Verif Require Import PyBase PyUni.
Import ListNotations.
Local Open Scope N_scope.
Local Open Scope list_scope.

(** used by anwendungshandbuch.py:31-134 (among others) *)
Definition char := N.
(** used by anwendungshandbuch.py:31-134 (among others) *)
Definition pystr := list char.

(** ** Literals: [u "..."] decodes the UTF-8 bytes of a Coq string literal *)
(** used by anwendungshandbuch.py:31-134 (among others) *)
Fixpoint bytes_of (s : string) : list N :=
  match s with
  | EmptyString => []
  | String a r => N_of_ascii a :: bytes_of r
  end.

(** used by anwendungshandbuch.py:31-134 (among others) *)
Fixpoint utf8_decode (l : list N) : pystr :=
  match l with
  | [] => []
  | b0 :: r0 =>
      if b0 <? 128 then b0 :: utf8_decode r0
      else
        match r0 with
        | [] => []
        | b1 :: r1 =>
            if b0 <? 224 then ((b0 - 192) * 64 + (b1 - 128)) :: utf8_decode r1
            else
              match r1 with
              | [] => []
              | b2 :: r2 =>
                  if b0 <? 240
                  then ((b0 - 224) * 4096 + (b1 - 128) * 64 + (b2 - 128)) :: utf8_decode r2
                  else
                    match r2 with
                    | [] => []
                    | b3 :: r3 =>
                        ((b0 - 240) * 262144 + (b1 - 128) * 4096 + (b2 - 128) * 64 + (b3 - 128))
                        :: utf8_decode r3
                    end
              end
        end
  end.

(** used by anwendungshandbuch.py:31-134 (among others) *)
Definition u (s : string) : pystr := utf8_decode (bytes_of s).
(** used by anwendungshandbuch.py:31-134 (among others): the code point of an ASCII character *)
Definition ch (a : ascii) : char := N_of_ascii a.

(** used by anwendungshandbuch.py:31-134 (among others) *)
Definition chr_newline : char := 10.
(** used by anwendungshandbuch.py:31-134 (among others) *)
Definition chr_space : char := 32.
(** used by anwendungshandbuch.py:31-134 (among others) *)
Definition chr_quote : char := 34.
(** used by anwendungshandbuch.py:31-134 (among others) *)
Definition chr_dash : char := 45.
(** used by anwendungshandbuch.py:31-134 (among others) *)
Definition chr_lbracket : char := 91.
(** used by anwendungshandbuch.py:31-134 (among others) *)
Definition chr_rbracket : char := 93.

(** ** Equality and order *)
(** used by anwendungshandbuch.py:31-134 (among others) *)
Fixpoint str_eqb (a b : pystr) : bool :=
  match a, b with
  | [], [] => true
  | x :: a', y :: b' => (x =? y) && str_eqb a' b'
  | _, _ => false
  end.

(** used by anwendungshandbuch.py:31-134 (among others) *)
Definition opt_eqb {A} (eqb : A -> A -> bool) (a b : option A) : bool :=
  match a, b with
  | None, None => true
  | Some x, Some y => eqb x y
  | _, _ => false
  end.

(** used by anwendungshandbuch.py:31-134 (among others): equality of Optional[str] *)
Definition ostr_eqb : option pystr -> option pystr -> bool := opt_eqb str_eqb.

(** used by anwendungshandbuch.py:390, cli.py:99: [a <= b] for str: lexicographic by code point *)
Fixpoint str_leb (a b : pystr) : bool :=
  match a, b with
  | [], _ => true
  | _ :: _, [] => false
  | x :: a', y :: b' => if x <? y then true else if x =? y then str_leb a' b' else false
  end.

(** used by anwendungshandbuch.py:538-557 (among others): [x in l] for a list (or set) of strings *)
Definition str_in (x : pystr) (l : list pystr) : bool := existsb (str_eqb x) l.
(** used by anwendungshandbuch.py:337-349 (among others) *)
Definition ostr_in (x : option pystr) (l : list (option pystr)) : bool := existsb (ostr_eqb x) l.

(** used by anwendungshandbuch.py:31-134 (among others): truth value of a str / Optional[str] *)
Definition truthy (s : pystr) : bool := match s with [] => false | _ => true end.
(** used by anwendungshandbuch.py:31-134 (among others) *)
Definition otruthy (s : option pystr) : bool :=
  match s with None => false | Some s => truthy s end.
(** used by anwendungshandbuch.py:31-134 (among others): [s or None] *)
Definition or_none (s : option pystr) : option pystr := if otruthy s then s else None.

(** ** Character classes *)
(** used by anwendungshandbuch.py:31-134 (among others) *)
Definition in_ranges (rs : list (N * N)) (c : char) : bool :=
  existsb (fun r => (fst r <=? c) && (c <=? snd r)) rs.

(** used by models/__init__.py:14 (among others) *)
Definition is_space (c : char) : bool := in_ranges space_ranges c.
(** used by anwendungshandbuch.py:31-134 (among others) *)
Definition is_decimal (c : char) : bool := in_ranges decimal_ranges c.
(** used by anwendungshandbuch.py:31-134 (among others) *)
Definition is_word (c : char) : bool := in_ranges word_ranges c.
(** used by flat_ahb_reader.py:217 *)
Definition upper_is_self (c : char) : bool := negb (in_ranges upper_changes_ranges c).
(** used by mig_ahb_name_helpers.py:24, division_helper.py:35 *)
Definition is_cased (c : char) : bool := in_ranges cased_ranges c.
(** used by mig_ahb_name_helpers.py:24, division_helper.py:35 *)
Definition is_case_ignorable (c : char) : bool := in_ranges case_ignorable_ranges c.
(** used by anwendungshandbuch.py:31-134 (among others) *)
Definition in_range (a b : char) (c : char) : bool := (a <=? c) && (c <=? b).
(** used by anwendungshandbuch.py:31-134 (among others): the regex classes [A-Z], [a-z], [0-9] *)
Definition is_AZ : char -> bool := in_range 65 90.
(** used by anwendungshandbuch.py:31-134 (among others) *)
Definition is_az : char -> bool := in_range 97 122.
(** used by anwendungshandbuch.py:31-134 (among others) *)
Definition is_09 : char -> bool := in_range 48 57.

(** ** strip *)
(** used by models/__init__.py:14 (among others) *)
Fixpoint lstrip (s : pystr) : pystr :=
  match s with
  | [] => []
  | c :: r => if is_space c then lstrip r else s
  end.
(** used by models/__init__.py:14 (among others) *)
Definition rstrip (s : pystr) : pystr := rev (lstrip (rev s)).
(** used by models/__init__.py:14 (among others) *)
Definition strip (s : pystr) : pystr := rstrip (lstrip s).

(** ** lower
    CPython: every character by its full lower case mapping, except the capital
    sigma, which becomes a final sigma after a cased character (skipping
    case-ignorable ones) unless a cased character follows. *)
(** used by mig_ahb_name_helpers.py:24, division_helper.py:35 *)
Fixpoint assoc_N (c : N) (l : list (N * N)) : option N :=
  match l with
  | [] => None
  | (k, v) :: r => if c =? k then Some v else assoc_N c r
  end.

(** used by mig_ahb_name_helpers.py:24, division_helper.py:35 *)
Definition lower_char (c : char) : pystr :=
  if c =? 304 then [105; 775]
  else match assoc_N c lower_pairs with
       | Some d => [d]
       | None => [c]
       end.

(** used by mig_ahb_name_helpers.py:24, division_helper.py:35: is the first character of [s] that is not case-ignorable a cased one? *)
Fixpoint next_is_cased (s : pystr) : bool :=
  match s with
  | [] => false
  | c :: r => if is_case_ignorable c then next_is_cased r else is_cased c
  end.

(** used by mig_ahb_name_helpers.py:24, division_helper.py:35: [before] is the reversed text to the left *)
Fixpoint lower_go (before : pystr) (s : pystr) : pystr :=
  match s with
  | [] => []
  | c :: r =>
      (if c =? 931
       then if next_is_cased before && negb (next_is_cased r) then [962] else [963]
       else lower_char c)
        ++ lower_go (c :: before) r
  end.
(** used by mig_ahb_name_helpers.py:24, division_helper.py:35 *)
Definition lower (s : pystr) : pystr := lower_go [] s.

(** ** Substrings *)
(** used by transformation.py:171, etree_element_helpers.py:17 *)
Fixpoint startswith (s pre : pystr) : bool :=
  match pre, s with
  | [], _ => true
  | p :: pre', c :: s' => (c =? p) && startswith s' pre'
  | _ :: _, [] => false
  end.
(** used by ahb_location_xml.py:85 *)
Definition endswith (s suf : pystr) : bool := startswith (rev s) (rev suf).

(** used by division_helper.py:35, 46: [sub in s] *)
Fixpoint contains (s sub : pystr) : bool :=
  startswith s sub ||
  match s with
  | [] => false
  | _ :: r => contains r sub
  end.

(** used by mig_ahb_name_helpers.py:25-27: [s.replace(old, new)] for non-empty [old]: left to right, not overlapping;
    [skip] counts the characters of the current occurrence still to drop *)
Fixpoint replace_go (old new : pystr) (skip : nat) (s : pystr) : pystr :=
  match s with
  | [] => []
  | c :: r =>
      match skip with
      | S k => replace_go old new k r
      | O => if startswith s old
             then new ++ replace_go old new (List.length old - 1) r
             else c :: replace_go old new O r
      end
  end.
(** used by mig_ahb_name_helpers.py:25-27 *)
Definition replace (s old new : pystr) : pystr := replace_go old new O s.

(** used by mig_xml_reader.py:103-104, etree_element_helpers.py:49: [s.split(c)] for a single character; never empty *)
Fixpoint split_on (sep : char) (s : pystr) : list pystr :=
  match s with
  | [] => [[]]
  | c :: r =>
      if c =? sep then [] :: split_on sep r
      else match split_on sep r with
           | [] => [[c]]
           | w :: ws => (c :: w) :: ws
           end
  end.

(** ** Numbers *)
(** used by edifact_components.py:598-611: decimal digits of a natural number; [fuel] bounds the number of digits *)
Fixpoint digits_go (fuel : nat) (n : N) (acc : pystr) : pystr :=
  match fuel with
  | O => acc
  | S f =>
      let acc' := (48 + n mod 10) :: acc in
      if n / 10 =? 0 then acc' else digits_go f (n / 10) acc'
  end.
(** used by edifact_components.py:598-611 *)
Definition str_of_N (n : N) : pystr := digits_go (S (N.size_nat n)) n [].
(** used by edifact_components.py:598-611: [str(int)] *)
Definition str_of_Z (z : Z) : pystr :=
  match z with
  | Z0 => str_of_N 0
  | Zpos p => str_of_N (Npos p)
  | Zneg p => chr_dash :: str_of_N (Npos p)
  end.

(** used by edifact_components.py:563-573: value of a decimal digit of any script *)
Definition digit_value (c : char) : N :=
  match find (fun r => (fst r <=? c) && (c <=? snd r)) decimal_ranges with
  | Some r => (c - fst r) mod 10
  | None => 0
  end.
(** used by edifact_components.py:563-573: [int(s)] for a string of decimal digits *)
Definition int_of_digits (s : pystr) : N :=
  fold_left (fun acc c => acc * 10 + digit_value c) s 0.
