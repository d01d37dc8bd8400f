(** Model of src/maus/navigation.py *)
From Coq Require Import List NArith ZArith Bool Ascii String Arith.
From Verif Require Import PyBase PyStr PyRe M_Components M_Ahb M_Sgh.
Import ListNotations.

(** ** Look-ahead *)

Section Enhance.
  Variable predicate : AhbLine -> bool.
  Variable selector : AhbLine -> option pystr.

  (** navigation.py:29-36 the for loop with its break; the argument is
      [ahb_lines[index:]] *)
  Fixpoint enhance_loop (lines : list AhbLine) : list (AhbLine * option pystr) :=
    match lines with
    | [] => []
    | ahb_line :: rest =>
        if predicate ahb_line then (ahb_line, selector ahb_line) :: enhance_loop rest
        else match find predicate lines with
             | None => []
             | Some m => (ahb_line, selector m) :: enhance_loop rest
             end
    end.

  (** navigation.py:29-36 [l[i]] with Python's negative indices *)
  Definition py_index {A} (l : list A) (i : Z) : result A :=
    let j := if Z.ltb i 0 then (i + Z.of_nat (List.length l))%Z else i in
    if Z.ltb j 0 then Raise IndexError
    else match nth_error l (Z.to_nat j) with
         | Some a => Ok a
         | None => Raise IndexError
         end.

  (** navigation.py:38-40 the while loop; [missing] = len(ahb_lines) - len(result) *)
  Fixpoint enhance_tail (ahb_lines : list AhbLine) (missing : nat) (ahb_line_index : Z)
    : result (list (AhbLine * option pystr)) :=
    match missing with
    | O => Ok []
    | S m =>
        let* l := py_index ahb_lines ahb_line_index in
        let* r := enhance_tail ahb_lines m (ahb_line_index + 1)%Z in
        Ok ((l, None) :: r)
    end.

  (** navigation.py:20-41 [_enhance_with_next_line_that_fulfills_predicate] *)
  Definition enhance_with_next_line_that_fulfills_predicate (ahb_lines : list AhbLine)
    : result (list (AhbLine * option pystr)) :=
    let result := enhance_loop ahb_lines in
    let* tail := enhance_tail ahb_lines (List.length ahb_lines - List.length result)
                              (Z.of_nat (List.length result) - 1)%Z in
    Ok (result ++ tail).
End Enhance.

(** navigation.py:44-75 [_enhance_with_next_segment] *)
Definition enhance_with_next_segment : list AhbLine -> result (list (AhbLine * option pystr)) :=
  enhance_with_next_line_that_fulfills_predicate (fun l => is_some (al_segment l)) al_segment.

(** navigation.py:78-106 [_enhance_with_next_value_pool_entry] *)
Definition enhance_with_next_value_pool_entry : list AhbLine -> result (list (AhbLine * option pystr)) :=
  enhance_with_next_line_that_fulfills_predicate (fun l => is_some (al_entry l)) al_entry.

(** navigation.py:109-135 [_is_opening_segment_line_border].  Line 124 compares
    the AhbLine object with a str; attrs' __eq__ returns NotImplemented for
    other classes, so the comparison is always False. *)
Definition is_opening_segment_line_border (this_line next_line : AhbLine)
           (next_filled_segment : option pystr) (opening_segment_code : pystr) : bool :=
  if ostr_eqb (al_section this_line) (al_section next_line) then false
  else
    let this_line_is_opening_segment := ostr_eqb (al_segment this_line) (Some opening_segment_code) in
    let next_line_is_opening_segment := false in
    let this_line_has_empty_segment := is_none (al_segment this_line) in
    if negb this_line_is_opening_segment && negb next_line_is_opening_segment && this_line_has_empty_segment
    then false
    else
      let next_line_has_empty_segment := is_none (al_segment next_line) in
      if negb next_line_is_opening_segment && negb next_line_has_empty_segment then false
      else ostr_eqb next_filled_segment (Some opening_segment_code).

(** ** Locations *)

(** navigation.py:139-168 [AhbLocationLayer] *)
Record Layer := mkLayer {
  ly_key : option pystr;
  ly_opening : pystr;
  ly_qualifier : option pystr
}.

(** ^[A-Z]{3}$ (navigation.py:155, 199) *)
Definition re_three_letters : re := RSeq RBol (RSeq (RRep 3 (RChar is_AZ)) REol).
(** ^[A-Z]*\d*$ (navigation.py:161) *)
Definition re_opening_qualifier : re :=
  RSeq RBol (RSeq (RStar true (RChar is_AZ)) (RSeq (RStar true (RChar is_decimal)) REol)).

(** navigation.py:139-169 *)
Definition new_Layer (key : option pystr) (opening : option pystr) (qualifier : option pystr) : result Layer :=
  let* _ := check_optional (check_re re_segment_group) key in
  let* o := check_is_str opening in
  let* _ := check_re re_three_letters o in
  let* _ := check_optional (check_re re_opening_qualifier) qualifier in
  Ok (mkLayer key o qualifier).

(** navigation.py:172-216 [AhbLocation] and 244-249 [_PseudoAhbLocation]
    (lo_pseudo tells the class) *)
Record Location := mkLocation {
  lo_pseudo : bool;
  lo_layers : list Layer;
  lo_segment : option pystr;
  lo_element : option pystr;
  lo_qualifier : option pystr
}.

(** navigation.py:172-216 *)
Definition new_Location (pseudo : bool) (layers : list Layer) (segment element qualifier : option pystr)
  : result Location :=
  let* _ := check (negb (Nat.eqb (List.length layers) 0)) ValueError in
  let* _ := check_optional (check_re re_three_letters) segment in
  let* _ := check_optional (check_re (re_digits 4)) element in
  Ok (mkLocation pseudo layers segment element qualifier).

(** navigation.py:139 attrs __eq__ *)
Definition layer_eqb (a b : Layer) : bool :=
  ostr_eqb (ly_key a) (ly_key b)
  && str_eqb (ly_opening a) (ly_opening b)
  && ostr_eqb (ly_qualifier a) (ly_qualifier b).
(** navigation.py:172 *)
Definition location_eqb (a b : Location) : bool :=
  Bool.eqb (lo_pseudo a) (lo_pseudo b)
  && list_eqb layer_eqb (lo_layers a) (lo_layers b)
  && ostr_eqb (lo_segment a) (lo_segment b)
  && ostr_eqb (lo_element a) (lo_element b)
  && ostr_eqb (lo_qualifier a) (lo_qualifier b).

(** navigation.py:218-235 [AhbLocation.is_sub_location_of] *)
Definition is_sub_location_of (self other : Location) : bool :=
  if Nat.ltb (List.length (lo_layers self)) (List.length (lo_layers other)) then false
  else forallb (fun p => layer_eqb (fst p) (snd p)) (combine (lo_layers other) (lo_layers self)).

(** navigation.py:237-241 [AhbLocation.is_parent_of] *)
Definition location_is_parent_of (self other : Location) : bool := is_sub_location_of other self.

(** navigation.py:286-292 the loop of [find_common_ancestor] *)
Fixpoint common_layers (only_consider_sg_key : bool) (xs ys : list Layer) : list Layer :=
  match xs, ys with
  | x :: xs', y :: ys' =>
      if layer_eqb x y || (only_consider_sg_key && ostr_eqb (ly_key x) (ly_key y))
      then x :: common_layers only_consider_sg_key xs' ys'
      else []
  | _, _ => []
  end.

(** navigation.py:272-300 [find_common_ancestor].  The validator of [layers]
    raises ValueError on an empty list; it is re-raised as ValueError. *)
Definition find_common_ancestor (location_x location_y : Location) : result Location :=
  let only_consider_sg_key := lo_pseudo location_x || lo_pseudo location_y in
  new_Location only_consider_sg_key
    (common_layers only_consider_sg_key (lo_layers location_x) (lo_layers location_y)) None None None.

(** navigation.py:303-331 [_construct_pseudo_location]; [existing_layers] = [] for None *)
Fixpoint construct_pseudo_location (sg_key : option pystr) (h : Sgh) (existing_layers : list Layer)
  : result (option Location) :=
  match h with
  | mkSgh k o subs =>
      let* this_layer := new_Layer k (Some o) None in
      let layers := existing_layers ++ [this_layer] in
      if ostr_eqb sg_key k then
        let* l := new_Location true layers None None None in Ok (Some l)
      else
        match subs with
        | None => Ok None
        | Some subs =>
            (fix loop (subs : list Sgh) : result (option Location) :=
               match subs with
               | [] => Ok None
               | sub :: rest =>
                   let* sub_result := construct_pseudo_location sg_key sub layers in
                   match sub_result with
                   | Some l => Ok (Some l)
                   | None => loop rest
                   end
               end) subs
        end
  end.

(** navigation.py:334-353 [_find_common_ancestor_from_sgh].  Line 350 tests
    location_x again instead of location_y, so a missing y reaches
    [find_common_ancestor], where [None.layers] raises AttributeError. *)
Definition find_common_ancestor_from_sgh (sg_key_x sg_key_y : option pystr) (h : Sgh) : result Location :=
  let* location_x := construct_pseudo_location sg_key_x h [] in
  match location_x with
  | None => Raise ValueError
  | Some x =>
      let* location_y := construct_pseudo_location sg_key_y h [] in
      match location_y with
      | None => Raise AttributeError
      | Some y => find_common_ancestor x y
      end
  end.

(** navigation.py:356-382 [_AhbLocationDistance] with its validators (>= 0) *)
Record Distance := mkDistance { layers_up : nat; layers_down : nat }.

(** navigation.py:385-398 *)
Definition nonneg_difference (a b : nat) : result nat :=
  if Nat.ltb a b then Raise ValueError else Ok (a - b).

(** navigation.py:385-398 [calculate_distance] *)
Definition calculate_distance (location_x location_y : Location) : result Distance :=
  let* common_ancestor := find_common_ancestor location_x location_y in
  let* up := nonneg_difference (List.length (lo_layers location_x)) (List.length (lo_layers common_ancestor)) in
  let* down := nonneg_difference (List.length (lo_layers location_y)) (List.length (lo_layers common_ancestor)) in
  Ok (mkDistance up down).

(** ** Hierarchy changes *)

(** navigation.py:401-429 [_DifferentialAhbLineHierarchyChange] *)
Inductive Change : Set :=
| STAY
| MOVE_TO_NEIGHBOUR_SAME_KEY
| MOVE_TO_NEIGHBOUR_DIFFERENT_KEY
| DIVE_INTO_SUB_GROUP
| LEAVE_TO_PARENT
| LEAVE_TO_PARENT_AND_DIVE_INTO_SUB_GROUP.

(** navigation.py:431-435 [is_segment_group_change] *)
Definition is_segment_group_change (c : Change) : bool :=
  match c with STAY => false | _ => true end.

(** navigation.py:438-453 [_this_line_is_hierarchically_below_the_previous_sg_key] *)
Definition this_line_is_hierarchically_below_the_previous_sg_key
           (this_line : AhbLine) (previous_segment_group_key : option pystr) (h : Sgh) : bool :=
  if ostr_eqb (al_group this_line) previous_segment_group_key then false
  else if ostr_eqb (sgh_key h) previous_segment_group_key then true
  else sg_is_hierarchically_below h (al_group this_line) previous_segment_group_key.

(** navigation.py:457-500 [_determine_hierarchy_change] *)
Definition determine_hierarchy_change
           (this_ahb_line : AhbLine) (previous_ahb_line : option AhbLine)
           (this_next_segment this_next_qualifier last_opening_segment last_opening_qualifier : option pystr)
           (is_ready_for_sg_change : bool) (h : Sgh) : Change :=
  let previous_sg_key := match previous_ahb_line with None => None | Some p => al_group p end in
  if ostr_eqb (al_group this_ahb_line) previous_sg_key then
    if negb (ostr_eqb this_next_segment last_opening_segment) then STAY
    else if ostr_eqb this_next_qualifier last_opening_qualifier
            || (is_none last_opening_segment && ostr_eqb this_next_segment (Some (u "UNH")))
    then STAY
    else if is_ready_for_sg_change then MOVE_TO_NEIGHBOUR_SAME_KEY
    else STAY
  else if sg_is_hierarchically_below h (al_group this_ahb_line) previous_sg_key
  then DIVE_INTO_SUB_GROUP
  else LEAVE_TO_PARENT_AND_DIVE_INTO_SUB_GROUP. (* lines 494-499 have no effect *)

(** navigation.py:510-514 loop-carried variables of [determine_hierarchy_changes] *)
Record ChangeState := mkCS {
  cs_segment_code_was_none : bool;
  cs_previous_line : option AhbLine;
  cs_last_opening_qualifier : option pystr;
  cs_last_opening_segment : option pystr
}.

(** navigation.py:526-544 one iteration *)
Definition change_step (h : Sgh) (st : ChangeState) (x : AhbLine * option pystr * option pystr)
  : ChangeState * Change :=
  let '(this_ahb_line, this_next_segment, this_next_qualifier) := x in
  let was_none := if is_none (al_segment this_ahb_line) then true else cs_segment_code_was_none st in
  let change := determine_hierarchy_change this_ahb_line (cs_previous_line st)
                  this_next_segment this_next_qualifier
                  (cs_last_opening_segment st) (cs_last_opening_qualifier st) was_none h in
  let q := if is_segment_group_change change then this_next_qualifier else cs_last_opening_qualifier st in
  let s := if is_segment_group_change change then this_next_segment else cs_last_opening_segment st in
  let was_none := if is_some (al_segment this_ahb_line) then false else was_none in
  (mkCS was_none (Some this_ahb_line) q s, change).

(** navigation.py:526-544 *)
Fixpoint change_loop (h : Sgh) (st : ChangeState) (l : list (AhbLine * option pystr * option pystr))
  : list (AhbLine * Change) :=
  match l with
  | [] => []
  | x :: r =>
      let (st', change) := change_step h st x in
      (fst (fst x), change) :: change_loop h st' r
  end.

(** navigation.py:518-525 zip(ahb_lines, segments, qualifiers, strict=True): ValueError if the lengths differ *)
Definition zip3_strict {A B C} (a : list A) (b : list B) (c : list C) : result (list (A * B * C)) :=
  if Nat.eqb (List.length a) (List.length b) && Nat.eqb (List.length a) (List.length c)
  then Ok (combine (combine a b) c) else Raise ValueError.

(** navigation.py:503-545 [determine_hierarchy_changes] *)
Definition determine_hierarchy_changes (ahb_lines : list AhbLine) (h : Sgh) : result (list (AhbLine * Change)) :=
  let* segs := enhance_with_next_segment ahb_lines in
  let* quals := enhance_with_next_value_pool_entry ahb_lines in
  let* zipped := zip3_strict ahb_lines (map snd segs) (map snd quals) in
  Ok (change_loop h (mkCS true None (Some (u "UNH")) None) zipped).

(** ** determine_locations *)

(** navigation.py:656-660 list.pop() *)
Definition pop_last {A} (l : list A) : result (list A) :=
  match l with [] => Raise IndexError | _ => Ok (removelast l) end.

(** navigation.py:656-660 the for loop; [n] = layers_up *)
Fixpoint leave_layers (n : nat) (key : option pystr) (layers : list Layer) : result (list Layer) :=
  match n with
  | O => Ok layers
  | S m =>
      let* layers := pop_last layers in
      let* l := last_of layers in
      let* layers := (if ostr_eqb (ly_key l) key then pop_last layers else Ok layers) in
      leave_layers m key layers
  end.

(** navigation.py:582-587: the first line sets the qualifier of the root layer *)
Definition first_line_update (h : Sgh) (layers : list Layer) (result_so_far : list (AhbLine * Location))
           (this_next_qualifier : option pystr) : result (list Layer) :=
  let* l := last_of layers in
  if is_none (ly_qualifier l) && Nat.eqb (List.length result_so_far) 0 then
    let* n := new_Layer (sgh_key h) (Some (sgh_opening h)) this_next_qualifier in
    Ok (removelast layers ++ [n])
  else Ok layers.

(** navigation.py:582-681 one iteration; state = (layers, result) *)
Definition location_step (h : Sgh) (st : list Layer * list (AhbLine * Location))
           (x : (AhbLine * Change) * option pystr * option pystr)
  : result (list Layer * list (AhbLine * Location)) :=
  let '(this_ahb_line, change, this_next_segment, this_next_qualifier) := x in
  let (layers, res) := st in
  let* layers := first_line_update h layers res this_next_qualifier in
  let emit (layers : list Layer) :=
    let* loc := new_Location false layers this_next_segment (al_element this_ahb_line) (al_entry this_ahb_line) in
    Ok (layers, res ++ [(this_ahb_line, loc)]) in
  match change with
  | STAY => emit layers
  | MOVE_TO_NEIGHBOUR_SAME_KEY =>
      let* layers := pop_last layers in
      let* n := new_Layer (al_group this_ahb_line) this_next_segment this_next_qualifier in
      emit (layers ++ [n])
  | DIVE_INTO_SUB_GROUP =>
      let* n := new_Layer (al_group this_ahb_line) this_next_segment this_next_qualifier in
      emit (layers ++ [n])
  | LEAVE_TO_PARENT_AND_DIVE_INTO_SUB_GROUP =>
      let* last_result := last_of res in
      let* last_layer := last_of (lo_layers (snd last_result)) in
      let* common_ancestor := find_common_ancestor_from_sgh (ly_key last_layer) (al_group this_ahb_line) h in
      let* distance := calculate_distance (snd last_result) common_ancestor in
      let* layers := leave_layers (layers_up distance) (al_group this_ahb_line) layers in
      let* n := new_Layer (al_group this_ahb_line) this_next_segment this_next_qualifier in
      emit (layers ++ [n])
  | LEAVE_TO_PARENT => Raise NotImplementedError
  | MOVE_TO_NEIGHBOUR_DIFFERENT_KEY => Ok (layers, res) (* no branch matches *)
  end.

(** navigation.py:548-682 [determine_locations] *)
Definition determine_locations (h : Sgh) (ahb_lines : list AhbLine) : result (list (AhbLine * Location)) :=
  let* starting_layer := new_Layer (sgh_key h) (Some (sgh_opening h)) None in
  let* changes := determine_hierarchy_changes ahb_lines h in
  let* segs := enhance_with_next_segment ahb_lines in
  let* quals := enhance_with_next_value_pool_entry ahb_lines in
  let* st := foldM (location_step h) ([starting_layer], [])
                   (combine (combine changes (map snd segs)) (map snd quals)) in
  Ok (snd st).
