(** Model of src/maus/models/anwendungshandbuch.py (classes and methods; the
    marshmallow schemas are in M_Schema.v). *)
From Coq Require Import List NArith ZArith Bool Ascii String.
From Verif Require Import PyBase PyStr PyRe M_Components.
Import ListNotations.

(** anwendungshandbuch.py:27 [_VERSION] *)
Definition maus_VERSION : pystr := u "0.3.0".

(** ** AhbLine *)

(** anwendungshandbuch.py:31-102 [AhbLine]; a UUID is its 128 bit number *)
Record AhbLine := mkLine {
  al_guid : option N;
  al_group : option pystr;      (* segment_group_key *)
  al_segment : option pystr;    (* segment_code *)
  al_element : option pystr;    (* data_element *)
  al_segment_id : option pystr;
  al_entry : option pystr;      (* value_pool_entry *)
  al_name : option pystr;
  al_expression : option pystr;
  al_conditions : option pystr;
  al_section : option pystr;    (* section_name *)
  al_index : option Z
}.

(** anwendungshandbuch.py:37-99 the validators of [AhbLine] (lines 37-99) that can fail on well-typed values *)
Definition check_AhbLine (l : AhbLine) : result unit :=
  let* _ := check_optional (fun s => check_not_blank (Some s)) (al_expression l) in
  check_optional (fun i => check (Z.leb 0 i) ValueError) (al_index l).

(** anwendungshandbuch.py:31-99 *)
Definition new_AhbLine (l : AhbLine) : result AhbLine :=
  let* _ := check_AhbLine l in Ok l.

(** anwendungshandbuch.py:112-117 the repeated test of lines 112-117: field is not None and not blank *)
Definition has_text (v : option pystr) : bool :=
  match v with None => false | Some s => Nat.ltb 0 (List.length (strip s)) end.

(** anwendungshandbuch.py:104-118 [AhbLine.holds_any_information] *)
Definition holds_any_information (l : AhbLine) : bool :=
  has_text (al_group l)
  || has_text (al_segment l)
  || has_text (al_element l)
  || has_text (al_entry l)
  || has_text (al_name l)
  || has_text (al_expression l).

(** anwendungshandbuch.py:128-134 [f"{x}"] for an Optional[str] *)
Definition str_of_ostr (v : option pystr) : pystr := match v with Some s => s | None => u "None" end.

(** anwendungshandbuch.py:120-134 [AhbLine.get_discriminator] *)
Definition get_discriminator (l : AhbLine) (include_name : bool) : pystr :=
  (if otruthy (al_group l) then str_of_ostr (al_group l) ++ u "->" else [])
  ++ str_of_ostr (al_segment l) ++ u "->" ++ str_of_ostr (al_element l)
  ++ (if otruthy (al_name l) && include_name
      then u " (" ++ str_of_ostr (al_name l) ++ u ")" else []).

(** anwendungshandbuch.py:31 attrs __eq__ of [AhbLine] *)
Definition line_eqb (a b : AhbLine) : bool :=
  opt_eqb N.eqb (al_guid a) (al_guid b)
  && ostr_eqb (al_group a) (al_group b)
  && ostr_eqb (al_segment a) (al_segment b)
  && ostr_eqb (al_element a) (al_element b)
  && ostr_eqb (al_segment_id a) (al_segment_id b)
  && ostr_eqb (al_entry a) (al_entry b)
  && ostr_eqb (al_name a) (al_name b)
  && ostr_eqb (al_expression a) (al_expression b)
  && ostr_eqb (al_conditions a) (al_conditions b)
  && ostr_eqb (al_section a) (al_section b)
  && opt_eqb Z.eqb (al_index a) (al_index b).

(** ** Meta information *)

(** anwendungshandbuch.py:163-204 [AhbMetaInformation] *)
Record Meta := mkMeta {
  me_pruefi : pystr;
  me_version : option pystr;
  me_description : option pystr;
  me_direction : option pystr
}.

(** anwendungshandbuch.py:163-204 *)
Definition check_Meta (m : Meta) : result unit :=
  let* _ := check_optional (fun s => check_not_blank (Some s)) (me_description m) in
  check_optional (fun s => check_not_blank (Some s)) (me_direction m).

(** anwendungshandbuch.py:163-204 *)
Definition new_Meta (m : Meta) : result Meta := let* _ := check_Meta m in Ok m.

(** ** Flat AHB *)

(** anwendungshandbuch.py:242-244 more_itertools.split_when(l, pred): a new chunk starts wherever pred holds
    between neighbours; [cur] is the reversed current chunk *)
Fixpoint split_when_go {A} (pred : A -> A -> bool) (prev : A) (cur : list A) (l : list A) : list (list A) :=
  match l with
  | [] => [rev cur]
  | x :: r => if pred prev x then rev cur :: split_when_go pred x [x] r
              else split_when_go pred x (x :: cur) r
  end.
(** anwendungshandbuch.py:242-244 *)
Definition split_when {A} (pred : A -> A -> bool) (l : list A) : list (list A) :=
  match l with [] => [] | x :: r => split_when_go pred x [x] r end.

(** anwendungshandbuch.py:226-232 [_remove_grouped_ahb_lines_containing_section_name]
    (the comprehension keeps the chunks that contain the section name) *)
Definition remove_grouped_ahb_lines_containing_section_name
           (grouped : list (list AhbLine)) (section_name : pystr) : list (list AhbLine) :=
  filter (existsb (fun l => ostr_eqb (al_section l) (Some section_name))) grouped.

(** anwendungshandbuch.py:235-249 [_check_that_nearly_all_lines_have_a_segment_group] *)
Definition switches_from_no_sg_to_sg (x y : AhbLine) : bool := is_none (al_group x) && is_some (al_group y).
(** anwendungshandbuch.py:235-249 *)
Definition check_nearly_all_lines_have_a_segment_group (value : list AhbLine) : result unit :=
  let switches := split_when switches_from_no_sg_to_sg value in
  let switches := remove_grouped_ahb_lines_containing_section_name switches (u "Abschnitts-Kontrollsegment") in
  if Nat.ltb 2 (List.length switches) then Raise ValueError else Ok tt.

(** anwendungshandbuch.py:252 [_data_element_pattern] ^\d{4}$|^\d{5}$|^[A-Za-z]+\d{4}$ *)
Definition re_data_element : re :=
  RAlt (re_digits 4)
    (RAlt (re_digits 5)
       (RSeq RBol (RSeq (RPlus (RChar (fun c => is_AZ c || is_az c)))
                        (RSeq (RRep 4 (RChar is_decimal)) REol)))).

(** anwendungshandbuch.py:255-266 *)
Definition check_line_data_element (l : AhbLine) : result unit :=
  match al_element l with
  | None => Ok tt
  | Some s => check (matches re_data_element s) ValueError
  end.

(** anwendungshandbuch.py:269 [_segment_group_key_pattern] ^SG\d+$ *)
Definition re_segment_group : re :=
  RSeq RBol (RSeq (RLit (u "SG")) (RSeq (RPlus (RChar is_decimal)) REol)).

(** anwendungshandbuch.py:272-283 *)
Definition check_line_segment_group (l : AhbLine) : result unit :=
  match al_group l with
  | None => Ok tt
  | Some s => check (matches re_segment_group s) ValueError
  end.

(** anwendungshandbuch.py:286 [_segment_code_pattern] ^[A-Z]+$ *)
Definition re_segment_code : re := RSeq RBol (RSeq (RPlus (RChar is_AZ)) REol).

(** anwendungshandbuch.py:289-298 *)
Definition check_line_segment_code (l : AhbLine) : result unit :=
  match al_segment l with
  | None => Ok tt
  | Some s => check (matches re_segment_code s) ValueError
  end.

(** anwendungshandbuch.py:301-328 [FlatAnwendungshandbuch] *)
Record FlatAhb := mkFlat { fa_meta : Meta; fa_lines : list AhbLine }.

(** anwendungshandbuch.py:312-328 the validator of [lines]; attrs' deep_iterable runs the validator of the
    iterable first, then the member validator on each element *)
Definition check_flat_lines (lines : list AhbLine) : result unit :=
  let* _ := check_nearly_all_lines_have_a_segment_group lines in
  for_each (fun l =>
              let* _ := check_line_data_element l in
              let* _ := check_line_segment_group l in
              check_line_segment_code l) lines.

(** anwendungshandbuch.py:301-328 *)
Definition new_FlatAhb (meta : Meta) (lines : list AhbLine) : result FlatAhb :=
  let* _ := check_flat_lines lines in Ok (mkFlat meta lines).

(** anwendungshandbuch.py:336-349 [_get_available_segment_groups] *)
Definition get_available_segment_groups (lines : list AhbLine) : list (option pystr) :=
  fold_left (fun result line =>
               if ostr_in (al_group line) result then result else result ++ [al_group line])
            lines [].

(** anwendungshandbuch.py:330-334 [get_segment_groups] *)
Definition get_segment_groups (a : FlatAhb) : list (option pystr) := get_available_segment_groups (fa_lines a).

(** [sorted(l, key=...)] / [l.sort(key=...)]: Python's sort is stable; any
    stable sort gives the same list, this one is insertion sort.  [le a b]
    compares the keys of a and b. *)
Section StableSort.
  Context {A : Type} (le : A -> A -> bool).
  (** anwendungshandbuch.py:390-391 *)
  Fixpoint sort_insert (x : A) (l : list A) : list A :=
    match l with
    | [] => [x]
    | y :: r => if le x y then x :: y :: r else y :: sort_insert x r
    end.
  (** anwendungshandbuch.py:390-391 list.sort *)
  Fixpoint stable_sort (l : list A) : list A :=
    match l with
    | [] => []
    | x :: r => sort_insert x (stable_sort r)
    end.
End StableSort.

(** anwendungshandbuch.py:391 [sg_order.index(x)]; ValueError if absent *)
Fixpoint index_of (x : option pystr) (l : list (option pystr)) : result nat :=
  match l with
  | [] => Raise ValueError
  | y :: r => if ostr_eqb x y then Ok O else let* n := index_of x r in Ok (S n)
  end.

(** anwendungshandbuch.py:390 *)
Definition ostr_or_empty (v : option pystr) : pystr := match v with Some s => s | None => [] end.

(** anwendungshandbuch.py:357-392 [_sorted_lines_by_segment_groups].  Python
    computes all keys before sorting; a missing key raises. *)
Definition sorted_lines_by_segment_groups (ahb_lines : list AhbLine) (sg_order : list (option pystr))
  : result (list AhbLine) :=
  let result := stable_sort (fun a b => str_leb (ostr_or_empty (al_group a)) (ostr_or_empty (al_group b))) ahb_lines in
  let* keyed := mapM (fun l => let* k := index_of (al_group l) sg_order in Ok (k, l)) result in
  Ok (map snd (stable_sort (fun a b => Nat.leb (fst a) (fst b)) keyed)).

(** anwendungshandbuch.py:351-355 [sort_lines_by_segment_groups]; the assignment
    to [self.lines] runs the validator of [lines] again *)
Definition sort_lines_by_segment_groups (a : FlatAhb) : result FlatAhb :=
  let* lines := sorted_lines_by_segment_groups (fa_lines a) (get_segment_groups a) in
  let* _ := check_flat_lines lines in
  Ok (mkFlat (fa_meta a) lines).

(** ** Deep AHB *)

(** anwendungshandbuch.py:430-444 [DeepAnwendungshandbuch] *)
Record DeepAhb := mkDeep { da_meta : Meta; da_lines : list SegmentGroup }.

(** edifact_components.py:148-166 attrs __eq__ of the components *)
Definition entry_eqb (a b : ValuePoolEntry) : bool :=
  str_eqb (ve_qualifier a) (ve_qualifier b)
  && str_eqb (ve_meaning a) (ve_meaning b)
  && str_eqb (ve_expression a) (ve_expression b).
(** edifact_components.py:188-209, 399-420, 448-467 == of lists *)
Fixpoint list_eqb {A} (eqb : A -> A -> bool) (a b : list A) : bool :=
  match a, b with
  | [], [] => true
  | x :: a', y :: b' => eqb x y && list_eqb eqb a' b'
  | _, _ => false
  end.
(** edifact_components.py:91-107 *)
Definition freetext_eqb (a b : FreeText) : bool :=
  ostr_eqb (ft_discriminator a) (ft_discriminator b)
  && str_eqb (ft_id a) (ft_id b)
  && ostr_eqb (ft_input a) (ft_input b)
  && opt_eqb datatype_eqb (ft_type a) (ft_type b)
  && str_eqb (ft_expression a) (ft_expression b).
(** edifact_components.py:188-209 *)
Definition pool_eqb (a b : ValuePool) : bool :=
  ostr_eqb (vp_discriminator a) (vp_discriminator b)
  && str_eqb (vp_id a) (vp_id b)
  && ostr_eqb (vp_input a) (vp_input b)
  && opt_eqb datatype_eqb (vp_type a) (vp_type b)
  && list_eqb entry_eqb (vp_pool a) (vp_pool b).
(** edifact_components.py:40-70 *)
Definition element_eqb (a b : DataElement) : bool :=
  match a, b with
  | DFree x, DFree y => freetext_eqb x y
  | DPool x, DPool y => pool_eqb x y
  | _, _ => false
  end.
(** edifact_components.py:399-420 *)
Definition segment_eqb (a b : Segment) : bool :=
  str_eqb (seg_discriminator a) (seg_discriminator b)
  && str_eqb (seg_expression a) (seg_expression b)
  && opt_eqb Z.eqb (seg_index a) (seg_index b)
  && list_eqb element_eqb (seg_elements a) (seg_elements b)
  && ostr_eqb (seg_section a) (seg_section b)
  && ostr_eqb (seg_id a) (seg_id b).
(** edifact_components.py:448-467 *)
Fixpoint group_eqb (a b : SegmentGroup) {struct a} : bool :=
  match a, b with
  | mkGroup d e i ss gs, mkGroup d' e' i' ss' gs' =>
      str_eqb d d' && str_eqb e e' && opt_eqb Z.eqb i i'
      && opt_eqb (list_eqb segment_eqb) ss ss'
      && match gs, gs' with
         | None, None => true
         | Some l, Some l' =>
             (fix groups_eqb (l l' : list SegmentGroup) {struct l} : bool :=
                match l, l' with
                | [], [] => true
                | x :: r, y :: r' => group_eqb x y && groups_eqb r r'
                | _, _ => false
                end) l l'
         | _, _ => false
         end
  end.
(** anwendungshandbuch.py:163-204 *)
Definition meta_eqb (a b : Meta) : bool :=
  str_eqb (me_pruefi a) (me_pruefi b)
  && ostr_eqb (me_version a) (me_version b)
  && ostr_eqb (me_description a) (me_description b)
  && ostr_eqb (me_direction a) (me_direction b).
(** anwendungshandbuch.py:430-444 *)
Definition deep_eqb (a b : DeepAhb) : bool :=
  meta_eqb (da_meta a) (da_meta b) && list_eqb group_eqb (da_lines a) (da_lines b).

(** anwendungshandbuch.py:446-452 [DeepAnwendungshandbuch.reset_ahb_line_index] *)
Definition deep_reset_index (a : DeepAhb) : DeepAhb :=
  mkDeep (da_meta a) (map group_reset_index (da_lines a)).

(** anwendungshandbuch.py:454-469 [_query_segment_group] *)
Fixpoint query_segment_group (predicate : SegmentGroup -> bool) (g : SegmentGroup) : list SegmentGroup :=
  (if predicate g then [g] else [])
  ++ match g with
     | mkGroup _ _ _ _ (Some gs) => flat_map (query_segment_group predicate) gs
     | mkGroup _ _ _ _ None => []
     end.

(** anwendungshandbuch.py:471-484 [find_segment_groups] *)
Definition find_segment_groups (a : DeepAhb) (predicate : SegmentGroup -> bool) : list SegmentGroup :=
  fold_left
    (fun result line =>
       let result := result ++ flat_map (query_segment_group predicate) (olist (g_groups line)) in
       fold_left (fun result line_result =>
                    if existsb (group_eqb line_result) result then result else result ++ [line_result])
                 (query_segment_group predicate line) result)
    (da_lines a) [].

(** anwendungshandbuch.py:486-504 [find_segments] *)
Definition find_segments (a : DeepAhb) (group_predicate : SegmentGroup -> bool) (segment_predicate : Segment -> bool)
  : list Segment :=
  flat_map (group_find_segments segment_predicate true) (find_segment_groups a group_predicate)
  ++ flat_map (fun line => filter segment_predicate (olist (g_segments line))) (da_lines a).

(** anwendungshandbuch.py:522-528 [add_to_result]; state: (result, added_discriminators) *)
Definition add_pool_to_result (st : list ValuePool * list (option pystr)) (p : ValuePool)
  : list ValuePool * list (option pystr) :=
  let (result, added) := st in
  if ostr_in (vp_discriminator p) added then st
  else if existsb (pool_eqb p) result then st
  else (result ++ [p], vp_discriminator p :: added).

(** anwendungshandbuch.py:513-536 [DeepAnwendungshandbuch.get_all_value_pools] *)
Definition get_all_value_pools (a : DeepAhb) : list ValuePool :=
  fst (fold_left add_pool_to_result
         (flat_map segment_value_pools (find_segments a (fun _ => true) (fun _ => true))
          ++ flat_map group_value_pools (find_segment_groups a (fun _ => true)))
         ([], [])).

(** anwendungshandbuch.py:538-557 set.add on a set represented by a list without duplicates *)
Definition set_add (s : list pystr) (x : pystr) : list pystr := if str_in x s then s else x :: s.
(** anwendungshandbuch.py:538-557 *)
Definition set_add_truthy (s : list pystr) (x : pystr) : list pystr := if truthy x then set_add s x else s.

(** anwendungshandbuch.py:546-553 the expressions of one data element *)
Definition element_expressions (d : DataElement) : list pystr :=
  match d with
  | DFree f => [ft_expression f]
  | DPool p => map ve_expression (vp_pool p)
  end.

(** anwendungshandbuch.py:538-557 [get_all_expressions] *)
Definition get_all_expressions (a : DeepAhb) : list pystr :=
  let result := fold_left
    (fun s segment =>
       fold_left set_add_truthy (flat_map element_expressions (seg_elements segment))
                 (set_add_truthy s (seg_expression segment)))
    (find_segments a (fun _ => true) (fun _ => true)) [] in
  let result := fold_left (fun s g => set_add_truthy s (g_expression g))
                          (find_segment_groups a (fun _ => true)) result in
  stable_sort str_leb result.

(** anwendungshandbuch.py:412-427 [DeepAhbInputReplacement] *)
Record Replacement := mkReplacement { rp_found : bool; rp_input : option pystr }.

(** anwendungshandbuch.py:572-576 one data element in [_replace_inputs_based_on_discriminator] *)
Definition element_set_input (v : option pystr) (d : DataElement) : DataElement :=
  match d with
  | DFree f => DFree (mkFreeText (ft_discriminator f) (ft_id f) v (ft_type f) (ft_expression f))
  | DPool p => DPool (mkPool (vp_discriminator p) (vp_id p) v (vp_type p) (vp_pool p))
  end.
(** anwendungshandbuch.py:572-576 *)
Definition element_replace_input (f : pystr -> Replacement) (d : DataElement) : DataElement :=
  match de_discriminator d with
  | None => d
  | Some disc =>
      let r := f disc in
      if rp_found r then element_set_input (rp_input r) d else d
  end.

(** anwendungshandbuch.py:560-576 [_replace_inputs_based_on_discriminator] for one group *)
Fixpoint group_replace_inputs (f : pystr -> Replacement) (g : SegmentGroup) : SegmentGroup :=
  match g with
  | mkGroup d e i ss gs =>
      mkGroup d e i
        (option_map (map (fun s => mkSegment (seg_discriminator s) (seg_expression s) (seg_index s)
                                             (map (element_replace_input f) (seg_elements s))
                                             (seg_section s) (seg_id s))) ss)
        (option_map (map (group_replace_inputs f)) gs)
  end.

(** anwendungshandbuch.py:506-511 [replace_inputs_based_on_discriminator] *)
Definition replace_inputs_based_on_discriminator (a : DeepAhb) (f : pystr -> Replacement) : DeepAhb :=
  mkDeep (da_meta a) (map (group_replace_inputs f) (da_lines a)).
