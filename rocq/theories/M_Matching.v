(** Model of src/maus/mig_ahb_matching.py *)
From Coq Require Import List NArith ZArith Bool Ascii String Arith.
From Verif Require Import PyBase PyStr PyRe M_Components M_Ahb M_Sgh M_Navigation.
Import ListNotations.

(** ** merge_lines_with_same_data_element *)

(** mig_ahb_matching.py:33 the set {line.data_element for line in lines} as a list without duplicates *)
Definition distinct_data_element_keys (lines : list AhbLine) : list (option pystr) :=
  fold_left (fun s l => if ostr_in (al_element l) s then s else s ++ [al_element l]) lines [].

(** mig_ahb_matching.py:50-60 the loop over the lines of a value pool *)
Fixpoint value_pool_entries (lines : list AhbLine) : result (list ValuePoolEntry) :=
  match lines with
  | [] => Ok []
  | l :: r =>
      if negb (otruthy (al_expression l)) then value_pool_entries r
      else
        match al_name l with
        | None => Raise AttributeError (* None.strip() *)
        | Some n =>
            let* e := new_ValuePoolEntry (al_entry l) (Some (strip n)) (al_expression l) in
            let* es := value_pool_entries r in
            Ok (e :: es)
        end
  end.

(** mig_ahb_matching.py:27-75 [merge_lines_with_same_data_element].
    Lines 66-68: more_itertools.first takes a default value as second argument,
    so the lambda is never called and the first line is used. *)
Definition merge_lines_with_same_data_element (ahb_lines : list AhbLine) (first_stack : option EdifactStack)
  : result DataElement :=
  let* _ := check (Nat.eqb (List.length (distinct_data_element_keys ahb_lines)) 1) ValueError in
  let discriminator := option_map to_json_path first_stack in
  match ahb_lines with
  | [] => Raise IndexError (* not reached: the set would be empty *)
  | l0 :: _ =>
      if is_some (al_entry l0) then
        let* p := new_ValuePool discriminator (al_element l0) None (Some VALUE_POOL) [] in
        let* es := value_pool_entries ahb_lines in
        Ok (DPool (mkPool (vp_discriminator p) (vp_id p) (vp_input p) (vp_type p) es))
      else
        let* f := new_FreeText discriminator (al_element l0) None (Some TEXT) (al_expression l0) in
        match derive_data_type_from_segment_code (al_segment l0) with
        | Some t => Ok (DFree (mkFreeText (ft_discriminator f) (ft_id f) (ft_input f) (Some t) (ft_expression f)))
        | None => Ok (DFree f)
        end
  end.

(** mig_ahb_matching.py:78-88 [_remove_qualifier]; the attributes have been
    validated when [location] was created *)
Definition remove_qualifier (location : Location) : Location :=
  mkLocation false (lo_layers location) (lo_segment location) (lo_element location) None.

(** ** to_deep_ahb *)

(** mig_ahb_matching.py:104-117, 162-169 The groups created so far live in a heap, because the code keeps references
    to the lists inside of them.  A group is identified by its position in
    [hp_cells]; [gc_groups] holds identities. *)
Record GroupCell := mkCell {
  gc_discriminator : pystr;
  gc_expression : pystr;
  gc_index : option Z;
  gc_segments : list Segment;
  gc_groups : list nat
}.
(** mig_ahb_matching.py:100, 104-117 *)
Record Heap := mkHeap { hp_lines : list nat; hp_cells : list GroupCell }.

(** mig_ahb_matching.py:116 reference to a list of groups: [result.lines] or the [segment_groups] of a group *)
Inductive ListRef := RefLines | RefGroups (g : nat).

(** mig_ahb_matching.py:102-118 local variables of [to_deep_ahb]; None = not yet assigned.
    - [ds_segments_here] = append_next_segments_here (the segments of that group)
    - [ds_sg_here] = append_next_sg_here
    - [ds_elements_here] = append_next_data_elements_here (group, position of the segment)
    - [ds_parents] = parent_group_lists, top first *)
Record DeepState := mkDS {
  ds_heap : Heap;
  ds_segments_here : option nat;
  ds_sg_here : option ListRef;
  ds_elements_here : option (nat * nat);
  ds_previous : option Location;
  ds_parents : list ListRef;
  ds_used : list pystr
}.

(** mig_ahb_matching.py:184-192 *)
Definition deref (h : Heap) (r : ListRef) : list nat :=
  match r with
  | RefLines => hp_lines h
  | RefGroups g => match nth_error (hp_cells h) g with Some c => gc_groups c | None => [] end
  end.

(** mig_ahb_matching.py:171-192, 222-223 *)
Definition update_cell (g : nat) (f : GroupCell -> GroupCell) (h : Heap) : Heap :=
  match nth_error (hp_cells h) g with
  | Some c => mkHeap (hp_lines h) (list_set g (f c) (hp_cells h))
  | None => h
  end.

(** mig_ahb_matching.py:173, 177, 190 [r.append(group)] *)
Definition append_group (r : ListRef) (g : nat) (h : Heap) : Heap :=
  match r with
  | RefLines => mkHeap (hp_lines h ++ [g]) (hp_cells h)
  | RefGroups p =>
      update_cell p (fun c => mkCell (gc_discriminator c) (gc_expression c) (gc_index c)
                                     (gc_segments c) (gc_groups c ++ [g])) h
  end.

(** mig_ahb_matching.py:223 *)
Definition append_segment (g : nat) (s : Segment) (h : Heap) : Heap :=
  update_cell g (fun c => mkCell (gc_discriminator c) (gc_expression c) (gc_index c)
                                 (gc_segments c ++ [s]) (gc_groups c)) h.

(** mig_ahb_matching.py:148 *)
Definition add_element (d : DataElement) (s : Segment) : Segment :=
  mkSegment (seg_discriminator s) (seg_expression s) (seg_index s) (seg_elements s ++ [d])
            (seg_section s) (seg_id s).

(** mig_ahb_matching.py:148 *)
Definition append_element (ref : nat * nat) (d : DataElement) (h : Heap) : Heap :=
  update_cell (fst ref)
    (fun c => mkCell (gc_discriminator c) (gc_expression c) (gc_index c)
                     (match nth_error (gc_segments c) (snd ref) with
                      | Some s => list_set (snd ref) (add_element d s) (gc_segments c)
                      | None => gc_segments c
                      end)
                     (gc_groups c)) h.

(** mig_ahb_matching.py:222-223 the number of segments in a group (position of the next one) *)
Definition segment_count (h : Heap) (g : nat) : nat :=
  match nth_error (hp_cells h) g with Some c => List.length (gc_segments c) | None => 0 end.

(** mig_ahb_matching.py:119-122 itertools.groupby(l, key): maximal runs of equal keys *)
Fixpoint groupby {A} (key : A -> Location) (l : list A) : list (Location * list A) :=
  match l with
  | [] => []
  | x :: r =>
      match groupby key r with
      | (k, items) :: rest => if location_eqb (key x) k then (key x, x :: items) :: rest
                              else (key x, [x]) :: (k, items) :: rest
      | [] => [(key x, [x])]
      end
  end.

Section ToDeepAhb.
  (** the MIG reader is an arbitrary function; it may raise (mig_reader.py:26-31) *)
  Variable get_edifact_stack : Location -> result EdifactStack.
  (** str(position), only used for segments that have not been found in the MIG *)
  Variable str_of_location : Location -> pystr.

  (** mig_ahb_matching.py:136-141 the retry loop; [n] iterations are left *)
  Fixpoint retry_stack (n : nat) (first_position : Location) : result (option EdifactStack) :=
    match n with
    | O => Ok None
    | S m =>
        match get_edifact_stack first_position with
        | Ok s => Ok (Some s)
        | Raise ValueError => retry_stack m first_position
        | Raise e => Raise e
        end
    end.

  (** mig_ahb_matching.py:127-141 *)
  Definition lookup_stack (position : Location) (layer_group : list (AhbLine * Location))
    : result (option EdifactStack) :=
    match get_edifact_stack position with
    | Ok s => Ok (Some s)
    | Raise ValueError =>
        if Nat.ltb 1 (List.length layer_group) then
          match layer_group with
          | (_, p) :: _ => retry_stack (List.length layer_group) p
          | [] => Ok None
          end
        else Ok None
    | Raise e => Raise e
    end.

  (** mig_ahb_matching.py:182-186 the loop that goes up *)
  Fixpoint go_up (n : nat) (sg_here : option ListRef) (parents : list ListRef)
    : result (option ListRef * list ListRef) :=
    match n with
    | O => Ok (sg_here, parents)
    | S m =>
        match parents with
        | [] => Raise ValueError (* IndexError turned into ValueError *)
        | p :: rest => go_up m (Some p) rest
        end
    end.

  (** mig_ahb_matching.py:187-189 the loop that goes down *)
  Fixpoint go_down (n : nat) (h : Heap) (sg_here : option ListRef) (parents : list ListRef)
    : result (option ListRef * list ListRef) :=
    match n with
    | O => Ok (sg_here, parents)
    | S m =>
        match sg_here with
        | None => Raise UnboundLocalError
        | Some r =>
            let* g := last_of (deref h r) in
            go_down m h (Some (RefGroups g)) (r :: parents)
        end
    end.

  (** mig_ahb_matching.py:172 *)
  Definition root_discriminator : pystr := u "$[""Dokument""][0][""Nachricht""][0]".

  (** mig_ahb_matching.py:161-192 a new segment group is opened *)
  Definition open_group (st : DeepState) (position : Location) (path : pystr) (first_line : AhbLine)
    : result DeepState :=
    let* g := new_SegmentGroup path (option_map strip (al_expression first_line)) (al_index first_line)
                               (Some []) (Some []) in
    let id := List.length (hp_cells (ds_heap st)) in
    let heap := mkHeap (hp_lines (ds_heap st))
                       (hp_cells (ds_heap st) ++ [mkCell (g_discriminator g) (g_expression g) (g_index g) [] []]) in
    let used := path :: ds_used st in
    if str_eqb (g_discriminator g) root_discriminator then
      Ok (mkDS (append_group RefLines id heap) (Some id) (Some (RefGroups id)) (ds_elements_here st)
               (ds_previous st) (RefLines :: ds_parents st) used)
    else
      match ds_previous st with
      | None => Raise UnboundLocalError
      | Some previous_position =>
          if is_sub_location_of position previous_position then
            match ds_sg_here st with
            | None => Raise UnboundLocalError
            | Some r =>
                Ok (mkDS (append_group r id heap) (Some id) (Some (RefGroups id)) (ds_elements_here st)
                         (ds_previous st) (r :: ds_parents st) used)
            end
          else
            let* distance := calculate_distance previous_position position in
            let* (sg_here, parents) := go_up (layers_up distance) (ds_sg_here st) (ds_parents st) in
            let* (sg_here, parents) := go_down (layers_down distance - 1) heap sg_here parents in
            match sg_here with
            | None => Raise UnboundLocalError
            | Some r =>
                Ok (mkDS (append_group r id heap) (Some id) (Some (RefGroups id)) (ds_elements_here st)
                         (ds_previous st) (r :: parents) used)
            end
      end.

  (** mig_ahb_matching.py:154-160 the condition for opening a group *)
  Definition opens_group (st : DeepState) (position : Location) (stack : option EdifactStack)
             (first_line last_line : AhbLine) : result bool :=
    let* l := last_of (lo_layers position) in
    Ok (ostr_eqb (al_group first_line) (ly_key l)
        && ostr_eqb (Some (ly_opening l)) (al_segment last_line)
        && match stack with
           | None => false
           | Some s => negb (str_in (to_json_path s) (ds_used st))
           end
        && is_some (al_expression first_line)).

  (** mig_ahb_matching.py:194-224 the segment is created and appended *)
  Definition add_segment (st : DeepState) (position : Location) (stack : option EdifactStack)
             (lines : list AhbLine) (first_line last_line : AhbLine) : result DeepState :=
    let* _ := check (is_none (al_element last_line)) AssertionError in
    let* _ := check (is_some (al_segment last_line)) AssertionError in
    match find (fun l => otruthy (al_expression l)) lines with
    | None => Ok st (* continue *)
    | Some first_expression_line =>
        let discriminator := match stack with
                             | None => str_of_location position
                             | Some s => to_json_path s
                             end in
        let* segment := new_Segment discriminator (al_expression first_expression_line) (al_index first_line)
                                    [] (al_section first_line) None in
        match ds_segments_here st with
        | None => Raise UnboundLocalError
        | Some g =>
            Ok (mkDS (append_segment g segment (ds_heap st)) (ds_segments_here st) (ds_sg_here st)
                     (Some (g, segment_count (ds_heap st) g)) (Some position) (ds_parents st) (ds_used st))
        end
    end.

  (** mig_ahb_matching.py:123-224 one iteration of the main loop *)
  Definition deep_step (st : DeepState) (x : Location * list (AhbLine * Location)) : result DeepState :=
    let (key, layer_group) := x in
    let data_element_lines := map fst layer_group in
    if negb (existsb (fun l => is_some (al_segment l)) data_element_lines) then Ok st (* section heading only *)
    else
      let position := match layer_group with [(_, p)] => p | _ => key end in
      let* stack := lookup_stack position layer_group in
      if existsb (fun l => is_some (al_element l)) data_element_lines then
        if negb (existsb (fun l => is_some (al_expression l)) data_element_lines) then Ok st (* continue *)
        else
          let* data_element := merge_lines_with_same_data_element data_element_lines stack in
          match ds_elements_here st with
          | None => Raise ValueError (* UnboundLocalError turned into ValueError *)
          | Some ref =>
              Ok (mkDS (append_element ref data_element (ds_heap st)) (ds_segments_here st) (ds_sg_here st)
                       (ds_elements_here st) (Some position) (ds_parents st) (ds_used st))
          end
      else
        let* first_line := first_of data_element_lines in
        let* last_line := last_of data_element_lines in
        let* opens := opens_group st position stack first_line last_line in
        let* st := (if opens then
                      match stack with
                      | Some s => open_group st position (to_json_path s) first_line
                      | None => Ok st (* not reached: opens implies a stack *)
                      end
                    else Ok st) in
        add_segment st position stack data_element_lines first_line last_line.

  (** mig_ahb_matching.py:100-118 *)
  Definition initial_deep_state : DeepState := mkDS (mkHeap [] []) None None None None [] [].

  (** mig_ahb_matching.py:225 the group tree below a cell; the children of a cell are created after it,
      so the number of cells bounds the depth *)
  Fixpoint render (fuel : nat) (cells : list GroupCell) (g : nat) : list SegmentGroup :=
    match fuel with
    | O => []
    | S f =>
        match nth_error cells g with
        | None => []
        | Some c => [mkGroup (gc_discriminator c) (gc_expression c) (gc_index c) (Some (gc_segments c))
                             (Some (flat_map (render f cells) (gc_groups c)))]
        end
    end.
  (** mig_ahb_matching.py:225 *)
  Definition render_lines (h : Heap) : list SegmentGroup :=
    flat_map (render (List.length (hp_cells h)) (hp_cells h)) (hp_lines h).

  (** mig_ahb_matching.py:100-101: deep and flat AHB share the meta object *)
  Definition stamp_version (m : Meta) : Meta :=
    mkMeta (me_pruefi m) (Some maus_VERSION) (me_description m) (me_direction m).

  (** mig_ahb_matching.py:94-225 [to_deep_ahb]: the deep AHB (or exception) and
      the flat AHB afterwards *)
  Definition to_deep_ahb (flat_ahb : FlatAhb) (h : Sgh) : result DeepAhb * FlatAhb :=
    let meta := stamp_version (fa_meta flat_ahb) in
    let flat' := mkFlat meta (fa_lines flat_ahb) in
    (let* locations := determine_locations h (fa_lines flat_ahb) in
     let* st := foldM deep_step initial_deep_state
                      (groupby (fun x => remove_qualifier (snd x)) locations) in
     Ok (mkDeep meta (render_lines (ds_heap st))),
     flat').
End ToDeepAhb.
