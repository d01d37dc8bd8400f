(** Specification vocabulary: from the located lines of a flat AHB to the segments and groups
    of a deep AHB. *)
From Coq Require Import Ascii String List NArith ZArith Bool.
From Verif Require Import PyBase PyStr M_Components M_Ahb M_Navigation M_Matching S_Prefix S_Text S_ValuePool.
Import ListNotations.
Local Open Scope list_scope.

(** ** the lines of one data element *)
(** all lines have the same data element, and there is a line *)
Definition share_one_data_element (lines : list AhbLine) (d : option pystr) : Prop :=
  lines <> [] /\ forall l, In l lines -> al_element l = d.
(** the line has a non-empty expression *)
Definition has_expression (l : AhbLine) : bool := otruthy (al_expression l).
(** the entry that a line of a value pool is turned into *)
Definition entry_of_line (l : AhbLine) (e : ValuePoolEntry) : Prop :=
  al_entry l = Some (ve_qualifier e) /\ accepted_qualifier (ve_qualifier e)
  /\ (exists n, al_name l = Some n /\ stripped n (ve_meaning e))
  /\ al_expression l = Some (ve_expression e) /\ ~ blank (ve_expression e).

(** the data element that lines are turned into: a value pool with one entry per line with an expression
    if the first line has an entry, else a free text with the expression of the first line *)
Definition element_of_lines (lines : list AhbLine) (path : option pystr) (d : DataElement) : Prop :=
  exists first rest id, lines = first :: rest /\ share_one_data_element lines (Some id) /\ n_digits 4 id
    /\ (al_entry first <> None
        /\ (exists entries, d = DPool (mkPool path id None (Some VALUE_POOL) entries)
              /\ Forall2 entry_of_line (filter has_expression lines) entries)
        \/ al_entry first = None
           /\ (exists expression type, d = DFree (mkFreeText path id None (Some type) expression)
                 /\ al_expression first = Some expression /\ ~ blank expression
                 /\ (type = DATETIME /\ al_segment first = Some (u "DTM") \/ type = TEXT /\ al_segment first <> Some (u "DTM")))).

(** ** runs of lines at the same place *)
Definition Run := list (AhbLine * Location).
Definition same_place (a b : Location) : Prop :=
  lo_layers a = lo_layers b /\ lo_segment a = lo_segment b /\ lo_element a = lo_element b.
(** [runs] are the maximal runs of lines at the same place, in order *)
Definition maximal_runs (located : Run) (runs : list Run) : Prop :=
  concat runs = located
  /\ (forall r, In r runs -> r <> [] /\ forall x y, In x r -> In y r -> same_place (snd x) (snd y))
  /\ (forall before r x y r' after, runs = before ++ (r ++ [x]) :: (y :: r') :: after -> ~ same_place (snd x) (snd y)).

Definition run_lines (r : Run) : list AhbLine := map fst r.
(** the place of a run: the location of its only line, or the common place without qualifier *)
Definition place (r : Run) : Location :=
  match r with
  | [] => mkLocation false [] None None None
  | [(_, p)] => p
  | (_, p) :: _ => mkLocation false (lo_layers p) (lo_segment p) (lo_element p) None
  end.
Definition has_segment_code (r : Run) : bool := existsb (fun l => is_some (al_segment l)) (run_lines r).
Definition has_data_element (r : Run) : bool := existsb (fun l => is_some (al_element l)) (run_lines r).
(** lines of a segment, with an expression *)
Definition counts_as_segment (r : Run) : bool :=
  has_segment_code r && negb (has_data_element r) && existsb has_expression (run_lines r).
(** lines of a data element, with an expression *)
Definition counts_as_element (r : Run) : bool :=
  has_segment_code r && has_data_element r && existsb (fun l => is_some (al_expression l)) (run_lines r).

(** a segment with the data elements that follow it, up to the next segment; and the data
    elements in front of the first segment *)
Fixpoint sections (runs : list Run) : list Run * list (Run * list Run) :=
  match runs with
  | [] => ([], [])
  | r :: rest =>
      let (elements, secs) := sections rest in
      if counts_as_segment r then ([], (r, elements) :: secs)
      else if counts_as_element r then (r :: elements, secs)
      else (elements, secs)
  end.

Section Reader.
  Variable reader : Location -> result EdifactStack.
  Variable str_of_location : Location -> pystr.

  (** what is known about a run from the MIG: the stack of its place or else of its first line *)
  Definition stack_of (r : Run) : option EdifactStack :=
    match reader (place r) with
    | Ok s => Some s
    | Raise _ =>
        match r with
        | (_, p) :: _ :: _ => match reader p with Ok s => Some s | Raise _ => None end
        | _ => None
        end
    end.

  (** the segment / data element that a run is turned into *)
  Definition segment_of_run (r : Run) (s : Segment) : Prop :=
    seg_discriminator s = match stack_of r with Some st => to_json_path st | None => str_of_location (place r) end
    /\ (exists before l after, run_lines r = before ++ l :: after /\ existsb has_expression before = false
          /\ has_expression l = true /\ al_expression l = Some (seg_expression s))
    /\ (exists first rest, run_lines r = first :: rest /\ seg_index s = al_index first /\ seg_section s = al_section first)
    /\ seg_id s = None.
  Definition element_of_run (r : Run) (d : DataElement) : Prop :=
    element_of_lines (run_lines r) (option_map to_json_path (stack_of r)) d.
  Definition section_becomes (sec : Run * list Run) (s : Segment) : Prop :=
    segment_of_run (fst sec) s /\ Forall2 element_of_run (snd sec) (seg_elements s).

  (** the lines of the run are such that they open a group: the first line is in the innermost
      group of the place and has an expression, the last line has the opening segment of that group *)
  Definition opening_lines (r : Run) : Prop :=
    exists first last outer layer,
      hd_error (run_lines r) = Some first /\ (exists l, run_lines r = l ++ [last])
      /\ lo_layers (place r) = outer ++ [layer]
      /\ al_group first = ly_key layer /\ al_segment last = Some (ly_opening layer) /\ al_expression first <> None.
  (** the run can open a group with the discriminator [path]: its first line is in the innermost
      group of its place and has an expression, its last line has the opening segment of that
      group, and the MIG knows the place *)
  Definition can_open (r : Run) (path : pystr) : Prop :=
    exists first last outer layer s,
      hd_error (run_lines r) = Some first /\ (exists l, run_lines r = l ++ [last])
      /\ lo_layers (place r) = outer ++ [layer]
      /\ al_group first = ly_key layer /\ al_segment last = Some (ly_opening layer)
      /\ stack_of r = Some s /\ path = to_json_path s /\ al_expression first <> None.

  (** the sections, split into parts: one part per group.  A part starts with a segment that
      opens the group; the other segments of the part either cannot open a group or would open
      one whose discriminator has been used before *)
  Definition part_becomes (part : list (Run * list Run)) (g : SegmentGroup) : Prop :=
    (exists segments, g_segments g = Some segments /\ Forall2 section_becomes part segments)
    /\ exists opening rest first e,
         part = opening :: rest /\ can_open (fst opening) (g_discriminator g)
         /\ hd_error (run_lines (fst opening)) = Some first
         /\ al_expression first = Some e /\ stripped e (g_expression g) /\ g_index g = al_index first.
  Definition parts_become (parts : list (list (Run * list Run))) (groups : list SegmentGroup) : Prop :=
    Forall2 part_becomes parts groups
    /\ forall k opening rest r path, nth_error parts k = Some (opening :: rest) -> In r rest -> can_open (fst r) path ->
         In path (map g_discriminator (firstn (S k) groups)).

  (** ** nesting *)
  (** the layers at which a part has been opened; the last place before the next part *)
  Definition opening_layers (part : list (Run * list Run)) : list Layer :=
    match part with [] => [] | sec :: _ => lo_layers (place (fst sec)) end.
  Definition last_place (part : list (Run * list Run)) : Location :=
    place (List.last (flat_map (fun sec => fst sec :: snd sec) part) []).
  (** a group is opened right inside a group that one is in *)
  Definition enters (from to : list Layer) : Prop :=
    exists outer layer, to = outer ++ [layer] /\ outer <> [] /\ is_prefix outer from /\ ~ is_prefix to from.
  Fixpoint enters_step_by_step (parts : list (list (Run * list Run))) : Prop :=
    match parts with
    | a :: ((b :: _) as rest) =>
        lo_layers (last_place a) = opening_layers a /\ enters (opening_layers a) (opening_layers b)
        /\ enters_step_by_step rest
    | _ => True
    end.
End Reader.

(** all groups in preorder, each with the groups around it, outermost first *)
Fixpoint with_ancestors (around : list SegmentGroup) (g : SegmentGroup) : list (list SegmentGroup * SegmentGroup) :=
  (around, g) :: match g_groups g with
                 | Some subs => flat_map (with_ancestors (around ++ [g])) subs
                 | None => []
                 end.
Definition groups_with_ancestors (a : DeepAhb) : list (list SegmentGroup * SegmentGroup) :=
  flat_map (with_ancestors []) (da_lines a).
Definition all_groups (a : DeepAhb) : list SegmentGroup := map snd (groups_with_ancestors a).
Definition all_segments (a : DeepAhb) : list Segment := flat_map (fun g => olist (g_segments g)) (all_groups a).

(** the [k]-th group around the [i]-th group is the latest one that has been opened at the first
    [k + 1] layers of the place at which the [i]-th group has been opened *)
Definition nesting_mirrors (layers : list (list Layer)) (a : DeepAhb) : Prop :=
  forall i around g ls, nth_error (groups_with_ancestors a) i = Some (around, g) -> nth_error layers i = Some ls ->
    S (List.length around) = List.length ls
    /\ forall k h, nth_error around k = Some h ->
         exists j, j < i /\ nth_error (all_groups a) j = Some h /\ nth_error layers j = Some (firstn (S k) ls)
           /\ forall j' ls', j < j' < i -> nth_error layers j' = Some ls' -> ls' <> firstn (S k) ls.

(** ** deep AHBs up to the discriminators of segments and data elements *)
Definition anonymous_element (d : DataElement) : DataElement :=
  match d with
  | DFree f => DFree (mkFreeText None (ft_id f) (ft_input f) (ft_type f) (ft_expression f))
  | DPool p => DPool (mkPool None (vp_id p) (vp_input p) (vp_type p) (vp_pool p))
  end.
Definition anonymous_segment (s : Segment) : Segment :=
  mkSegment [] (seg_expression s) (seg_index s) (map anonymous_element (seg_elements s)) (seg_section s) (seg_id s).
Fixpoint anonymous_group (g : SegmentGroup) : SegmentGroup :=
  let 'mkGroup d e i segments groups := g in
  mkGroup d e i (option_map (map anonymous_segment) segments)
          (match groups with Some l => Some (map anonymous_group l) | None => None end).
Definition anonymous (a : DeepAhb) : DeepAhb := mkDeep (da_meta a) (map anonymous_group (da_lines a)).
(** the reader fails with ValueErrors only *)
Definition only_value_errors {A} (reader : Location -> result A) : Prop :=
  forall p e, reader p = Raise e -> e = ValueError.
