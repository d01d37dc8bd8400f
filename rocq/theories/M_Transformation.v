(** Model of src/maus/transformation.py: coroutines that share mutable EDIFACT data and are
    interleaved by the event loop. *)
From Coq Require Import Ascii String List NArith ZArith Bool.
From Verif Require Import PyBase PyStr PyRe M_Components M_Ahb.
Import ListNotations.
Local Open Scope list_scope.

(** ** the value pool objects of a deep AHB

    [get_all_value_pools] (M_Ahb.v) gives values; the functions here do the same but also say which
    object it is: the position of its group (index of the line, then indexes of nested groups), the
    index of its segment and the index of the data element. *)
Section FlatMapI.
  Context {X Y : Type}.
  Variable f : nat -> X -> list Y.
  (** anwendungshandbuch.py:454-536 enumerate *)
  Fixpoint flat_mapi (i : nat) (l : list X) : list Y :=
    match l with [] => [] | x :: r => f i x ++ flat_mapi (S i) r end.
End FlatMapI.
(** anwendungshandbuch.py:513-536 *)
Definition position : Type := list nat * nat * nat.

(** anwendungshandbuch.py:454-469 [_query_segment_group] with a predicate that is always True *)
Fixpoint groups_at (pos : list nat) (g : SegmentGroup) : list (list nat * SegmentGroup) :=
  (pos, g)
  :: match g with
     | mkGroup _ _ _ _ (Some gs) => flat_mapi (fun i h => groups_at (pos ++ [i]) h) 0 gs
     | mkGroup _ _ _ _ None => []
     end.
(** anwendungshandbuch.py:477-483 one line of [find_segment_groups] *)
Definition line_groups_at (result : list (list nat * SegmentGroup)) (i : nat) (line : SegmentGroup)
  : list (list nat * SegmentGroup) :=
  let result := result ++ flat_mapi (fun j g => groups_at [i; j] g) 0 (olist (g_groups line)) in
  fold_left (fun result x => if existsb (group_eqb (snd x)) (map snd result) then result else result ++ [x])
            (groups_at [i] line) result.
(** anwendungshandbuch.py:471-484 *)
Fixpoint lines_groups_at (i : nat) (lines : list SegmentGroup) (result : list (list nat * SegmentGroup))
  : list (list nat * SegmentGroup) :=
  match lines with [] => result | line :: r => lines_groups_at (S i) r (line_groups_at result i line) end.
(** anwendungshandbuch.py:471-484 [find_segment_groups] with a predicate that is always True *)
Definition find_groups_at (a : DeepAhb) : list (list nat * SegmentGroup) := lines_groups_at 0 (da_lines a) [].
(** edifact_components.py:478-492 the segments directly in a group *)
Definition segments_at (pos : list nat) (segments : list Segment) : list (list nat * nat * Segment) :=
  flat_mapi (fun i s => [(pos, i, s)]) 0 segments.
(** edifact_components.py:478-492 [SegmentGroup.find_segments] *)
Fixpoint group_segments_at (pos : list nat) (g : SegmentGroup) : list (list nat * nat * Segment) :=
  match g with
  | mkGroup _ _ _ ss gs =>
      segments_at pos (olist ss)
      ++ match gs with
         | Some l => flat_mapi (fun i h => group_segments_at (pos ++ [i]) h) 0 l
         | None => []
         end
  end.
(** anwendungshandbuch.py:486-504 [find_segments] *)
Definition find_segments_at (a : DeepAhb) : list (list nat * nat * Segment) :=
  flat_map (fun x => group_segments_at (fst x) (snd x)) (find_groups_at a)
  ++ flat_mapi (fun i line => segments_at [i] (olist (g_segments line))) 0 (da_lines a).
(** edifact_components.py:422-427 [Segment.get_all_value_pools] *)
Definition segment_pools_at (x : list nat * nat * Segment) : list (position * ValuePool) :=
  flat_mapi (fun i d => match d with DPool p => [(fst x, i, p)] | DFree _ => [] end) 0 (seg_elements (snd x)).
(** anwendungshandbuch.py:522-528 [add_to_result] *)
Definition add_pool_at (st : list (position * ValuePool) * list (option pystr)) (x : position * ValuePool)
  : list (position * ValuePool) * list (option pystr) :=
  let (result, added) := st in
  if ostr_in (vp_discriminator (snd x)) added then st
  else if existsb (pool_eqb (snd x)) (map snd result) then st
  else (result ++ [x], vp_discriminator (snd x) :: added).
(** anwendungshandbuch.py:513-536 [DeepAnwendungshandbuch.get_all_value_pools] *)
Definition value_pools_at (a : DeepAhb) : list (position * ValuePool) :=
  fst (fold_left add_pool_at
         (flat_map segment_pools_at (find_segments_at a)
          ++ flat_map (fun x => flat_map segment_pools_at (group_segments_at (fst x) (snd x))) (find_groups_at a))
         ([], [])).

(** transformation.py:165 changing one element of a list, if there is one at the index *)
Fixpoint modify_nth {X} (i : nat) (f : X -> X) (l : list X) : list X :=
  match i, l with
  | _, [] => []
  | 0, x :: r => f x :: r
  | S i, x :: r => x :: modify_nth i f r
  end.
(** transformation.py:165 a method that changes a value pool object, called on the object at the position *)
Definition modify_element (f : ValuePool -> ValuePool) (d : DataElement) : DataElement :=
  match d with DPool p => DPool (f p) | DFree t => DFree t end.
(** transformation.py:165 *)
Definition modify_segment (i : nat) (f : ValuePool -> ValuePool) (s : Segment) : Segment :=
  mkSegment (seg_discriminator s) (seg_expression s) (seg_index s) (modify_nth i (modify_element f) (seg_elements s))
            (seg_section s) (seg_id s).
(** transformation.py:165 *)
Fixpoint modify_group (path : list nat) (s i : nat) (f : ValuePool -> ValuePool) (g : SegmentGroup) : SegmentGroup :=
  match g with
  | mkGroup d e x ss gs =>
      match path with
      | [] => mkGroup d e x (option_map (modify_nth s (modify_segment i f)) ss) gs
      | j :: path => mkGroup d e x ss (option_map (modify_nth j (modify_group path s i f)) gs)
      end
  end.
(** transformation.py:165 *)
Definition modify_pool (pos : position) (f : ValuePool -> ValuePool) (a : DeepAhb) : DeepAhb :=
  match pos with
  | (line :: path, s, i) => mkDeep (da_meta a) (modify_nth line (modify_group path s i f) (da_lines a))
  | ([], _, _) => a
  end.

(** ** coroutines *)
Section Transformation.
  (** EDIFACT data (a mutable object) and application data (a value: it is never modified) *)
  Variables D A : Type.

  (** transformation.py:127 references to EDIFACT data objects; new objects get the reference [next] *)
  Definition ref := nat.
  (** transformation.py:127 *)
  Record store := mkStore { content : ref -> D; next : ref }.
  (** transformation.py:129 *)
  Definition put (r : ref) (d : D) (s : store) : store :=
    mkStore (fun r' => if Nat.eqb r' r then d else content s r') (next s).

  (** transformation.py:91-176 what a coroutine does: return, raise, read or write an object, create one, or suspend itself *)
  Inductive co (X : Type) : Type :=
  | CRet (x : X)
  | CRaise (e : exn)
  | CRead (r : ref) (k : D -> co X)
  | CWrite (r : ref) (d : D) (k : co X)
  | CNew (d : D) (k : ref -> co X)
  | CYield (k : co X).
  Arguments CRet {X} x.
  Arguments CRaise {X} e.
  Arguments CRead {X} r k.
  Arguments CWrite {X} r d k.
  Arguments CNew {X} d k.
  Arguments CYield {X} k.

  (** transformation.py:91-176 *)
  Inductive outcome (X : Type) : Type :=
  | Returned (x : X)
  | Raised (e : exn)
  | Suspended (c : co X).
  Arguments Returned {X} x.
  Arguments Raised {X} e.
  Arguments Suspended {X} c.

  (** transformation.py:91-176 the event loop runs a coroutine until it returns, raises or suspends itself *)
  Fixpoint run {X} (c : co X) (s : store) : outcome X * store :=
    match c with
    | CRet x => (Returned x, s)
    | CRaise e => (Raised e, s)
    | CRead r k => run (k (content s r)) s
    | CWrite r d k => run k (put r d s)
    | CNew d k => run (k (next s)) (mkStore (content (put (next s) d s)) (S (next s)))
    | CYield k => (Suspended k, s)
    end.

  (** transformation.py:91-176 [x = await c] followed by [k x] *)
  Fixpoint co_bind {X Y} (c : co X) (k : X -> co Y) : co Y :=
    match c with
    | CRet x => k x
    | CRaise e => CRaise e
    | CRead r f => CRead r (fun d => co_bind (f d) k)
    | CWrite r d c => CWrite r d (co_bind c k)
    | CNew d f => CNew d (fun r => co_bind (f r) k)
    | CYield c => CYield (co_bind c k)
    end.
  (** transformation.py:91-176 *)
  Definition co_of {X} (r : result X) : co X := match r with Ok x => CRet x | Raise e => CRaise e end.

  (** transformation.py:41-58 [ApplicationEdifactConverter] *)
  Variable to_edi : A -> co ref.
  Variable to_app : ref -> co A.
  (** transformation.py:64-82 [Accessor]: the values are strings; [set_value] changes the data and may raise an exception,
      possibly after it has changed them *)
  Variable edi_get : D -> pystr -> result (option pystr).
  Variable edi_set : D -> pystr -> pystr -> D * option exn.
  Variable app_get : A -> pystr -> result (option pystr).

  Variable application_data_model : A.
  (** edifact_to_non_edifact_path_mapping *)
  Variable path_mapping : list (pystr * pystr).

  (** transformation.py:110 the keys and values of a dictionary with optional strings as values *)
  Definition dictionary := list (pystr * option pystr).

  (** transformation.py:110-122 the loop over the path mapping: the first item (the only one, the
      mapping is a dictionary) whose key is the discriminator *)
  Fixpoint find_path (discriminator : option pystr) (items : list (pystr * pystr)) : option (pystr * pystr) :=
    match items with
    | [] => None
    | (edi_path, non_edi_path) :: r =>
        if ostr_eqb (Some edi_path) discriminator then Some (edi_path, non_edi_path) else find_path discriminator r
    end.

  (** transformation.py:109-122 *)
  Record head := mkHead { h_data : ref; h_edi_path : pystr; h_non_edi_path : pystr; h_mapping : dictionary }.

  (** transformation.py:91-122 [generate_value_pool_replacement] up to the other values *)
  Definition generate_head (data_element : ValuePool) : co head :=
    co_bind (to_edi application_data_model) (fun initial_edifact_data =>
    match find_path (vp_discriminator data_element) path_mapping with
    | None => CRaise ValueError
    | Some (edi_path, non_edi_path) =>
        co_bind (co_of (app_get application_data_model non_edi_path)) (fun non_edi_value =>
        CRead initial_edifact_data (fun d =>
        co_bind (co_of (edi_get d edi_path)) (fun edi_value =>
        CRet (mkHead initial_edifact_data edi_path non_edi_path
                     match edi_value with Some v => dict_set v non_edi_value [] | None => [] end))))
    end).

  (** transformation.py:125-133 [_get_value_pool_mapping] *)
  Definition get_value_pool_mapping (h : head) (value_pool_entry : ValuePoolEntry) : co (pystr * option pystr) :=
    let modified_edi_value := ve_qualifier value_pool_entry in
    CRead (h_data h) (fun d =>
    let (d', raised) := edi_set d (h_edi_path h) (ve_qualifier value_pool_entry) in
    CWrite (h_data h) d'
    match raised with
    | Some e => CRaise e
    | None =>
        co_bind (to_app (h_data h)) (fun modified_application_data =>
        co_bind (co_of (app_get modified_application_data (h_non_edi_path h))) (fun modified_application_value =>
        CRet (modified_edi_value, modified_application_value)))
    end).

  (** transformation.py:135-138 a task of asyncio.gather *)
  Inductive task :=
  | TRun (c : co (pystr * option pystr))
  | TDone (r : pystr * option pystr)
  | TFailed.

  (** transformation.py:91-140 the states of [generate_value_pool_replacement]: before the tasks are
      created, while they are running ([failed]: the first exception raised by a task), and done *)
  Inductive generation :=
  | GHead (c : co head)
  | GGather (h : head) (failed : option exn) (tasks : list task)
  | GDone (r : result dictionary).

  (** transformation.py:91-109 *)
  Definition start_generation (data_element : ValuePool) : generation := GHead (generate_head data_element).

  (** transformation.py:138-139 *)
  Fixpoint results_of (tasks : list task) : option (list (pystr * option pystr)) :=
    match tasks with
    | [] => Some []
    | TDone r :: ts => match results_of ts with Some l => Some (r :: l) | None => None end
    | _ :: _ => None
    end.

  (** transformation.py:138 which coroutine the event loop resumes: generate_value_pool_replacement itself or the task
      for the i-th entry of the pool *)
  Inductive choice := Outer | Inner (i : nat).

  (** transformation.py:91-140 one step of the event loop; None: this coroutine cannot be resumed.  asyncio.gather resumes its
      caller when all tasks are done or one has failed; the tasks that are left over after a failure go on
      (see [transformation_step]). *)
  Definition generation_step (data_element : ValuePool) (c : choice) (g : generation) (s : store) : option (generation * store) :=
    match g, c with
    | GHead co, Outer =>
        match run co s with
        | (Returned h, s') => Some (GGather h None (map (fun e => TRun (get_value_pool_mapping h e)) (vp_pool data_element)), s')
        | (Raised e, s') => Some (GDone (Raise e), s')
        | (Suspended co', s') => Some (GHead co', s')
        end
    | GGather h failed tasks, Inner i =>
        match nth_error tasks i with
        | Some (TRun co) =>
            match run co s with
            | (Returned r, s') => Some (GGather h failed (list_set i (TDone r) tasks), s')
            | (Raised e, s') => Some (GGather h (match failed with None => Some e | Some _ => failed end) (list_set i TFailed tasks), s')
            | (Suspended co', s') => Some (GGather h failed (list_set i (TRun co') tasks), s')
            end
        | _ => None
        end
    | GGather h failed tasks, Outer =>
        match failed with
        | Some e => Some (GDone (Raise e), s)
        | None =>
            match results_of tasks with
            | Some results => Some (GDone (Ok (fold_left (fun mapping result => dict_set (fst result) (snd result) mapping)
                                                         results (h_mapping h))), s)
            | None => None
            end
        end
    | _, _ => None
    end.

  (** transformation.py:91-140 the state after a schedule; None if a coroutine is scheduled that cannot be resumed *)
  Fixpoint generation_run (data_element : ValuePool) (schedule : list choice) (st : generation * store) : option (generation * store) :=
    match schedule with
    | [] => Some st
    | c :: r => match generation_step data_element c (fst st) (snd st) with
                | Some st' => generation_run data_element r st'
                | None => None
                end
    end.

  (** ** transform_all_value_pools *)

  (** transformation.py:168-174 *)
  Definition is_relevant (value_pool : ValuePool) : bool :=
    match vp_discriminator value_pool with
    | None => false
    | Some d => startswith d (u "$") && negb (contains d (u "Absender"))
                && negb (contains d (u "Empf" ++ [228%N] ++ u "nger"))
    end.

  (** transformation.py:156-165 a task [transform_value_pool]: the object, its value when the task
      was created, and what it does.  A task that is done may have left tasks of its asyncio.gather
      behind; they are those of the last state [rest] of generate_value_pool_replacement. *)
  Inductive job_state := JRun (g : generation) | JDone (x : option exn) (rest : generation).
  (** transformation.py:156-165 *)
  Record job := mkJob { j_position : position; j_pool : ValuePool; j_state : job_state }.

  (** transformation.py:143-176 the AHB, the EDIFACT data objects, the tasks, the first exception of a task *)
  Record world := mkWorld { w_ahb : DeepAhb; w_store : store; w_jobs : list job; w_failed : option exn }.

  (** transformation.py:143-154, 167-176 *)
  Definition start_transformation (deep_ahb : DeepAhb) (s : store) : world :=
    mkWorld deep_ahb s
      (flat_map (fun x => if is_relevant (snd x) then [mkJob (fst x) (snd x) (JRun (start_generation (snd x)))] else [])
                (value_pools_at deep_ahb))
      None.

  (** transformation.py:176 *)
  Definition first_failure (failed x : option exn) : option exn := match failed with None => x | Some _ => failed end.

  (** transformation.py:176 one step of the event loop: [i] is the task, [c] says which coroutine in it.  When the
      mapping is there, replace_value_pool is called without suspending in between.  asyncio.gather does
      not cancel the other tasks when one of them raises: those left behind by a task that is done can
      still be resumed, and nobody looks at their results. *)
  Definition transformation_step (i : nat) (c : choice) (w : world) : option world :=
    match nth_error (w_jobs w) i with
    | Some (mkJob pos p (JRun g)) =>
        match generation_step p c g (w_store w) with
        | Some (GDone (Ok mapping), s') =>
            Some (mkWorld (modify_pool pos (fun p => fst (replace_value_pool mapping None p)) (w_ahb w)) s'
                          (list_set i (mkJob pos p (JDone (snd (replace_value_pool mapping None p)) g)) (w_jobs w))
                          (first_failure (w_failed w) (snd (replace_value_pool mapping None p))))
        | Some (GDone (Raise e), s') =>
            Some (mkWorld (w_ahb w) s' (list_set i (mkJob pos p (JDone (Some e) g)) (w_jobs w)) (first_failure (w_failed w) (Some e)))
        | Some (g', s') => Some (mkWorld (w_ahb w) s' (list_set i (mkJob pos p (JRun g')) (w_jobs w)) (w_failed w))
        | None => None
        end
    | Some (mkJob pos p (JDone x rest)) =>
        match c with
        | Inner _ =>
            match generation_step p c rest (w_store w) with
            | Some (rest', s') => Some (mkWorld (w_ahb w) s' (list_set i (mkJob pos p (JDone x rest')) (w_jobs w)) (w_failed w))
            | None => None
            end
        | Outer => None
        end
    | None => None
    end.
  (** transformation.py:176 *)
  Fixpoint transformation_run (schedule : list (nat * choice)) (w : world) : option world :=
    match schedule with
    | [] => Some w
    | (i, c) :: r => match transformation_step i c w with Some w' => transformation_run r w' | None => None end
    end.

  (** transformation.py:176 what the caller of transform_all_value_pools sees: nothing yet, an exception or the return.  After an
      exception the other tasks go on. *)
  Definition transformation_result (w : world) : option (result unit) :=
    match w_failed w with
    | Some e => Some (Raise e)
    | None => if forallb (fun j => match j_state j with JDone _ _ => true | JRun _ => false end) (w_jobs w) then Some (Ok tt) else None
    end.
End Transformation.
