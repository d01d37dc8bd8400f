(** Model of src/maus/models/__init__.py and src/maus/models/edifact_components.py
    (classes and methods; the marshmallow schemas are in M_Schema.v). *)
From Coq Require Import List NArith ZArith Bool Ascii String.
From Verif Require Import PyBase PyStr PyRe.
Import ListNotations.

(** ** attrs validators *)

(** models/__init__.py:8-15 [_check_that_string_is_not_whitespace_or_empty].
    [None] and [""] are both falsy. *)
Definition check_not_blank (v : option pystr) : result unit :=
  match v with
  | None => Raise ValueError
  | Some s =>
      if negb (truthy s) then Raise ValueError
      else if Nat.eqb (List.length (strip s)) 0 then Raise ValueError
      else Ok tt
  end.

(** models/__init__.py:8-15 attrs.validators.instance_of(str) on an Optional[str] value *)
Definition check_is_str (v : option pystr) : result pystr :=
  match v with None => Raise TypeError | Some s => Ok s end.

(** edifact_components.py:48-70, 367-375 attrs.validators.optional(v) *)
Definition check_optional {A} (v : A -> result unit) (o : option A) : result unit :=
  match o with None => Ok tt | Some a => v a end.

(** edifact_components.py:57, 415 attrs.validators.matches_re(r) without func: fullmatch *)
Definition check_re (r : re) (s : pystr) : result unit :=
  check (fullmatches r s) ValueError.

(** edifact_components.py:57, 415 the regular expression ^\d{n}$ *)
Definition re_digits (n : nat) : re := RSeq RBol (RSeq (RRep n (RChar is_decimal)) REol).

(** ** Data types *)

(** edifact_components.py:19-27 [DataElementDataType] *)
Inductive DataType : Set := TEXT | DATETIME | VALUE_POOL.

(** edifact_components.py:19-27 *)
Definition datatype_eqb (a b : DataType) : bool :=
  match a, b with
  | TEXT, TEXT | DATETIME, DATETIME | VALUE_POOL, VALUE_POOL => true
  | _, _ => false
  end.

(** edifact_components.py:30-37 [derive_data_type_from_segment_code].
    The argument is annotated str but None is passed by callers as well. *)
Definition derive_data_type_from_segment_code (segment_code : option pystr) : option DataType :=
  match segment_code with
  | Some s => if str_in s [u "DTM"] then Some DATETIME else None
  | None => None
  end.

(** edifact_components.py:148-166 [ValuePoolEntry] *)
Record ValuePoolEntry := mkEntry {
  ve_qualifier : pystr;
  ve_meaning : pystr;
  ve_expression : pystr
}.

(** edifact_components.py:40-70, 91-107 [DataElement], [DataElementFreeText] *)
Record FreeText := mkFreeText {
  ft_discriminator : option pystr;
  ft_id : pystr;
  ft_input : option pystr;
  ft_type : option DataType;
  ft_expression : pystr
}.

(** edifact_components.py:40-70, 188-209 [DataElement], [DataElementValuePool] *)
Record ValuePool := mkPool {
  vp_discriminator : option pystr;
  vp_id : pystr;
  vp_input : option pystr;
  vp_type : option DataType;
  vp_pool : list ValuePoolEntry
}.

(** edifact_components.py:40-70 A data element is an instance of one of the two subclasses of DataElement. *)
Inductive DataElement :=
| DFree (f : FreeText)
| DPool (p : ValuePool).

(** edifact_components.py:48 the attribute shared by both subclasses *)
Definition de_discriminator (d : DataElement) : option pystr :=
  match d with DFree f => ft_discriminator f | DPool p => vp_discriminator p end.

(** edifact_components.py:361-386, 399-427 [SegmentLevel], [Segment] *)
Record Segment := mkSegment {
  seg_discriminator : pystr;
  seg_expression : pystr;
  seg_index : option Z;
  seg_elements : list DataElement;
  seg_section : option pystr;
  seg_id : option pystr
}.

(** edifact_components.py:448-467 [SegmentGroup]: discriminator,
    ahb_expression, ahb_line_index, segments, segment_groups *)
Inductive SegmentGroup :=
  mkGroup (discriminator : pystr) (expression : pystr) (index : option Z)
          (segments : option (list Segment)) (groups : option (list SegmentGroup)).

(** edifact_components.py:448-467 *)
Definition g_discriminator (g : SegmentGroup) := let 'mkGroup d _ _ _ _ := g in d.
(** edifact_components.py:448-467 *)
Definition g_expression (g : SegmentGroup) := let 'mkGroup _ e _ _ _ := g in e.
(** edifact_components.py:448-467 *)
Definition g_index (g : SegmentGroup) := let 'mkGroup _ _ i _ _ := g in i.
(** edifact_components.py:448-467 *)
Definition g_segments (g : SegmentGroup) := let 'mkGroup _ _ _ s _ := g in s.
(** edifact_components.py:448-467 *)
Definition g_groups (g : SegmentGroup) := let 'mkGroup _ _ _ _ gs := g in gs.

(** edifact_components.py:469-502 [x or []] for an Optional[List]; also the meaning of
    "if x is not None: for y in x" and of "if x: for y in x" *)
Definition olist {A} (o : option (list A)) : list A :=
  match o with None => [] | Some l => l end.

(** ** Constructors (attrs __init__ runs the validators in attribute order) *)

(** edifact_components.py:127 [_simple_edifact_qualifier_pattern]
    ^([A-Z\d]+)|(\d+\.\d+[a-z])$ : the bar has the lowest precedence *)
Definition re_simple_qualifier : re :=
  RAlt
    (RSeq RBol (RCap 1 (RPlus (RChar (fun c => is_AZ c || is_decimal c)))))
    (RSeq (RCap 2 (RSeq (RPlus (RChar is_decimal))
                        (RSeq (RChar (N.eqb (ch ".")))
                              (RSeq (RPlus (RChar is_decimal)) (RChar is_az)))))
          REol).

(** edifact_components.py:130 [gabi_edifact_qualifier_pattern]
    ^(?!MP-ID)(GABi)?[A-Z\d\-]+(RLM(o|m)T)?$ *)
Definition re_gabi_qualifier : re :=
  RSeq RBol
    (RSeq (RNot (RLit (u "MP-ID")))
       (RSeq (ROpt (RCap 1 (RLit (u "GABi"))))
          (RSeq (RPlus (RChar (fun c => is_AZ c || is_decimal c || N.eqb c chr_dash)))
             (RSeq (ROpt (RCap 2 (RSeq (RLit (u "RLM"))
                                    (RSeq (RCap 3 (RAlt (RLit (u "o")) (RLit (u "m"))))
                                          (RLit (u "T"))))))
                   REol)))).

(** edifact_components.py:133-145 [_check_is_edifact_qualifier] *)
Definition check_is_edifact_qualifier (v : option pystr) : result unit :=
  let* _ := check_not_blank v in
  match v with
  | None => Ok tt (* not reached: check_not_blank raised *)
  | Some s =>
      if matches re_simple_qualifier s then Ok tt
      else if matches re_gabi_qualifier s then Ok tt
      else Raise ValueError
  end.

(** edifact_components.py:148-166 [ValuePoolEntry.__init__] *)
Definition new_ValuePoolEntry (qualifier meaning expression : option pystr) : result ValuePoolEntry :=
  let* _ := check_is_edifact_qualifier qualifier in
  let* q := check_is_str qualifier in
  let* m := check_is_str meaning in
  let* _ := check_not_blank expression in
  let* e := check_is_str expression in
  Ok (mkEntry q m e).

(** edifact_components.py:48-66 validators of the [DataElement] attributes *)
Definition check_data_element (discriminator : option pystr) (id : option pystr) : result pystr :=
  let* _ := check_optional (fun s => check_not_blank (Some s)) discriminator in
  let* i := check_is_str id in
  let* _ := check_re (re_digits 4) i in
  Ok i.

(** edifact_components.py:92-107 [DataElementFreeText.__init__] *)
Definition new_FreeText (discriminator id input : option pystr) (type : option DataType)
           (expression : option pystr) : result FreeText :=
  let* i := check_data_element discriminator id in
  let* e := check_is_str expression in
  let* _ := check_not_blank (Some e) in
  Ok (mkFreeText discriminator i input type e).

(** edifact_components.py:189-206 [DataElementValuePool.__init__] *)
Definition new_ValuePool (discriminator id input : option pystr) (type : option DataType)
           (pool : list ValuePoolEntry) : result ValuePool :=
  let* i := check_data_element discriminator id in
  Ok (mkPool discriminator i input type pool).

(** edifact_components.py:367-375, 399-416 [Segment.__init__] *)
Definition new_Segment (discriminator : pystr) (expression : option pystr) (index : option Z)
           (elements : list DataElement) (section segment_id : option pystr) : result Segment :=
  let* e := check_is_str expression in
  let* _ := check_not_blank (Some e) in
  let* _ := check_optional (check_re (re_digits 5)) segment_id in
  Ok (mkSegment discriminator e index elements section segment_id).

(** edifact_components.py:367-375, 448-467 [SegmentGroup.__init__] *)
Definition new_SegmentGroup (discriminator : pystr) (expression : option pystr) (index : option Z)
           (segments : option (list Segment)) (groups : option (list SegmentGroup)) : result SegmentGroup :=
  let* e := check_is_str expression in
  let* _ := check_not_blank (Some e) in
  Ok (mkGroup discriminator e index segments groups).

(** ** Value pools *)

(** edifact_components.py:242-249 A dict with insertion order: assignment to an existing key keeps its place. *)
Fixpoint dict_set {V} (k : pystr) (v : V) (d : list (pystr * V)) : list (pystr * V) :=
  match d with
  | [] => [(k, v)]
  | (k', v') :: r => if str_eqb k k' then (k', v) :: r else (k', v') :: dict_set k v r
  end.
(** edifact_components.py:244-249 *)
Fixpoint dict_get {V} (k : pystr) (d : list (pystr * V)) : option V :=
  match d with
  | [] => None
  | (k', v') :: r => if str_eqb k k' then Some v' else dict_get k r
  end.
(** transformation.py:119, 139 [d.update(e)] *)
Definition dict_update {V} (d e : list (pystr * V)) : list (pystr * V) :=
  fold_left (fun acc kv => dict_set (fst kv) (snd kv) acc) e d.

(** edifact_components.py:246-249 [l[i] = x] *)
Fixpoint list_set {A} (i : nat) (x : A) (l : list A) : list A :=
  match l, i with
  | [], _ => []
  | _ :: r, O => x :: r
  | y :: r, S j => y :: list_set j x r
  end.

(** edifact_components.py:242 the dict {x.qualifier: x for x in value_pool}; the
    entry objects are represented by their position in the pool *)
Definition entries_by_qualifier (pool : list ValuePoolEntry) : list (pystr * nat) :=
  fold_left (fun d qi => dict_set (fst qi) (snd qi) d)
            (combine (map ve_qualifier pool) (seq 0 (List.length pool))) [].

(** edifact_components.py:243-249 the body of the loop in [replace_value_pool].
    Assigning to an attribute of an entry runs the validator of the attribute;
    what has been assigned before an exception stays assigned, so the state
    survives the exception. *)
Definition replace_one (mapping : list (pystr * option pystr)) (merger : option (pystr -> pystr -> pystr))
           (q : pystr) (i : nat) (pool : list ValuePoolEntry) : list ValuePoolEntry * option exn :=
  match dict_get q mapping with
  | None => (pool, None)
  | Some new_qualifier =>
      match nth_error pool i with
      | None => (pool, None) (* not reached: i is a position of the pool *)
      | Some e =>
          let e1 := match merger with
                    | None => e
                    | Some f => mkEntry (ve_qualifier e) (f (ve_meaning e) q) (ve_expression e)
                    end in
          match check_is_edifact_qualifier new_qualifier, new_qualifier with
          | Ok _, Some q' => (list_set i (mkEntry q' (ve_meaning e1) (ve_expression e1)) pool, None)
          | Ok _, None => (list_set i e1 pool, Some ValueError) (* not reached: None is rejected *)
          | Raise x, _ => (list_set i e1 pool, Some x)
          end
      end
  end.

(** edifact_components.py:243-249 *)
Fixpoint replace_loop (mapping : list (pystr * option pystr)) (merger : option (pystr -> pystr -> pystr))
         (todo : list (pystr * nat)) (pool : list ValuePoolEntry) : list ValuePoolEntry * option exn :=
  match todo with
  | [] => (pool, None)
  | (q, i) :: r =>
      match replace_one mapping merger q i pool with
      | (pool', None) => replace_loop mapping merger r pool'
      | (pool', Some x) => (pool', Some x)
      end
  end.

(** edifact_components.py:211-249 [DataElementValuePool.replace_value_pool]: the
    value pool afterwards and the exception raised, if any.
    The mapping is a dict; its values may be None at run time (see
    transformation.py).  Simplification: the entries of a pool are distinct
    objects. *)
Definition replace_value_pool (mapping : list (pystr * option pystr)) (merger : option (pystr -> pystr -> pystr))
           (p : ValuePool) : ValuePool * option exn :=
  let (pool, x) := replace_loop mapping merger (entries_by_qualifier (vp_pool p)) (vp_pool p) in
  (mkPool (vp_discriminator p) (vp_id p) (vp_input p) (vp_type p) pool, x).

(** edifact_components.py:251-255 [has_value_pool_which_is_subset_of] for an
    argument whose [in] has no effect (list, tuple, set, dict) *)
Definition has_value_pool_which_is_subset_of (p : ValuePool) (entries : list pystr) : bool :=
  forallb (fun x => str_in (ve_qualifier x) entries) (vp_pool p).

(** edifact_components.py:251-255 [q in it] for an iterator: consumes items up to and including the first hit *)
Fixpoint iter_in (q : pystr) (it : list pystr) : bool * list pystr :=
  match it with
  | [] => (false, [])
  | x :: r => if str_eqb q x then (true, r) else iter_in q r
  end.

(** edifact_components.py:251-255 the same method for an iterator / generator
    argument, represented by the items it has not yet produced *)
Fixpoint subset_of_iterator_go (pool : list ValuePoolEntry) (it : list pystr) : bool :=
  match pool with
  | [] => true
  | x :: r =>
      let (found, it') := iter_in (ve_qualifier x) it in
      if found then subset_of_iterator_go r it' else false
  end.
(** edifact_components.py:251-255 *)
Definition has_value_pool_which_is_subset_of_iterator (p : ValuePool) (it : list pystr) : bool :=
  subset_of_iterator_go (vp_pool p) it.

(** ** Segments and segment groups *)

(** edifact_components.py:422-427 [Segment.get_all_value_pools] *)
Definition segment_value_pools (s : Segment) : list ValuePool :=
  flat_map (fun d => match d with DPool p => [p] | DFree _ => [] end) (seg_elements s).

(** edifact_components.py:381-386 [SegmentLevel.reset_ahb_line_index] of a segment *)
Definition segment_reset_index (s : Segment) : Segment :=
  mkSegment (seg_discriminator s) (seg_expression s) None (seg_elements s) (seg_section s) (seg_id s).

(** edifact_components.py:469-476 [SegmentGroup.reset_ahb_line_index] *)
Fixpoint group_reset_index (g : SegmentGroup) : SegmentGroup :=
  match g with
  | mkGroup d e _ ss gs =>
      mkGroup d e None (option_map (map segment_reset_index) ss)
              (option_map (map group_reset_index) gs)
  end.

(** edifact_components.py:478-492 [SegmentGroup.find_segments] *)
Fixpoint group_find_segments (predicate : Segment -> bool) (search_recursively : bool) (g : SegmentGroup)
  : list Segment :=
  match g with
  | mkGroup _ _ _ ss gs =>
      filter predicate (olist ss)
      ++ (if search_recursively
          then match gs with
               | Some l => flat_map (group_find_segments predicate search_recursively) l
               | None => []
               end
          else [])
  end.

(** edifact_components.py:494-502 [SegmentGroup.get_all_value_pools] *)
Definition group_value_pools (g : SegmentGroup) : list ValuePool :=
  flat_map segment_value_pools (group_find_segments (fun _ => true) true g).

(** ** EdifactStack *)

(** edifact_components.py:527-540 [EdifactStackLevel] *)
Record StackLevel := mkLevel {
  lv_name : pystr;
  lv_groupable : bool;
  lv_index : option Z
}.

(** edifact_components.py:547-560 [EdifactStack]: its levels *)
Definition EdifactStack := list StackLevel.

(** edifact_components.py:544 [_level_pattern]
    \[\"(?P<level_name>[^\[\]]+?)\"\](?:\[(?P<index>\d+)\])?
    group 1 = level_name, group 2 = index *)
Definition not_bracket (c : char) : bool := negb (N.eqb c chr_lbracket) && negb (N.eqb c chr_rbracket).
(** edifact_components.py:544 *)
Definition re_level : re :=
  RSeq (RLit [chr_lbracket; chr_quote])
    (RSeq (RCap 1 (RPlusLazy (RChar not_bracket)))
       (RSeq (RLit [chr_quote; chr_rbracket])
          (ROpt (RSeq (RLit [chr_lbracket])
                   (RSeq (RCap 2 (RPlus (RChar is_decimal))) (RLit [chr_rbracket])))))).

(** edifact_components.py:568-572 one iteration of the loop in [from_json_path] *)
Definition level_of_match (m : rst) : StackLevel :=
  let name := match group 1 m with Some n => n | None => [] end in
  match group 2 m with
  | Some i => mkLevel name true (Some (Z.of_N (int_of_digits i)))
  | None => mkLevel name false None
  end.

(** edifact_components.py:562-573 [EdifactStack.from_json_path] *)
Definition from_json_path (json_path : pystr) : EdifactStack :=
  map level_of_match (finditer re_level json_path).

(** edifact_components.py:606-610 one iteration of the loop in [to_json_path] *)
Definition level_to_json_path (l : StackLevel) : pystr :=
  u "[""" ++ lv_name l ++ u """]" ++
  match lv_index l with
  | Some i => u "[" ++ str_of_Z i ++ u "]"
  | None => if lv_groupable l then u "[0]" else []
  end.

(** edifact_components.py:598-611 [EdifactStack.to_json_path] *)
Definition to_json_path (s : EdifactStack) : pystr :=
  u "$" ++ flat_map level_to_json_path s.

(** edifact_components.py:527-540 attrs __eq__ of [EdifactStackLevel] *)
Definition level_eqb (a b : StackLevel) : bool :=
  str_eqb (lv_name a) (lv_name b)
  && Bool.eqb (lv_groupable a) (lv_groupable b)
  && opt_eqb Z.eqb (lv_index a) (lv_index b).

(** edifact_components.py:575-590 [EdifactStack.is_sub_stack_of] *)
Definition is_sub_stack_of (self other : EdifactStack) : bool :=
  if Nat.ltb (List.length self) (List.length other) then false
  else forallb (fun p => level_eqb (fst p) (snd p)) (combine other self).

(** edifact_components.py:592-596 [EdifactStack.is_parent_of] *)
Definition stack_is_parent_of (self other : EdifactStack) : bool := is_sub_stack_of other self.
