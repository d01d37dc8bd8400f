(** Model of maus.reader.mig_xml_reader, maus.reader.etree_element_helpers and
    maus.reader.mig_ahb_name_helpers (lines refer to the files in /repo/src/maus/reader).

    Here a reader is the root element of the parsed document (the text is parsed in
    M_MigFile.v). Not modelled: namespaces in the document.
    mig_xml_reader.py:72-85 [_unpack_virtual_groups] is modelled in M_Virtual.v. *)
From Coq Require Import Ascii String List NArith ZArith Bool Arith.
From Verif Require Import PyBase PyStr PyRe M_Components M_Navigation M_Xml.
Import ListNotations.
Local Open Scope list_scope.

(** ** Elements of a tree *)

(** mig_xml_reader.py:65-70 a node of a document is identified by its position: the indices of the children on
    the way from the root element *)
Definition pos := list nat.
(** mig_xml_reader.py:65-70 *)
Fixpoint el_at (root : element) (p : pos) : option element :=
  match p with
  | [] => Some root
  | i :: p' =>
      match nth_error (el_children root) i with
      | Some c => el_at c p'
      | None => None
      end
  end.
(** etree_element_helpers.py:40-41 element.attrib.get(key) *)
Definition attr (key : pystr) (e : element) : option pystr := dict_get key (el_attrib e).

(** ** etree_element_helpers.py *)

(** etree_element_helpers.py:13-20 *)
Definition get_segment_group_key_or_none (e : element) : option pystr :=
  match attr (u "ref") e with
  | Some r => if startswith r (u "SG") then Some r else None
  | None => None
  end.
(** etree_element_helpers.py:53-59 *)
Definition get_ahb_name_or_none (e : element) : option pystr := attr (u "ahbName") e.

(** etree_element_helpers.py:25, 30 [A-Z\d] *)
Definition is_AZd (c : char) : bool := is_AZ c || is_decimal c.
(** etree_element_helpers.py:25, 30 *)
Definition re_number : re := RPlus (RChar is_decimal).
(** etree_element_helpers.py:25, 30 \d+|\(\d+,\d+\) *)
Definition re_place : re :=
  RAlt re_number (RSeq (RLit (u "(")) (RSeq re_number (RSeq (RLit (u ",")) (RSeq re_number (RLit (u ")")))))).
(** etree_element_helpers.py:24-26 [_single_nested_qualifier_pattern] *)
Definition re_single_qualifier : re :=
  RSeq RBol (RSeq (RCap 1 (RPlus (RChar is_AZ))) (RSeq (RLit (u ":")) (RSeq re_number (RSeq (RLit (u ":")) (RSeq re_place
    (RSeq (RLit (u "["))
      (RSeq (RPlus (RSeq (RPlus (RChar is_word)) (RLit (u ":"))))
        (RSeq (RPlus (RChar is_word)) (RSeq (ROpt (RLit (u ":"))) (RSeq (RLit (u "="))
          (RSeq (RCap 2 (RPlus (RChar is_AZd))) (RSeq (RLit (u "]")) REol)))))))))))).
(** etree_element_helpers.py:30 (?:[A-Z]+:)?\d+:\d+=[A-Z\d]+\|? *)
Definition re_nested_item : re :=
  RSeq (ROpt (RSeq (RPlus (RChar is_AZ)) (RLit (u ":"))))
    (RSeq re_number (RSeq (RLit (u ":")) (RSeq re_number (RSeq (RLit (u "="))
      (RSeq (RPlus (RChar is_AZd)) (ROpt (RLit (u "|")))))))).
(** etree_element_helpers.py:29-31 [_multiple_nestes_qualifiers_pattern] *)
Definition re_multiple_qualifiers : re :=
  RSeq (RCap 1 (RPlus (RChar is_AZ))) (RSeq (RLit (u ":")) (RSeq re_number (RSeq (RLit (u ":")) (RSeq re_place
    (RSeq (RLit (u "[")) (RSeq (RCap 2 (RPlus re_nested_item)) (RSeq (RLit (u "]")) REol))))))).

(** etree_element_helpers.py:49 [l[1]] *)
Definition second {A} (l : list A) : result A :=
  match l with
  | _ :: x :: _ => Ok x
  | _ => Raise IndexError
  end.
(** etree_element_helpers.py:34-50 *)
Definition get_nested_qualifiers (attrib_key : pystr) (e : element) : result (option (list pystr)) :=
  match attr attrib_key e with
  | None => Ok None
  | Some body =>
      match re_match re_single_qualifier body with
      | Some m => Ok (Some [match group 2 m with Some q => q | None => [] end])
      | None =>
          match re_match re_multiple_qualifiers body with
          | Some m =>
              let inner := match group 2 m with Some i => i | None => [] end in
              let* l := mapM (fun expression => second (split_on (ch "=") expression)) (split_on (ch "|") inner) in
              Ok (Some l)
          | None => Ok None
          end
      end
  end.
(** mig_xml_reader.py:130, 165, 187 set(get_nested_qualifiers(key, element) or []) *)
Definition qualifier_set (attrib_key : pystr) (e : element) : result (list pystr) :=
  let* o := get_nested_qualifiers attrib_key e in
  Ok (match o with Some l => l | None => [] end).

(** ** mig_ahb_name_helpers.py *)

(** mig_ahb_name_helpers.py:18-28 for a string *)
Definition make_name_comparable (orig_str : pystr) : pystr :=
  let result := lower orig_str in
  let result := replace result (u "ß") (u "ss") in
  fold_left (fun result removable_character => replace result removable_character [])
    [u " "; u "-"; [chr_newline]] result.
(** mig_ahb_name_helpers.py:31-42 *)
Definition are_similar_names (name_x name_y : option pystr) : bool :=
  if (otruthy name_x && negb (otruthy name_y)) || (otruthy name_y && negb (otruthy name_x)) then false
  else if negb (otruthy name_x) && negb (otruthy name_y) then true
  else ostr_eqb (option_map make_name_comparable name_x) (option_map make_name_comparable name_y).
(** mig_ahb_name_helpers.py:45-52, the attributes of one element *)
Definition comparable_attributes (attrib : list (pystr * pystr)) : list (pystr * pystr) :=
  fold_left
    (fun a kv =>
       if str_in (fst kv) [u "name"; u "ahbName"] then dict_set (fst kv) (make_name_comparable (snd kv)) a else a)
    attrib attrib.
(** mig_ahb_name_helpers.py:45-52 [make_tree_names_comparable]; the modified tree is returned *)
Fixpoint make_tree_names_comparable (e : element) : element :=
  match e with
  | Element tag attrib text children =>
      Element tag (comparable_attributes attrib) text (map make_tree_names_comparable children)
  end.

(** ** XPath expressions as the reader builds them *)

(** mig_xml_reader.py:107, 147-177 *)
Inductive predicate :=
| HasAttr (key value : pystr)      (* [@key='value'] *)
| Position (n : nat).              (* [n], counted from 1 *)
(** mig_xml_reader.py:107, 147-177 *)
Record step := mkStep { st_tag : pystr; st_predicates : list predicate }.

(** mig_xml_reader.py:107, 147-177 a predicate filters what the step has selected so far below one parent *)
Definition apply_predicate (root : element) (ps : list pos) (p : predicate) : list pos :=
  match p with
  | HasAttr key value =>
      filter (fun q => match el_at root q with Some e => ostr_eqb (attr key e) (Some value) | None => false end) ps
  | Position O => []
  | Position (S n) => match nth_error ps n with Some q => [q] | None => [] end
  end.
(** mig_xml_reader.py:107, 147-177 the nodes among [ps] (siblings) that a step selects *)
Definition select (root : element) (s : step) (ps : list pos) : list pos :=
  fold_left (apply_predicate root) (st_predicates s)
    (filter (fun q => match el_at root q with Some e => str_eqb (el_tag e) (st_tag s) | None => false end) ps).
(** mig_xml_reader.py:107, 147-177 *)
Definition children_of (root : element) (p : pos) : list pos :=
  match el_at root p with
  | Some e => map (fun i => p ++ [i]) (seq 0 (List.length (el_children e)))
  | None => []
  end.
(** mig_xml_reader.py:107, 147-177 root.xpath("/a/b[..]/..."): the nodes in document order.
    Simplification: the values in the predicates contain no apostrophe; in the modelled
    calls they are segment group keys, segment codes and data element IDs, which the
    validators of locations restrict to letters and digits. *)
Definition xpath (root : element) (path : list step) : list pos :=
  match path with
  | [] => []
  | s :: path' =>
      fold_left (fun ps s => flat_map (fun p => select root s (children_of root p)) ps) path' (select root s [[]])
  end.

(** mig_xml_reader.py:98-101 tree.getpath(element) (lxml): a step per element on the path, with a position if it
    has siblings with the same tag *)
Fixpoint index_among (tag : pystr) (l : list element) : nat :=
  match l with
  | [] => 0
  | e :: r => (if str_eqb (el_tag e) tag then 1 else 0) + index_among tag r
  end.
(** mig_xml_reader.py:98-101 *)
Fixpoint getpath_go (root : element) (p : pos) : list step :=
  match p with
  | [] => []
  | i :: p' =>
      match nth_error (el_children root) i with
      | Some c =>
          let same_tag_before := index_among (el_tag c) (firstn i (el_children root)) in
          let same_tag := index_among (el_tag c) (el_children root) in
          mkStep (el_tag c) (if Nat.eqb same_tag 1 then [] else [Position (S same_tag_before)]) :: getpath_go c p'
      | None => []
      end
  end.
(** mig_xml_reader.py:98-101 *)
Definition getpath (root : element) (p : pos) : list step := mkStep (el_tag root) [] :: getpath_go root p.

(** ** mig_xml_reader.py *)

(** mig_xml_reader.py:53-70: [_original_root] and [_sanitized_root] *)
Record MigXmlReader := mkReader { original_root : element; sanitized_root : element }.
(** mig_xml_reader.py:53-70 *)
Definition new_MigXmlReader (document : element) : MigXmlReader :=
  mkReader document (make_tree_names_comparable document).

(** mig_xml_reader.py:87-91 *)
Definition get_format_name (r : MigXmlReader) : pystr := el_tag (original_root r).

(** mig_xml_reader.py:112-120: the first of the attributes that is there *)
Fixpoint first_attribute (keys : list pystr) (e : element) : option pystr :=
  match keys with
  | [] => None
  | k :: keys' => match attr k e with Some v => Some v | None => first_attribute keys' e end
  end.
(** mig_xml_reader.py:104-123, one iteration; the state is [iter_path], [level_name]
    (None: not bound yet) and the levels so far *)
Definition stack_iteration (root : element) (s : list step * option pystr * list StackLevel) (leaf : step)
  : result (list step * option pystr * list StackLevel) :=
  let '(iter_path, level_name, levels) := s in
  let iter_path := iter_path ++ [leaf] in
  match xpath root iter_path with
  | [] => Raise IndexError
  | p :: _ =>
      match el_at root p with
      | None => Raise IndexError
      | Some leaf_element =>
          let is_groupable := str_eqb (el_tag leaf_element) (u "class") in
          let keys := if is_groupable then [u "migName"; u "ahbName"; u "name"] else [u "ahbName"; u "name"; u "migName"] in
          let level_name := match first_attribute keys leaf_element with Some n => Some n | None => level_name end in
          match level_name with
          | None => Raise UnboundLocalError
          | Some name => Ok (iter_path, level_name, levels ++ [mkLevel name is_groupable None])
          end
      end
  end.
(** mig_xml_reader.py:93-124; the element is given by its position in the chosen tree *)
Definition element_to_edifact_stack (r : MigXmlReader) (p : pos) (use_sanitized_tree : bool) : result (list StackLevel) :=
  let path := getpath (if use_sanitized_tree then sanitized_root r else original_root r) p in
  let* s := foldM (stack_iteration (original_root r)) (firstn 1 path, None, []) (skipn 1 path) in
  let '(_, _, levels) := s in
  Ok levels.

(** mig_xml_reader.py:132, 168, 187 [q in key_set] where q may be None *)
Definition oqualifier_in (q : option pystr) (keys : list pystr) : bool :=
  match q with Some q => str_in q keys | None => false end.
(** mig_xml_reader.py:129, 164, 186 enumerate *)
Definition enumerate {A} (l : list A) : list (nat * A) := combine (seq 0 (List.length l)) l.
(** mig_xml_reader.py:107 *)
Definition element_at (root : element) (p : pos) : element :=
  match el_at root p with Some e => e | None => Element [] [] None [] end.

(** mig_xml_reader.py:126-137 *)
Definition get_candidate_index_from_key (root : element) (layer : Layer) (candidates : list pos) : result nat :=
  let* possible_results :=
    foldM (fun acc nc =>
             let* key_set := qualifier_set (u "key") (element_at root (snd nc)) in
             Ok (if oqualifier_in (ly_qualifier layer) key_set then acc ++ [fst nc] else acc))
      [] (enumerate candidates) in
  let* _ := check (negb (Nat.eqb (List.length possible_results) 0)) ValueError in
  first_of possible_results.

(** mig_xml_reader.py:147-149, 161 *)
Definition class_step (ref : pystr) : step := mkStep (u "class") [HasAttr (u "ref") ref].
(** mig_xml_reader.py:155, 169 *)
Definition class_step_at (ref : pystr) (n : nat) : step := mkStep (u "class") [HasAttr (u "ref") ref; Position n].
(** mig_xml_reader.py:176 *)
Definition field_step (id : pystr) : step := mkStep (u "field") [HasAttr (u "meta.id") id].
(** mig_xml_reader.py:149 *)
Definition ostr_or (o : option pystr) (d : pystr) : pystr :=
  match o with Some s => if truthy s then s else d | None => d end.

(** mig_xml_reader.py:148-158, one iteration; the state is [final_query_path] and [candidates] *)
Definition layer_iteration (root : element) (s : list step * option (list pos)) (layer : Layer)
  : result (list step * option (list pos)) :=
  let '(final_query_path, _) := s in
  let ref := ostr_or (ly_key layer) (u "UNH") in
  let query_path := final_query_path ++ [class_step ref] in
  let candidates := xpath root query_path in
  match candidates with
  | [] => Raise ValueError
  | [_] => Ok (query_path, Some candidates)
  | _ =>
      let* candidate_index := get_candidate_index_from_key root layer candidates in
      match nth_error candidates candidate_index with
      | None => Raise IndexError
      | Some c => Ok (final_query_path ++ [class_step_at ref (S candidate_index)], Some [c])
      end
  end.
(** mig_xml_reader.py:164-171: the first segment candidate with the opening qualifier;
    [layer] is None if there is no layer *)
Fixpoint first_segment_candidate (root : element) (layer : option Layer) (l : list (nat * pos)) : result (option nat) :=
  match l with
  | [] => Ok None
  | (n, c) :: r =>
      let* key_set := qualifier_set (u "key") (element_at root c) in
      match layer with
      | None => Raise UnboundLocalError
      | Some y => if oqualifier_in (ly_qualifier y) key_set then Ok (Some n) else first_segment_candidate root layer r
      end
  end.
(** mig_xml_reader.py:159-173 *)
Definition segment_stage (root : element) (location : Location) (s : list step * option (list pos))
  : result (list step * option (list pos)) :=
  let '(final_query_path, candidates) := s in
  match lo_segment location with
  | None => Ok s
  | Some code =>
      if str_eqb code (u "UNH") then Ok s
      else
        let query_path := final_query_path ++ [class_step code] in
        let segment_candidates := xpath root query_path in
        match segment_candidates with
        | [] => Ok s
        | [_] => Ok (query_path, candidates)
        | _ =>
            let* o := first_segment_candidate root (hd_error (rev (lo_layers location))) (enumerate segment_candidates) in
            match o with
            | Some n => Ok (final_query_path ++ [class_step_at code (S n)], Some segment_candidates)
            | None => Ok s
            end
        end
  end.
(** mig_xml_reader.py:183-190: more_itertools.one over the candidates with the qualifier;
    it stops at the second one *)
Fixpoint one_candidate (root : element) (qualifier : pystr) (found : option nat) (l : list (nat * pos)) : result nat :=
  match l with
  | [] => match found with Some n => Ok n | None => Raise ValueError end
  | (n, c) :: r =>
      let* refs := qualifier_set (u "ref") (element_at root c) in
      if str_in qualifier refs
      then match found with Some _ => Raise ValueError | None => one_candidate root qualifier (Some n) r end
      else one_candidate root qualifier found r
  end.
(** mig_xml_reader.py:141-197; the position of the element is returned *)
Definition get_element (r : MigXmlReader) (location : Location) : result pos :=
  let root := original_root r in
  let* s := foldM (layer_iteration root) ([mkStep (get_format_name r) []; class_step (u "/")], None) (lo_layers location) in
  let* s := segment_stage root location s in
  let '(final_query_path, candidates) := s in
  let* candidates :=
    match lo_element location with
    | None => Ok candidates
    | Some id =>
        let candidates := xpath root (final_query_path ++ [field_step id]) in
        match candidates with
        | [] => Raise ValueError
        | [_] => Ok (Some candidates)
        | _ =>
            match lo_qualifier location with
            | None => Raise ValueError
            | Some qualifier =>
                let* candidate_index := one_candidate root qualifier None (enumerate candidates) in
                Ok (Some (firstn 1 (skipn candidate_index candidates)))
            end
        end
    end in
  match candidates with
  | None => Raise UnboundLocalError
  | Some candidates => one_of candidates
  end.
(** mig_xml_reader.py:199-204 *)
Definition get_edifact_stack (r : MigXmlReader) (location : Location) : result (list StackLevel) :=
  let* p := get_element r location in
  element_to_edifact_stack r p false.
