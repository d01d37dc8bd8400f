(** Model of the methods that call functions of the user, for functions that remember something between their calls or
    raise exceptions.  M_Ahb.v and M_Components.v describe the same methods for functions in the mathematical sense.

    [W] is what the function remembers; a call returns the new memory and its result.  Simplifications: the function
    does not change the AHB itself; the objects of the AHB are distinct. *)
From Coq Require Import Ascii String List NArith ZArith Bool.
From Verif Require Import PyBase PyStr M_Components M_Ahb.
Import ListNotations.
Local Open Scope list_scope.

Section Callbacks.
  Variable W : Type.

  (** anwendungshandbuch.py:560-576 a loop that changes objects and ends with the first exception; the objects that
      have not been reached stay as they are *)
  Section ChangeEach.
    Context {A : Type} (f : A -> W -> W * (A * option exn)).
    (** anwendungshandbuch.py:566-576 *)
    Fixpoint change_each (l : list A) (w : W) : W * (list A * option exn) :=
      match l with
      | [] => (w, ([], None))
      | x :: r =>
          match f x w with
          | (w', (x', Some e)) => (w', (x' :: r, Some e))
          | (w', (x', None)) => let '(w'', (r', o)) := change_each r w' in (w'', (x' :: r', o))
          end
      end.
  End ChangeEach.

  (** anwendungshandbuch.py:454-504 a loop that collects results ([result += ...]) and ends with the first exception *)
  Section CollectEach.
    Context {A B : Type} (f : A -> W -> W * result (list B)).
    (** anwendungshandbuch.py:463-469 *)
    Fixpoint collect_each (l : list A) (w : W) : W * result (list B) :=
      match l with
      | [] => (w, Ok [])
      | x :: r =>
          match f x w with
          | (w', Raise e) => (w', Raise e)
          | (w', Ok bs) =>
              match collect_each r w' with
              | (w'', Raise e) => (w'', Raise e)
              | (w'', Ok bs') => (w'', Ok (bs ++ bs'))
              end
          end
      end.
  End CollectEach.

  (** ** replace_inputs_based_on_discriminator *)
  Section Inputs.
    Variable replacement_func : pystr -> W -> W * result Replacement.

    (** anwendungshandbuch.py:572-576 *)
    Definition element_asks (d : DataElement) (w : W) : W * (DataElement * option exn) :=
      match de_discriminator d with
      | None => (w, (d, None))
      | Some disc =>
          match replacement_func disc w with
          | (w', Raise e) => (w', (d, Some e))
          | (w', Ok r) => (w', (if rp_found r then element_set_input (rp_input r) d else d, None))
          end
      end.
    (** anwendungshandbuch.py:571-576 *)
    Definition segment_asks (s : Segment) (w : W) : W * (Segment * option exn) :=
      let '(w', (elements, x)) := change_each element_asks (seg_elements s) w in
      (w', (mkSegment (seg_discriminator s) (seg_expression s) (seg_index s) elements (seg_section s) (seg_id s), x)).
    (** anwendungshandbuch.py:566-576 the nested groups come first *)
    Fixpoint group_asks (g : SegmentGroup) (w : W) : W * (SegmentGroup * option exn) :=
      match g with
      | mkGroup d e i ss gs =>
          let '(w', (gs', x)) := match gs with
                                 | None => (w, (None, None))
                                 | Some l => let '(w', (l', x)) := change_each group_asks l w in (w', (Some l', x))
                                 end in
          match x with
          | Some _ => (w', (mkGroup d e i ss gs', x))
          | None =>
              match ss with
              | None => (w', (mkGroup d e i ss gs', None))
              | Some l => let '(w'', (l', x)) := change_each segment_asks l w' in (w'', (mkGroup d e i (Some l') gs', x))
              end
          end
      end.
    (** anwendungshandbuch.py:506-511 [replace_inputs_based_on_discriminator]: the AHB afterwards and the exception, if any *)
    Definition replace_inputs_asking (a : DeepAhb) (w : W) : W * (DeepAhb * option exn) :=
      let '(w', (lines, x)) := change_each group_asks (da_lines a) w in (w', (mkDeep (da_meta a) lines, x)).
  End Inputs.

  (** ** find_segment_groups and find_segments *)
  Section Find.
    Variable group_predicate : SegmentGroup -> W -> W * result bool.
    Variable segment_predicate : Segment -> W -> W * result bool.

    (** anwendungshandbuch.py:454-469 [_query_segment_group] *)
    Fixpoint query_asking (g : SegmentGroup) (w : W) : W * result (list SegmentGroup) :=
      match group_predicate g w with
      | (w', Raise e) => (w', Raise e)
      | (w', Ok b) =>
          match g with
          | mkGroup _ _ _ _ None => (w', Ok (if b then [g] else []))
          | mkGroup _ _ _ _ (Some gs) =>
              match collect_each query_asking gs w' with
              | (w'', Raise e) => (w'', Raise e)
              | (w'', Ok l) => (w'', Ok ((if b then [g] else []) ++ l))
              end
          end
      end.
    (** anwendungshandbuch.py:481-483 *)
    Definition append_new (result : list SegmentGroup) (l : list SegmentGroup) : list SegmentGroup :=
      fold_left (fun result g => if existsb (group_eqb g) result then result else result ++ [g]) l result.
    (** anwendungshandbuch.py:477-484 the loop over the lines *)
    Fixpoint find_groups_loop (lines : list SegmentGroup) (result : list SegmentGroup) (w : W) : W * PyBase.result (list SegmentGroup) :=
      match lines with
      | [] => (w, Ok result)
      | line :: r =>
          match collect_each query_asking (olist (g_groups line)) w with
          | (w', Raise e) => (w', Raise e)
          | (w', Ok l) =>
              match query_asking line w' with
              | (w'', Raise e) => (w'', Raise e)
              | (w'', Ok l') => find_groups_loop r (append_new (result ++ l) l') w''
              end
          end
      end.
    (** anwendungshandbuch.py:471-484 [find_segment_groups] *)
    Definition find_segment_groups_asking (a : DeepAhb) (w : W) : W * result (list SegmentGroup) :=
      find_groups_loop (da_lines a) [] w.

    (** edifact_components.py:485-487, anwendungshandbuch.py:501-503 *)
    Definition segment_asking (s : Segment) (w : W) : W * result (list Segment) :=
      match segment_predicate s w with
      | (w', Raise e) => (w', Raise e)
      | (w', Ok b) => (w', Ok (if b then [s] else []))
      end.
    (** edifact_components.py:478-492 [SegmentGroup.find_segments], recursively *)
    Fixpoint group_find_segments_asking (g : SegmentGroup) (w : W) : W * result (list Segment) :=
      match g with
      | mkGroup _ _ _ ss gs =>
          match collect_each segment_asking (olist ss) w with
          | (w', Raise e) => (w', Raise e)
          | (w', Ok l) =>
              match gs with
              | None => (w', Ok l)
              | Some gs =>
                  match collect_each group_find_segments_asking gs w' with
                  | (w'', Raise e) => (w'', Raise e)
                  | (w'', Ok l') => (w'', Ok (l ++ l'))
                  end
              end
          end
      end.
    (** anwendungshandbuch.py:486-504 [find_segments] *)
    Definition find_segments_asking (a : DeepAhb) (w : W) : W * result (list Segment) :=
      match find_segment_groups_asking a w with
      | (w1, Raise e) => (w1, Raise e)
      | (w1, Ok groups) =>
          match collect_each group_find_segments_asking groups w1 with
          | (w2, Raise e) => (w2, Raise e)
          | (w2, Ok l) =>
              match collect_each (fun line => collect_each segment_asking (olist (g_segments line))) (da_lines a) w2 with
              | (w3, Raise e) => (w3, Raise e)
              | (w3, Ok l') => (w3, Ok (l ++ l'))
              end
          end
      end.
  End Find.

  (** ** replace_value_pool *)
  Section Merger.
    (** a merger that returns something else than a str counts as one that raises a TypeError: so does the assignment
        to the meaning, which then keeps its value *)
    Variable meaning_qualifier_merger : pystr -> pystr -> W -> W * result pystr.
    Variable mapping : list (pystr * option pystr).

    (** edifact_components.py:243-249 *)
    Definition replace_one_asking (q : pystr) (i : nat) (pool : list ValuePoolEntry) (w : W) : W * (list ValuePoolEntry * option exn) :=
      match dict_get q mapping with
      | None => (w, (pool, None))
      | Some new_qualifier =>
          match nth_error pool i with
          | None => (w, (pool, None)) (* not reached: i is a position of the pool *)
          | Some e =>
              match meaning_qualifier_merger (ve_meaning e) q w with
              | (w', Raise x) => (w', (pool, Some x))
              | (w', Ok meaning) =>
                  match check_is_edifact_qualifier new_qualifier, new_qualifier with
                  | Ok _, Some q' => (w', (list_set i (mkEntry q' meaning (ve_expression e)) pool, None))
                  | Ok _, None => (w', (list_set i (mkEntry (ve_qualifier e) meaning (ve_expression e)) pool, Some ValueError)) (* not reached *)
                  | Raise x, _ => (w', (list_set i (mkEntry (ve_qualifier e) meaning (ve_expression e)) pool, Some x))
                  end
              end
          end
      end.
    (** edifact_components.py:243-249 *)
    Fixpoint replace_loop_asking (todo : list (pystr * nat)) (pool : list ValuePoolEntry) (w : W) : W * (list ValuePoolEntry * option exn) :=
      match todo with
      | [] => (w, (pool, None))
      | (q, i) :: r =>
          match replace_one_asking q i pool w with
          | (w', (pool', None)) => replace_loop_asking r pool' w'
          | (w', (pool', Some x)) => (w', (pool', Some x))
          end
      end.
    (** edifact_components.py:211-249 [DataElementValuePool.replace_value_pool] with a merger *)
    Definition replace_value_pool_asking (p : ValuePool) (w : W) : W * (ValuePool * option exn) :=
      let '(w', (pool, x)) := replace_loop_asking (entries_by_qualifier (vp_pool p)) (vp_pool p) w in
      (w', (mkPool (vp_discriminator p) (vp_id p) (vp_input p) (vp_type p) pool, x)).
  End Merger.
End Callbacks.
