(** Specification vocabulary: converters that behave well, mappings and positions of value pools. *)
From Coq Require Import Ascii String List NArith ZArith Bool.
From Verif Require Import PyBase PyStr PyRe M_Components M_Ahb M_Transformation S_DeepAhb.
Import ListNotations.
Local Open Scope list_scope.

Arguments CRet {D X} x.
Arguments CRaise {D X} e.
Arguments CRead {D X} r k.
Arguments CWrite {D X} r d k.
Arguments CNew {D X} d k.
Arguments CYield {D X} k.

(** ** converters *)
Section Coroutines.
  Context {D : Type}.

  (** the coroutine has created the objects [mine], which contain what it has written into them, and works on nothing
      but these and further new ones; it ends by returning something that means [x], or raises.  It may suspend itself
      at any moment.  [meaning mine v]: what it means to return [v]. *)
  Definition with_object (mine : ref -> option D) (r : ref) (d : D) : ref -> option D :=
    fun r' => if Nat.eqb r' r then Some d else mine r'.
  Inductive works {X Y} (meaning : (ref -> option D) -> X -> option Y) : (ref -> option D) -> result Y -> co D X -> Prop :=
  | works_returning mine v y : meaning mine v = Some y -> works meaning mine (Ok y) (CRet v)
  | works_raising mine e : works meaning mine (Raise e) (CRaise e)
  | works_reading mine x r d k : mine r = Some d -> works meaning mine x (k d) -> works meaning mine x (CRead r k)
  | works_writing mine x r d d' c : mine r = Some d -> works meaning (with_object mine r d') x c -> works meaning mine x (CWrite r d' c)
  | works_creating mine x d k : (forall r, mine r = None -> works meaning (with_object mine r d) x (k r)) -> works meaning mine x (CNew d k)
  | works_later mine x c : works meaning mine x c -> works meaning mine x (CYield c).
  (** the coroutine returns a new object that contains [d], or raises *)
  Definition creates (x : result D) (c : co D ref) : Prop := works (fun mine r => mine r) (fun _ => None) x c.

  (** the objects exist and contain this *)
  Definition holds (mine : ref -> option D) (s : store D) : Prop := forall r d, mine r = Some d -> r < next D s /\ content D s r = d.
  (** the coroutine ends with [x], provided that the object [r] contains [d] when it starts: until it suspends itself for
      the first time it may look at everything, but it changes nothing that exists; later it works on nothing
      but objects that it has created *)
  Definition reads_first {X} (r : ref) (d : D) (x : result X) (c : co D X) : Prop :=
    forall s o s', r < next D s -> content D s r = d -> run D c s = (o, s') ->
      next D s <= next D s' /\ (forall r', r' < next D s -> content D s' r' = content D s r')
      /\ match o with
         | Returned _ _ v => x = Ok v
         | Raised _ _ e => x = Raise e
         | Suspended _ _ c' =>
             exists mine, holds mine s' /\ (forall r', mine r' <> None -> next D s <= r') /\ works (fun _ v => Some v) mine x c'
         end.
End Coroutines.

(** ** assumptions about converters and accessors *)
(** the converter looks at the EDIFACT data before it suspends itself for the first time, or not at all,
    and does not change them; it may work on copies of its own *)
Definition reads_before_suspending {D A} (to_application : D -> result A) (to_app : ref -> co D A) : Prop :=
  forall r d, reads_first r d (to_application d) (to_app r).
(** setting a value overwrites what has been set at the same place before, or what a call that has failed has left there *)
Definition overwrites {D} (edi_set : D -> pystr -> pystr -> D * option exn) : Prop :=
  forall d path v d' x, edi_set d path v = (d', x) -> forall w, edi_set d' path w = edi_set d path w.

(** ** mappings *)
Section Mappings.
  Context {D A : Type}.
  (** the data of the converter: the initial EDIFACT data and the conversion back *)
  Variable initial : D.
  Variable to_application : D -> result A.
  Variable edi_get : D -> pystr -> result (option pystr).
  Variable edi_set : D -> pystr -> pystr -> D * option exn.
  Variable app_get : A -> pystr -> result (option pystr).
  Variable application_data : A.

  (** what the application has at [non_edi_path] if the EDIFACT data have the qualifier at [edi_path] *)
  Definition application_value (edi_path non_edi_path qualifier : pystr) : result (option pystr) :=
    match edi_set initial edi_path qualifier with
    | (_, Some e) => Raise e
    | (d, None) => match to_application d with
                   | Raise e => Raise e
                   | Ok a => app_get a non_edi_path
                   end
    end.
  Definition qualifiers (p : ValuePool) : list pystr := map ve_qualifier (vp_pool p).
  (** the mapping has every qualifier of the pool with its application value, and the initial value *)
  Definition mapping_of (edi_path non_edi_path : pystr) (p : ValuePool) (m : list (pystr * option pystr)) : Prop :=
    NoDup (map fst m) /\
    forall k v, In (k, v) m <->
      (In k (qualifiers p) /\ application_value edi_path non_edi_path k = Ok v)
      \/ (~ In k (qualifiers p) /\ edi_get initial edi_path = Ok (Some k) /\ app_get application_data non_edi_path = Ok v).

  (** why a replacement cannot be computed *)
  Definition reason_to_raise (path_mapping : list (pystr * pystr)) (p : ValuePool) (e : exn) : Prop :=
    (e = ValueError /\ forall path npath, vp_discriminator p = Some path -> ~ In (path, npath) path_mapping)
    \/ exists path npath, vp_discriminator p = Some path /\ In (path, npath) path_mapping
         /\ (app_get application_data npath = Raise e \/ edi_get initial path = Raise e
             \/ exists q, In q (qualifiers p) /\ application_value path npath q = Raise e).
End Mappings.

(** ** data elements of an AHB *)
Inductive group_at_position : list SegmentGroup -> list nat -> SegmentGroup -> Prop :=
| at_top gs i g : nth_error gs i = Some g -> group_at_position gs [i] g
| at_deeper gs i g l path h : nth_error gs i = Some g -> g_groups g = Some l -> group_at_position l path h ->
    group_at_position gs (i :: path) h.
Definition element_at (a : DeepAhb) (pos : position) (d : DataElement) : Prop :=
  match pos with
  | (path, s, i) => exists g l segment, group_at_position (da_lines a) path g /\ g_segments g = Some l
                    /\ nth_error l s = Some segment /\ nth_error (seg_elements segment) i = Some d
  end.

(** discriminators that are JSON paths and do not belong to the sender or the receiver *)
Definition relevant (p : ValuePool) : Prop :=
  exists d, vp_discriminator p = Some d /\ (exists r, d = u "$" ++ r)
    /\ (forall a b, d <> a ++ u "Absender" ++ b) /\ (forall a b, d <> a ++ u "Empf" ++ [228%N] ++ u "nger" ++ b).

(** every entry has got its application value instead of its qualifier, and nothing else has changed; of
    several entries with the same qualifier only the last one is changed *)
Definition renamed_entries (value : pystr -> result (option pystr)) (p p' : ValuePool) : Prop :=
  vp_discriminator p' = vp_discriminator p /\ vp_id p' = vp_id p /\ vp_input p' = vp_input p /\ vp_type p' = vp_type p
  /\ List.length (vp_pool p') = List.length (vp_pool p)
  /\ forall i e, nth_error (vp_pool p) i = Some e -> exists e' v, nth_error (vp_pool p') i = Some e'
     /\ value (ve_qualifier e) = Ok (Some v)
     /\ ((forall j f, i < j -> nth_error (vp_pool p) j = Some f -> ve_qualifier f <> ve_qualifier e) ->
         e' = mkEntry v (ve_meaning e) (ve_expression e))
     /\ (forall j f, i < j -> nth_error (vp_pool p) j = Some f -> ve_qualifier f = ve_qualifier e -> e' = e).
