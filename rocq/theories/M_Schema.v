(** Model of the marshmallow schemas in src/maus/models (marshmallow 3.22).

    A JSON value is what [json.load] returns and what [Schema.dump] returns; the
    texts are modelled in M_JsonText.v.  [Schema.load] collects the
    ValidationErrors of the fields and raises one ValidationError at the end;
    any other exception (e.g. of an attrs validator that is run in a post_load
    hook of a nested schema) leaves at once. *)
From Coq Require Import Ascii String List NArith ZArith Bool.
From Verif Require Import PyBase PyStr PyRe M_Components M_Ahb M_Sgh.
Import ListNotations.
Local Open Scope list_scope.

(** cli.py:81-84, 96-103 A float is represented by the result of [int(x)], the only thing a schema
    does with it (None: nan or infinite).  An object is a dict; should a key be
    given twice the first one counts (a Python dict has no duplicates). *)
Inductive json :=
| JNull
| JBool (b : bool)
| JInt (z : Z)
| JFloat (truncated : option Z)
| JStr (s : pystr)
| JList (l : list json)
| JObj (o : list (pystr * json)).

(** ** int and UUID *)

(** anwendungshandbuch.py:143, edifact_components.py:395 the whitespace [int(s)] ignores: C isspace for ASCII, str.isspace above *)
Definition is_int_space (c : char) : bool :=
  ((9 <=? c) && (c <=? 13) || (c =? 32) || (128 <=? c) && is_space c)%N.
(** anwendungshandbuch.py:143, edifact_components.py:395 *)
Fixpoint drop_while (p : char -> bool) (s : pystr) : pystr :=
  match s with
  | [] => []
  | c :: r => if p c then drop_while p r else s
  end.
(** anwendungshandbuch.py:143, edifact_components.py:395 *)
Definition strip_with (p : char -> bool) (s : pystr) : pystr :=
  rev (drop_while p (rev (drop_while p s))).

(** anwendungshandbuch.py:142-143 value of a digit in base 10 or 16 *)
Definition digit_in (base : N) (c : char) : option N :=
  (if is_decimal c then Some (digit_value c)
   else if (10 <? base) && (97 <=? c) && (c <=? 102) then Some (c - 87)
   else if (10 <? base) && (65 <=? c) && (c <=? 70) then Some (c - 55)
   else None)%N.
(** anwendungshandbuch.py:142-143 digits with single underscores between them *)
Fixpoint int_digits (base : N) (acc : N) (s : pystr) : option N :=
  match s with
  | [] => None
  | c :: r =>
      match digit_in base c with
      | None => None
      | Some d =>
          let acc := (acc * base + d)%N in
          match r with
          | [] => Some acc
          | c' :: r' => if N.eqb c' 95 then int_digits base acc r' else int_digits base acc r
          end
      end
  end.
(** anwendungshandbuch.py:142 the prefix 0x of a hexadecimal number, possibly followed by an underscore *)
Definition drop_0x (base : N) (s : pystr) : pystr :=
  match s with
  | c :: x :: r =>
      if (N.eqb base 16 && N.eqb c 48 && (N.eqb x 120 || N.eqb x 88))%bool
      then match r with
           | c' :: r' => if N.eqb c' 95 then r' else r
           | [] => []
           end
      else s
  | _ => s
  end.
(** anwendungshandbuch.py:142-143 [int(s, base)] for base 10 or 16; None: ValueError.  (CPython's limit of 4300
    digits for base 10 is not modelled.) *)
Definition py_int (base : N) (s : pystr) : option Z :=
  let s := strip_with is_int_space s in
  let '(neg, s) := match s with
                   | c :: r => if N.eqb c 45 then (true, r) else if N.eqb c 43 then (false, r) else (false, s)
                   | [] => (false, [])
                   end in
  option_map (fun n => if neg : bool then Z.opp (Z.of_N n) else Z.of_N n) (int_digits base 0 (drop_0x base s)).

(** anwendungshandbuch.py:142 [uuid.UUID(hex)]; None: ValueError *)
Definition uuid_of_str (s : pystr) : option N :=
  let s := replace (replace s (u "urn:") []) (u "uuid:") [] in
  let s := strip_with (fun c => N.eqb c 123 || N.eqb c 125)%bool s in
  let s := replace s [chr_dash] [] in
  if Nat.eqb (List.length s) 32 then
    match py_int 16 s with
    | Some z => if (Z.leb 0 z && Z.ltb z (2 ^ 128))%bool then Some (Z.to_N z) else None
    | None => None
    end
  else None.

(** anwendungshandbuch.py:142 lower case hexadecimal digit *)
Definition hex_digit (n : N) : char := if N.ltb n 10 then (48 + n)%N else (87 + n)%N.
(** anwendungshandbuch.py:142 the last [k] hexadecimal digits of [n] *)
Fixpoint hex (k : nat) (n : N) : pystr :=
  match k with
  | O => []
  | S k' => hex k' (n / 16) ++ [hex_digit (n mod 16)]
  end.
(** anwendungshandbuch.py:142 [str(uuid)] *)
Definition str_of_uuid (n : N) : pystr :=
  let h := hex 32 n in
  firstn 8 h ++ [chr_dash] ++ firstn 4 (skipn 8 h) ++ [chr_dash] ++ firstn 4 (skipn 12 h)
  ++ [chr_dash] ++ firstn 4 (skipn 16 h) ++ [chr_dash] ++ skipn 20 h.

(** ** marshmallow *)

(** edifact_components.py:73-525, anwendungshandbuch.py:137-593, message_implementation_guide.py:83-101 two fields: both are tried, ValidationErrors are collected *)
Definition both {A B} (a : result A) (b : result B) : result (A * B) :=
  match a with
  | Ok x => match b with Ok y => Ok (x, y) | Raise e => Raise e end
  | Raise ValidationError => match b with Ok _ => Raise ValidationError | Raise e => Raise e end
  | Raise e => Raise e
  end.

(** edifact_components.py:73-525, anwendungshandbuch.py:137-593, message_implementation_guide.py:83-101 marshmallow.fields.String *)
Definition load_str (j : json) : result pystr :=
  match j with JStr s => Ok s | _ => Raise ValidationError end.

(** anwendungshandbuch.py:142 marshmallow.fields.UUID *)
Definition load_uuid (j : json) : result N :=
  match j with
  | JStr s => match uuid_of_str s with Some n => Ok n | None => Raise ValidationError end
  | _ => Raise ValidationError
  end.

(** anwendungshandbuch.py:143, edifact_components.py:395 marshmallow.fields.Int (not strict) *)
Definition load_int (j : json) : result Z :=
  match j with
  | JInt z => Ok z
  | JFloat (Some z) => Ok z
  | JStr s => match py_int 10 s with Some z => Ok z | None => Raise ValidationError end
  | _ => Raise ValidationError
  end.

(** the value of [name], treated by [f]; [missing] if there is no such key *)
Section GetWith.
  Context {A : Type} (f : json -> A) (missing : A) (name : pystr).
  (** edifact_components.py:73-525, anwendungshandbuch.py:137-593, message_implementation_guide.py:83-101 *)
  Fixpoint get_with (o : list (pystr * json)) : A :=
    match o with
    | [] => missing
    | (k, v) :: r => if str_eqb name k then f v else get_with r
    end.
End GetWith.

(** edifact_components.py:73-525, anwendungshandbuch.py:137-593, message_implementation_guide.py:83-101 a value that may be null *)
Definition nullable {A} (f : json -> result A) (j : json) : result (option A) :=
  match j with
  | JNull => Ok None
  | _ => match f j with Ok a => Ok (Some a) | Raise e => Raise e end
  end.
(** edifact_components.py:73-525, anwendungshandbuch.py:137-593, message_implementation_guide.py:83-101 a value that must not be null *)
Definition nonnull {A} (f : json -> result A) (j : json) : result A :=
  match j with JNull => Raise ValidationError | _ => f j end.
(** edifact_components.py:73-525, anwendungshandbuch.py:137-593, message_implementation_guide.py:83-101 a key that may be missing *)
Definition present {A} (f : json -> result A) (j : json) : result (option A) :=
  match f j with Ok a => Ok (Some a) | Raise e => Raise e end.

(** edifact_components.py:73-525, anwendungshandbuch.py:137-593, message_implementation_guide.py:83-101 required=True *)
Definition required {A} (f : json -> result A) (name : pystr) (o : list (pystr * json)) : result A :=
  get_with (nonnull f) (Raise ValidationError) name o.
(** edifact_components.py:73-525, anwendungshandbuch.py:137-593, message_implementation_guide.py:83-101 required=True, allow_none=True *)
Definition required_nullable {A} (f : json -> result A) (name : pystr) (o : list (pystr * json)) : result (option A) :=
  get_with (nullable f) (Raise ValidationError) name o.
(** edifact_components.py:73-525, anwendungshandbuch.py:137-593, message_implementation_guide.py:83-101 required=False: None if the key is missing *)
Definition optional {A} (f : json -> result A) (name : pystr) (o : list (pystr * json)) : result (option A) :=
  get_with (present (nonnull f)) (Ok None) name o.
(** edifact_components.py:73-525, anwendungshandbuch.py:137-593, message_implementation_guide.py:83-101 required=False, allow_none=True: None if the key is missing, Some None for null *)
Definition optional_nullable {A} (f : json -> result A) (name : pystr) (o : list (pystr * json))
  : result (option (option A)) :=
  get_with (present (nullable f)) (Ok None) name o.
(** edifact_components.py:73-525, anwendungshandbuch.py:137-593, message_implementation_guide.py:83-101 required=False, load_default=None (which implies allow_none) *)
Definition default_none {A} (f : json -> result A) (name : pystr) (o : list (pystr * json)) : result (option A) :=
  get_with (nullable f) (Ok None) name o.

(** edifact_components.py:73-525, anwendungshandbuch.py:137-593, message_implementation_guide.py:83-101 unknown=RAISE, the default *)
Definition only_known (names : list pystr) (o : list (pystr * json)) : result unit :=
  check (forallb (fun kv => str_in (fst kv) names) o) ValidationError.

(** edifact_components.py:73-525, anwendungshandbuch.py:137-593, message_implementation_guide.py:83-101 an argument without default that was not given to [__init__] *)
Definition argument {A} (o : option A) : result A :=
  match o with Some a => Ok a | None => Raise TypeError end.

(** marshmallow.fields.List(fields.Nested(...)) *)
Section LoadList.
  Context {A : Type} (f : json -> result A).
  (** anwendungshandbuch.py:400-401, 584-585, edifact_components.py:263, 437, 511-512 *)
  Fixpoint load_items (l : list json) : result (list A) :=
    match l with
    | [] => Ok []
    | j :: r => match both (nonnull f j) (load_items r) with
                | Ok (a, r') => Ok (a :: r')
                | Raise e => Raise e
                end
    end.
  (** anwendungshandbuch.py:400-401, 584-585, edifact_components.py:263, 437, 511-512 *)
  Definition load_list (j : json) : result (list A) :=
    match j with JList l => load_items l | _ => Raise ValidationError end.
End LoadList.

(** edifact_components.py:73-525, anwendungshandbuch.py:137-593, message_implementation_guide.py:83-101 dumping an optional value *)
Definition dump_opt {A} (f : A -> json) (o : option A) : json :=
  match o with Some a => f a | None => JNull end.

(** ** message_implementation_guide.py *)

(** message_implementation_guide.py:83-101 [SegmentGroupHierarchySchema]: dump *)
Fixpoint dump_sgh (h : Sgh) : json :=
  match h with
  | mkSgh k o subs =>
      JObj [(u "segment_group", dump_opt JStr k);
            (u "opening_segment", JStr o);
            (u "sub_hierarchy", match subs with Some l => JList (map dump_sgh l) | None => JNull end)]
  end.

(** message_implementation_guide.py:83-101 [SegmentGroupHierarchySchema]: load *)
Fixpoint load_sgh (j : json) : result Sgh :=
  match j with
  | JObj o =>
      let* (k, op, subs, _) :=
        both (both (both
          (required_nullable load_str (u "segment_group") o)
          (required load_str (u "opening_segment") o))
          (get_with (fun v => match v with
                              | JNull => Ok (Some None)
                              | JList l => match load_items load_sgh l with Ok x => Ok (Some (Some x)) | Raise e => Raise e end
                              | _ => Raise ValidationError
                              end) (Ok None) (u "sub_hierarchy") o))
          (only_known [u "segment_group"; u "opening_segment"; u "sub_hierarchy"] o) in
      let* subs := argument subs in
      Ok (mkSgh k op subs)
  | _ => Raise ValidationError
  end.

(** ** anwendungshandbuch.py *)

(** anwendungshandbuch.py:137-160 [AhbLineSchema]: dump *)
Definition dump_line (l : AhbLine) : json :=
  JObj [(u "guid", dump_opt (fun n => JStr (str_of_uuid n)) (al_guid l));
        (u "segment_group_key", dump_opt JStr (al_group l));
        (u "segment_code", dump_opt JStr (al_segment l));
        (u "segment_id", dump_opt JStr (al_segment_id l));
        (u "data_element", dump_opt JStr (al_element l));
        (u "value_pool_entry", dump_opt JStr (al_entry l));
        (u "name", dump_opt JStr (al_name l));
        (u "ahb_expression", dump_opt JStr (al_expression l));
        (u "conditions", dump_opt JStr (al_conditions l));
        (u "section_name", dump_opt JStr (al_section l));
        (u "index", dump_opt JInt (al_index l))].

(** anwendungshandbuch.py:137-160 [AhbLineSchema]: load *)
Definition load_line (j : json) : result AhbLine :=
  match j with
  | JObj o =>
      let* (guid, g, s, si, d, v, n, e, c, sn, i, _) :=
        both (both (both (both (both (both (both (both (both (both (both
          (default_none load_uuid (u "guid") o)
          (default_none load_str (u "segment_group_key") o))
          (default_none load_str (u "segment_code") o))
          (default_none load_str (u "segment_id") o))
          (default_none load_str (u "data_element") o))
          (default_none load_str (u "value_pool_entry") o))
          (default_none load_str (u "name") o))
          (default_none load_str (u "ahb_expression") o))
          (default_none load_str (u "conditions") o))
          (default_none load_str (u "section_name") o))
          (default_none load_int (u "index") o))
          (only_known [u "guid"; u "segment_group_key"; u "segment_code"; u "segment_id"; u "data_element";
                       u "value_pool_entry"; u "name"; u "ahb_expression"; u "conditions"; u "section_name"; u "index"] o) in
      new_AhbLine (mkLine guid g s d si v n e c sn i)
  | _ => Raise ValidationError
  end.

(** anwendungshandbuch.py:207-223 [AhbMetaInformationSchema]: dump *)
Definition dump_meta (m : Meta) : json :=
  JObj [(u "pruefidentifikator", JStr (me_pruefi m));
        (u "maus_version", dump_opt JStr (me_version m));
        (u "description", dump_opt JStr (me_description m));
        (u "direction", dump_opt JStr (me_direction m))].

(** anwendungshandbuch.py:207-223 *)
Definition or_default {A} (o : option A) (d : A) : A := match o with Some a => a | None => d end.

(** anwendungshandbuch.py:207-223 [AhbMetaInformationSchema]: load; the defaults
    are those of the class (lines 173, 187, 199) *)
Definition load_meta (j : json) : result Meta :=
  match j with
  | JObj o =>
      let* (p, v, de, di, _) :=
        both (both (both (both
          (required load_str (u "pruefidentifikator") o)
          (optional_nullable load_str (u "maus_version") o))
          (optional_nullable load_str (u "description") o))
          (optional_nullable load_str (u "direction") o))
          (only_known [u "pruefidentifikator"; u "maus_version"; u "description"; u "direction"] o) in
      new_Meta (mkMeta p (or_default v (Some maus_VERSION)) (or_default de None) (or_default di None))
  | _ => Raise ValidationError
  end.

(** anwendungshandbuch.py:395-409 [FlatAnwendungshandbuchSchema]: dump *)
Definition dump_flat (a : FlatAhb) : json :=
  JObj [(u "meta", dump_meta (fa_meta a)); (u "lines", JList (map dump_line (fa_lines a)))].

(** anwendungshandbuch.py:395-409 [FlatAnwendungshandbuchSchema]: load *)
Definition load_flat (j : json) : result FlatAhb :=
  match j with
  | JObj o =>
      let* (m, ls, _) :=
        both (both
          (optional load_meta (u "meta") o)
          (optional (load_list load_line) (u "lines") o))
          (only_known [u "meta"; u "lines"] o) in
      let* m := argument m in
      let* ls := argument ls in
      new_FlatAhb m ls
  | _ => Raise ValidationError
  end.

(** ** edifact_components.py *)

(** the name of a member of the enum (edifact_components.py:19-27) *)
Definition type_name (t : DataType) : pystr :=
  match t with TEXT => u "TEXT" | DATETIME => u "DATETIME" | VALUE_POOL => u "VALUE_POOL" end.

(** edifact_components.py:169-185 [ValuePoolEntrySchema] *)
Definition dump_entry (e : ValuePoolEntry) : json :=
  JObj [(u "qualifier", JStr (ve_qualifier e)); (u "meaning", JStr (ve_meaning e)); (u "ahb_expression", JStr (ve_expression e))].
(** edifact_components.py:169-185 *)
Definition load_entry (j : json) : result ValuePoolEntry :=
  match j with
  | JObj o =>
      let* (q, m, e, _) :=
        both (both (both
          (required load_str (u "qualifier") o)
          (required load_str (u "meaning") o))
          (required load_str (u "ahb_expression") o))
          (only_known [u "qualifier"; u "meaning"; u "ahb_expression"] o) in
      new_ValuePoolEntry (Some q) (Some m) (Some e)
  | _ => Raise ValidationError
  end.

(** edifact_components.py:83-88 the key entered_input is removed by the post_dump
    hook if its value is None *)
Definition dump_input (i : option pystr) : list (pystr * json) :=
  match i with Some s => [(u "entered_input", JStr s)] | None => [] end.

(** edifact_components.py:73-88, 110-123 [DataElementFreeTextSchema]: dump *)
Definition dump_free_text (f : FreeText) : json :=
  JObj ([(u "discriminator", dump_opt JStr (ft_discriminator f)); (u "data_element_id", JStr (ft_id f))]
        ++ dump_input (ft_input f)
        ++ [(u "value_type", dump_opt (fun t => JStr (type_name t)) (ft_type f));
            (u "ahb_expression", JStr (ft_expression f))]).

(** edifact_components.py:73-88, 258-271 [DataElementValuePoolSchema]: dump *)
Definition dump_pool (p : ValuePool) : json :=
  JObj ([(u "discriminator", dump_opt JStr (vp_discriminator p)); (u "data_element_id", JStr (vp_id p))]
        ++ dump_input (vp_input p)
        ++ [(u "value_type", dump_opt (fun t => JStr (type_name t)) (vp_type p));
            (u "value_pool", JList (map dump_entry (vp_pool p)))]).

(** edifact_components.py:293-358 [_FreeTextOrValuePoolSchema]: dump.  The hooks
    wrap the element and unwrap the (never empty) result. *)
Definition dump_element (d : DataElement) : json :=
  match d with DFree f => dump_free_text f | DPool p => dump_pool p end.

(** edifact_components.py:389-396, 430-445 [SegmentSchema]: dump; ahb_line_index is
    not a field of the schema *)
Definition dump_segment (s : Segment) : json :=
  JObj [(u "discriminator", JStr (seg_discriminator s));
        (u "ahb_expression", JStr (seg_expression s));
        (u "data_elements", JList (map dump_element (seg_elements s)));
        (u "section_name", dump_opt JStr (seg_section s));
        (u "segment_id", dump_opt JStr (seg_id s))].

(** edifact_components.py:389-396, 505-524 [SegmentGroupSchema]: dump *)
Fixpoint dump_group (g : SegmentGroup) : json :=
  match g with
  | mkGroup d e _ ss gs =>
      JObj [(u "discriminator", JStr d);
            (u "ahb_expression", JStr e);
            (u "segments", dump_opt (fun l => JList (map dump_segment l)) ss);
            (u "segment_groups", match gs with Some l => JList (map dump_group l) | None => JNull end)]
  end.

(** anwendungshandbuch.py:579-593 [DeepAnwendungshandbuchSchema]: dump *)
Definition dump_deep (a : DeepAhb) : json :=
  JObj [(u "meta", dump_meta (da_meta a)); (u "lines", JList (map dump_group (da_lines a)))].

Section Load.
  (** marshmallow.fields.Enum looks a name up with [getattr(cls, name)], which also
      finds attributes of the class that are no members (e.g. "upper").
      [class_attribute name] for such names: None = AttributeError,
      Some true = the attribute is None, Some false = another object. *)
  Variable class_attribute : pystr -> option bool.

  (** edifact_components.py:80 what the Enum field yields: a member, None or an object of another type *)
  Inductive attribute := AMember (t : DataType) | ANone | AOther.
  (** edifact_components.py:80 *)
  Definition load_type (j : json) : result attribute :=
    match j with
    | JStr s =>
        if str_eqb s (u "TEXT") then Ok (AMember TEXT)
        else if str_eqb s (u "DATETIME") then Ok (AMember DATETIME)
        else if str_eqb s (u "VALUE_POOL") then Ok (AMember VALUE_POOL)
        else match class_attribute s with
             | None => Raise ValidationError
             | Some true => Ok ANone
             | Some false => Ok AOther
             end
    | _ => Raise ValidationError
    end.
  (** edifact_components.py:64-66 the validator of value_type (lines 64-66): optional(instance_of(DataElementDataType));
      [default] is used if the key is missing.  attrs runs it after the validators
      of discriminator and data_element_id. *)
  Definition check_type (default : DataType) (t : option attribute) : result (option DataType) :=
    match t with
    | None => Ok (Some default)
    | Some (AMember t) => Ok (Some t)
    | Some ANone => Ok None
    | Some AOther => Raise TypeError
    end.

  (** edifact_components.py:73-81 the fields of [DataElementSchema] *)
  Definition load_common (o : list (pystr * json))
    : result (option (option pystr) * pystr * option pystr * option attribute) :=
    both (both (both
      (optional_nullable load_str (u "discriminator") o)
      (required load_str (u "data_element_id") o))
      (default_none load_str (u "entered_input") o))
      (optional load_type (u "value_type") o).

  (** edifact_components.py:110-123 [DataElementFreeTextSchema]: load *)
  Definition load_free_text (j : json) : result FreeText :=
    match j with
    | JObj o =>
        let* (d, i, inp, t, e, _) :=
          both (both (load_common o)
            (required_nullable load_str (u "ahb_expression") o))
            (only_known [u "discriminator"; u "data_element_id"; u "entered_input"; u "value_type"; u "ahb_expression"] o) in
        let* d := argument d in
        let* _ := check_data_element d (Some i) in
        let* t := check_type TEXT t in
        new_FreeText d (Some i) inp t e
    | _ => Raise ValidationError
    end.

  (** edifact_components.py:258-271 [DataElementValuePoolSchema]: load *)
  Definition load_pool (j : json) : result ValuePool :=
    match j with
    | JObj o =>
        let* (d, i, inp, t, p, _) :=
          both (both (load_common o)
            (required (load_list load_entry) (u "value_pool") o))
            (only_known [u "discriminator"; u "data_element_id"; u "entered_input"; u "value_type"; u "value_pool"] o) in
        let* d := argument d in
        let* _ := check_data_element d (Some i) in
        let* t := check_type VALUE_POOL t in
        new_ValuePool d (Some i) inp t p
    | _ => Raise ValidationError
    end.

  (** edifact_components.py:293-358 [_FreeTextOrValuePoolSchema]: load.  The pre_load
      hook tests ["value_pool" in data]: a TypeError for numbers; a string or a list
      passes the hook but is no mapping for the nested schema. *)
  Definition load_element (j : json) : result DataElement :=
    match j with
    | JNull | JBool _ | JInt _ | JFloat _ => Raise TypeError
    | JStr _ | JList _ => Raise ValidationError
    | JObj o =>
        if str_in (u "value_pool") (map fst o)
        then let* p := load_pool j in Ok (DPool p)
        else let* f := load_free_text j in Ok (DFree f)
    end.

  (** edifact_components.py:389-396, 430-445 [SegmentSchema]: load *)
  Definition load_segment (j : json) : result Segment :=
    match j with
    | JObj o =>
        let* (d, e, es, sn, si, _) :=
          both (both (both (both (both
            (required load_str (u "discriminator") o)
            (required_nullable load_str (u "ahb_expression") o))
            (optional (load_list load_element) (u "data_elements") o))
            (optional load_str (u "section_name") o))
            (optional_nullable load_str (u "segment_id") o))
            (only_known [u "discriminator"; u "ahb_expression"; u "data_elements"; u "section_name"; u "segment_id"] o) in
        let* es := argument es in
        new_Segment d e None es sn (or_default si None)
    | _ => Raise ValidationError
    end.

  (** edifact_components.py:389-396, 505-524 [SegmentGroupSchema]: load *)
  Fixpoint load_group (j : json) : result SegmentGroup :=
    match j with
    | JObj o =>
        let* (d, e, ss, gs, _) :=
          both (both (both (both
            (required load_str (u "discriminator") o)
            (required_nullable load_str (u "ahb_expression") o))
            (default_none (load_list load_segment) (u "segments") o))
            (get_with (fun v => match v with
                                | JNull => Ok None
                                | JList l => match load_items load_group l with Ok x => Ok (Some x) | Raise e => Raise e end
                                | _ => Raise ValidationError
                                end) (Ok None) (u "segment_groups") o))
            (only_known [u "discriminator"; u "ahb_expression"; u "segments"; u "segment_groups"] o) in
        new_SegmentGroup d e None ss gs
    | _ => Raise ValidationError
    end.

  (** anwendungshandbuch.py:579-593 [DeepAnwendungshandbuchSchema]: load *)
  Definition load_deep (j : json) : result DeepAhb :=
    match j with
    | JObj o =>
        let* (m, ls, _) :=
          both (both
            (optional load_meta (u "meta") o)
            (optional (load_list load_group) (u "lines") o))
            (only_known [u "meta"; u "lines"] o) in
        let* m := argument m in
        let* ls := argument ls in
        Ok (mkDeep m ls)
    | _ => Raise ValidationError
    end.
End Load.
