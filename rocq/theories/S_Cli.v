(** Specification vocabulary for JSON values whose keys are in another order. *)
From Coq Require Import Ascii String List NArith ZArith Bool Permutation Sorted.
From Verif Require Import PyBase PyStr M_Components M_Ahb M_Sgh M_Navigation M_Matching M_Schema M_Xml M_MigXml S_DeepAhb S_Json.
Import ListNotations.
Local Open Scope list_scope.

(** in every object, at any depth, no key occurs twice (as in every Python dictionary) *)
Inductive unique_keys : json -> Prop :=
| unique_null : unique_keys JNull
| unique_bool b : unique_keys (JBool b)
| unique_int z : unique_keys (JInt z)
| unique_float t : unique_keys (JFloat t)
| unique_str s : unique_keys (JStr s)
| unique_list l : Forall unique_keys l -> unique_keys (JList l)
| unique_obj o : NoDup (map fst o) -> Forall (fun kv => unique_keys (snd kv)) o -> unique_keys (JObj o).

(** no floats at any depth *)
Inductive float_free : json -> Prop :=
| free_null : float_free JNull
| free_bool b : float_free (JBool b)
| free_int z : float_free (JInt z)
| free_str s : float_free (JStr s)
| free_list l : Forall float_free l -> float_free (JList l)
| free_obj o : Forall (fun kv => float_free (snd kv)) o -> float_free (JObj o).

(** the same value, except that the keys of objects, at any depth, come in another order *)
Inductive reordered : json -> json -> Prop :=
| reordered_same j : reordered j j
| reordered_list l l' : Forall2 reordered l l' -> reordered (JList l) (JList l')
| reordered_obj o o1 o' : NoDup (map fst o) ->
    Forall2 (fun a b => fst b = fst a /\ reordered (snd a) (snd b)) o o1 -> Permutation o1 o' ->
    reordered (JObj o) (JObj o').

(** everything but the line indexes is the same *)
Definition same_but_index (a b : DeepAhb) : Prop := ahbs_related eq (fun _ _ => True) a b.

(** the keys of every object, at any depth, are in ascending order *)
Inductive ascending_keys : json -> Prop :=
| ascending_null : ascending_keys JNull
| ascending_bool b : ascending_keys (JBool b)
| ascending_int z : ascending_keys (JInt z)
| ascending_float t : ascending_keys (JFloat t)
| ascending_str s : ascending_keys (JStr s)
| ascending_list l : Forall ascending_keys l -> ascending_keys (JList l)
| ascending_obj o : StronglySorted code_point_less (map fst o) -> Forall (fun kv => ascending_keys (snd kv)) o -> ascending_keys (JObj o).

Section Generated.
  Variable path content : Type.
  Variable parse_json : content -> result json.
  Variable parse_xml : content -> result element.
  Variable str_of_location : Location -> pystr.
  (** the files of the three paths hold a flat AHB, a segment group hierarchy and a MIG, and converting them yields [maus] *)
  Definition generated (fs : path -> result content) (flat_ahb_path sgh_path template_path : path) (maus : DeepAhb) : Prop :=
    exists flat_ahb_file flat_ahb_json flat_ahb sgh_file sgh_json sgh template document flat_ahb',
      fs flat_ahb_path = Ok flat_ahb_file /\ parse_json flat_ahb_file = Ok flat_ahb_json /\ describes_flat flat_ahb_json flat_ahb
      /\ fs sgh_path = Ok sgh_file /\ parse_json sgh_file = Ok sgh_json /\ describes_sgh sgh_json sgh
      /\ fs template_path = Ok template /\ parse_xml template = Ok document
      /\ to_deep_ahb (get_edifact_stack (new_MigXmlReader document)) str_of_location flat_ahb sgh = (Ok maus, flat_ahb').
End Generated.
