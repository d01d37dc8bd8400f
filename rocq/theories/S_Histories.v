(** Specification vocabulary: histories of updates of a deep AHB. *)
From Coq Require Import Ascii String List NArith ZArith Bool.
From Verif Require Import PyBase PyStr M_Components M_Ahb M_Callbacks M_Schema M_Transformation S_DeepAhb.
Import ListNotations.
Local Open Scope list_scope.

(** what every update keeps of a data element: all but the entered input and the qualifiers
    and meanings of the value pool *)
Definition essence_kept (d d' : DataElement) : Prop :=
  match d, d' with
  | DFree f, DFree f' => ft_discriminator f' = ft_discriminator f /\ ft_id f' = ft_id f /\ ft_type f' = ft_type f
                         /\ ft_expression f' = ft_expression f
  | DPool p, DPool p' => vp_discriminator p' = vp_discriminator p /\ vp_id p' = vp_id p /\ vp_type p' = vp_type p
                         /\ map ve_expression (vp_pool p') = map ve_expression (vp_pool p)
  | _, _ => False
  end.

(** a user changes an AHB by one call of the API: the indexes are reset, inputs are replaced, the
    value pool at some position is replaced (whether this raises or not; the functions that are
    passed may have a memory and may raise any exception at any call), or the AHB is
    dumped and what has been loaded from the dump is used instead *)
Inductive updated (class_attribute : pystr -> option bool) : DeepAhb -> DeepAhb -> Prop :=
| indexes_reset a : updated class_attribute a (deep_reset_index a)
| inputs_replaced a f : updated class_attribute a (replace_inputs_based_on_discriminator a f)
| pool_replaced a position mapping merger :
    updated class_attribute a (modify_pool position (fun p => fst (replace_value_pool mapping merger p)) a)
| inputs_replaced_asking a (W : Type) (f : pystr -> W -> W * result Replacement) (w : W) :
    updated class_attribute a (fst (snd (replace_inputs_asking W f a w)))
| pool_replaced_asking a position mapping (W : Type) (merger : pystr -> pystr -> W -> W * result pystr) (w : W) :
    updated class_attribute a (modify_pool position (fun p => fst (snd (replace_value_pool_asking W merger mapping p w))) a)
| dumped_and_loaded a a' : load_deep class_attribute (dump_deep a) = Ok a' -> updated class_attribute a a'.

(** any number of updates *)
Inductive history (class_attribute : pystr -> option bool) (a : DeepAhb) : DeepAhb -> Prop :=
| no_update : history class_attribute a a
| one_more b c : history class_attribute a b -> updated class_attribute b c -> history class_attribute a c.
