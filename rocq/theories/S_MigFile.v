(** Specification vocabulary: MIG XML documents that differ in their layout only *)
From Coq Require Import Ascii String List NArith Bool Permutation.
From Verif Require Import PyBase PyStr M_Xml S_Text.
Import ListNotations.
Local Open Scope list_scope.

(** the same tags and attributes in the same places; the order of the attributes and the texts may differ *)
Inductive same_structure : element -> element -> Prop :=
| same_node n l l' t t' cs cs' :
    NoDup (map fst l) -> Permutation l l' -> Forall2 same_structure cs cs' ->
    same_structure (Element n l t cs) (Element n l' t' cs').

(** no name has a prefix and no namespace is declared *)
Definition local_name (n : pystr) : Prop := ~ In (ch ":") n /\ n <> u "xmlns".
Inductive no_namespaces : element -> Prop :=
| no_namespaces_node n l t cs :
    local_name n -> Forall (fun kv => local_name (fst kv)) l -> Forall no_namespaces cs -> no_namespaces (Element n l t cs).
