(** Specification vocabulary: positions in a segment group hierarchy.
    A position is the list of child numbers on the way from the root. *)
From Coq Require Import List NArith.
From Verif Require Import PyStr M_Components M_Sgh S_Text.
Import ListNotations.

Fixpoint node_at (h : Sgh) (p : list nat) : option Sgh :=
  match p with
  | [] => Some h
  | i :: r =>
      match nth_error (olist (sgh_subs h)) i with
      | Some c => node_at c r
      | None => None
      end
  end.

(** document order of positions: a parent comes before its descendants, siblings
    (and everything below them) come in order *)
Fixpoint before (p q : list nat) : Prop :=
  match p, q with
  | [], _ :: _ => True
  | i :: p', j :: q' => i < j \/ (i = j /\ before p' q')
  | _, [] => False
  end.

(** [d] is a group somewhere below [a] *)
Definition below (d a : Sgh) : Prop := exists p, p <> [] /\ node_at a p = Some d.
(** [n] is the hierarchy itself or a group below it *)
Definition occurs_in (n h : Sgh) : Prop := exists p, node_at h p = Some n.

(** no key is used twice *)
Definition distinct_keys (h : Sgh) : Prop :=
  forall p q n m, node_at h p = Some n -> node_at h q = Some m -> sgh_key n = sgh_key m -> p = q.

(** the groups on the way from the root to position [p], both ends included *)
Fixpoint nodes_on_path (h : Sgh) (p : list nat) : list Sgh :=
  h :: match p with
       | [] => []
       | i :: r =>
           match nth_error (olist (sgh_subs h)) i with
           | Some c => nodes_on_path c r
           | None => []
           end
       end.

(** all names fit the format required of the layers of a location *)
Definition well_named (h : Sgh) : Prop :=
  forall n, occurs_in n h -> (forall k, sgh_key n = Some k -> SG_key k) /\ three_capitals (sgh_opening n).
