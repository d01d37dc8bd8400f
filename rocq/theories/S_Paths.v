(** Specification vocabulary: EDIFACT stacks and JSON paths. *)
From Coq Require Import Ascii String List NArith ZArith Bool.
From Verif Require Import PyBase PyStr M_Components.
Import ListNotations.
Local Open Scope list_scope.

(** a level name that can be read back: not empty and without brackets *)
Definition plain_name (n : pystr) : Prop := n <> [] /\ ~ In chr_lbracket n /\ ~ In chr_rbracket n.
(** the levels in the round trip domain *)
Definition readable_level (l : StackLevel) : Prop :=
  plain_name (lv_name l) /\ forall i, lv_index l = Some i -> (0 <= i)%Z.
Definition readable (s : EdifactStack) : Prop := Forall readable_level s.

(** the level with its index made explicit: an index implies "groupable", a groupable level
    without an index has the index 0 *)
Definition explicit_level (l : StackLevel) : StackLevel :=
  match lv_index l, lv_groupable l with
  | Some i, _ => mkLevel (lv_name l) true (Some i)
  | None, true => mkLevel (lv_name l) true (Some 0%Z)
  | None, false => l
  end.
Definition explicit (s : EdifactStack) : EdifactStack := map explicit_level s.
