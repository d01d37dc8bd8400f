(** Specification vocabulary: when the lines of a flat AHB can be converted to a deep AHB, and
    how deep the groups are nested. *)
From Coq Require Import Ascii String List NArith ZArith Bool.
From Verif Require Import PyBase PyStr M_Components M_Ahb M_Navigation M_Matching S_Prefix S_Text S_ValuePool S_Matching.
Import ListNotations.
Local Open Scope list_scope.

(** the discriminator of the group that has to be opened first *)
Definition first_group : pystr := u "$[""Dokument""][0][""Nachricht""][0]".

(** one is in a group at depth [d] and the last segment or data element has been at the layers
    [from]; a group that is opened at the layers [to] is at depth [d'].  One layer more is one
    group more; else one leaves as many groups as layers are left up to the common ones, and enters
    as many as there are new ones (the last of which is the new group).  One cannot leave more groups
    than one is in, nor enter a group that does not exist *)
Definition goes (from to : list Layer) (d d' : nat) : Prop :=
  (is_prefix from to /\ d' = S d)
  \/ ~ is_prefix from to /\ exists common up down, common <> [] /\ is_longest_common_prefix common from to
       /\ List.length from = List.length common + up /\ List.length to = List.length common + down
       /\ up <= d /\ down <= S up /\ d' = d - up + Nat.max 1 down.

Section Reader.
  Variable reader : Location -> result EdifactStack.

  (** the MIG either knows the place of the run, or it raises a ValueError: in this case the first
      line is looked up if there are several *)
  Definition lookup_returns (r : Run) : Prop :=
    (exists s, reader (place r) = Ok s)
    \/ reader (place r) = Raise ValueError
       /\ forall l p x rest, r = (l, p) :: x :: rest -> (exists s, reader p = Ok s) \/ reader p = Raise ValueError.
  (** lines of a segment, with or without an expression *)
  Definition of_a_segment (r : Run) : Prop := has_segment_code r = true /\ has_data_element r = false.
  (** one of the runs has opened the group, or another one had done so before *)
  Definition opened_by (runs : list Run) (path : pystr) : Prop :=
    exists r, In r runs /\ counts_as_segment r = true /\ can_open reader r path.
  Definition opens_after (before : list Run) (r : Run) (path : pystr) : Prop :=
    can_open reader r path /\ ~ opened_by before path.

  (** what is required of the lines of a run that follows the runs [before] *)
  Record presentable (before : list Run) (r : Run) : Prop := {
    pr_lookup : has_segment_code r = true -> lookup_returns r;
    pr_element : counts_as_element r = true -> exists d, element_of_run reader r d;
    pr_code : of_a_segment r -> exists l last, run_lines r = l ++ [last] /\ al_segment last <> None;
    pr_segment : counts_as_segment r = true ->
      exists b l a e, run_lines r = b ++ l :: a /\ existsb has_expression b = false
        /\ al_expression l = Some e /\ ~ blank e;
    pr_group : of_a_segment r -> forall path, opens_after before r path ->
      exists first rest e, run_lines r = first :: rest /\ al_expression first = Some e /\ ~ blank e
  }.

  (** the way through the runs: the depths of the groups that are opened, in order, and the place
      of the last segment or data element *)
  Inductive walk : list Run -> list nat -> option Location -> Prop :=
  | walk_start : walk [] [] None
  | walk_idle runs ds p r : walk runs ds p -> counts_as_segment r = false -> counts_as_element r = false ->
      walk (runs ++ [r]) ds p
  | walk_first runs r : walk runs [] None -> counts_as_segment r = true -> can_open reader r first_group ->
      walk (runs ++ [r]) [1] (Some (place r))
  | walk_element runs ds p r : walk runs ds (Some p) -> counts_as_element r = true ->
      walk (runs ++ [r]) ds (Some (place r))
  | walk_segment runs ds p r : walk runs ds (Some p) -> counts_as_segment r = true ->
      (forall path, can_open reader r path -> opened_by runs path) ->
      walk (runs ++ [r]) ds (Some (place r))
  | walk_group runs ds p r d d' path : walk runs (ds ++ [d]) (Some p) -> counts_as_segment r = true ->
      opens_after runs r path -> goes (lo_layers p) (lo_layers (place r)) d d' ->
      walk (runs ++ [r]) ((ds ++ [d]) ++ [d']) (Some (place r)).
End Reader.

(** the depths of all groups, the groups in preorder *)
Definition depths_of (a : DeepAhb) : list nat := map (fun x => S (List.length (fst x))) (groups_with_ancestors a).
