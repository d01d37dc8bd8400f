(** Properties C03 - C06: sub stacks, sub locations, common ancestors, distances. *)
From Coq Require Import List NArith ZArith Bool Ascii String.
From Verif Require Import PyBase PyStr PyRe M_Components M_Ahb M_Sgh M_Navigation S_Prefix L_Base L_Prefix.
Import ListNotations.

(** C03: x.is_sub_stack_of(y) iff the levels of y are a prefix of those of x *)
Theorem C03_sub_stack_is_prefix (x y : EdifactStack) :
  (is_sub_stack_of x y = true <-> is_prefix y x) /\ stack_is_parent_of y x = is_sub_stack_of x y.
Proof. split; [exact (is_sub_stack_of_prefix x y)|reflexivity]. Qed.
Print Assumptions C03_sub_stack_is_prefix.

Theorem C03_sub_stack_partial_order :
  (forall x, is_sub_stack_of x x = true) /\
  (forall x y z, is_sub_stack_of x y = true -> is_sub_stack_of y z = true -> is_sub_stack_of x z = true) /\
  (forall x y, is_sub_stack_of x y = true -> is_sub_stack_of y x = true -> x = y).
Proof.
  repeat split.
  - intros x. apply is_sub_stack_of_prefix, is_prefix_refl.
  - intros x y z H1 H2. apply is_sub_stack_of_prefix in H1, H2. apply is_sub_stack_of_prefix.
    exact (is_prefix_trans _ _ _ H2 H1).
  - intros x y H1 H2. apply is_sub_stack_of_prefix in H1, H2. exact (is_prefix_antisym _ _ H2 H1).
Qed.
Print Assumptions C03_sub_stack_partial_order.

Example C03_instance :
  let foo := mkLevel (u "Foo") true (Some 0%Z) in
  let bar := mkLevel (u "Bar") false None in
  is_sub_stack_of [foo; bar] [foo] = true /\ is_sub_stack_of [foo] [foo; bar] = false
  /\ is_sub_stack_of [foo; bar] [bar] = false.
Proof. repeat split; vm_compute; reflexivity. Qed.

(** C04: x.is_sub_location_of(y) iff the layers of y are a prefix of those of x *)
Theorem C04_sub_location_is_prefix (x y : Location) :
  (is_sub_location_of x y = true <-> is_prefix (lo_layers y) (lo_layers x))
  /\ location_is_parent_of y x = is_sub_location_of x y.
Proof. split; [exact (is_sub_location_of_prefix x y)|reflexivity]. Qed.
Print Assumptions C04_sub_location_is_prefix.

Example C04_instance :
  let root := mkLayer None (u "UNH") (Some (u "UTILMD")) in
  let sg4 := mkLayer (Some (u "SG4")) (u "IDE") (Some (u "24")) in
  let x := mkLocation false [root; sg4] (Some (u "IDE")) None None in
  let y := mkLocation false [root] (Some (u "UNT")) (Some (u "0062")) (Some (u "Z01")) in
  is_sub_location_of x y = true /\ is_sub_location_of y x = false.
Proof. split; vm_compute; reflexivity. Qed.

(** C05: the common ancestor has the longest common prefix of the layers; a
    ValueError is raised iff there is none (the first layers differ) *)
Theorem C05_common_ancestor (x y : Location) :
  lo_pseudo x = false -> lo_pseudo y = false -> lo_layers x <> [] -> lo_layers y <> [] ->
  match find_common_ancestor x y with
  | Ok a => is_longest_common_prefix (lo_layers a) (lo_layers x) (lo_layers y)
            /\ hd_error (lo_layers x) = hd_error (lo_layers y)
            /\ lo_pseudo a = false /\ lo_segment a = None /\ lo_element a = None /\ lo_qualifier a = None
  | Raise e => e = ValueError /\ hd_error (lo_layers x) <> hd_error (lo_layers y)
  end.
Proof.
  intros Px Py Nx Ny. pose proof (common_ancestor_spec x y Px Py) as H.
  destruct (find_common_ancestor x y) as [a|e].
  - destruct H as (H & Hne & K). split; [exact H|]. split; [|exact K].
    destruct H as ((r & E1) & (s & E2) & _). rewrite E1, E2.
    destruct (lo_layers a) as [|l ls]; [congruence|reflexivity].
  - destruct H as (-> & [H|[H|H]]); [congruence|congruence|auto].
Qed.
Print Assumptions C05_common_ancestor.

(** C05, pseudo locations: only the segment group keys count; the layers of the
    first argument are returned *)
Theorem C05_common_ancestor_pseudo (x y : Location) :
  lo_pseudo x = true \/ lo_pseudo y = true -> lo_layers x <> [] -> lo_layers y <> [] ->
  match find_common_ancestor x y with
  | Ok a => is_prefix (lo_layers a) (lo_layers x)
            /\ is_longest_common_prefix (map ly_key (lo_layers a)) (map ly_key (lo_layers x)) (map ly_key (lo_layers y))
            /\ lo_pseudo a = true /\ lo_segment a = None /\ lo_element a = None /\ lo_qualifier a = None
  | Raise e => e = ValueError
               /\ hd_error (map ly_key (lo_layers x)) <> hd_error (map ly_key (lo_layers y))
  end.
Proof.
  intros P Nx Ny. pose proof (common_ancestor_pseudo_spec x y P) as H.
  destruct (find_common_ancestor x y) as [a|e].
  - destruct H as (H0 & H & Hne & K). split; [exact H0|]. split; [exact H|exact K].
  - destruct H as (-> & [H|[H|H]]); [congruence|congruence|auto].
Qed.
Print Assumptions C05_common_ancestor_pseudo.

Definition ex_root := mkLayer None (u "UNH") (Some (u "UTILMD")).
Definition ex_sg4 := mkLayer (Some (u "SG4")) (u "IDE") (Some (u "24")).
Definition ex_sg8a := mkLayer (Some (u "SG8")) (u "SEQ") (Some (u "Z01")).
Definition ex_sg8b := mkLayer (Some (u "SG8")) (u "SEQ") (Some (u "Z03")).
Definition ex_loc (layers : list Layer) : Location := mkLocation false layers (Some (u "SEQ")) None None.

Example C05_instance :
  find_common_ancestor (ex_loc [ex_root; ex_sg4; ex_sg8a]) (ex_loc [ex_root; ex_sg4; ex_sg8b])
  = Ok (mkLocation false [ex_root; ex_sg4] None None None)
  /\ find_common_ancestor (ex_loc [ex_sg4]) (ex_loc [ex_root]) = Raise ValueError
  /\ find_common_ancestor (mkLocation true [ex_root; ex_sg4; ex_sg8a] None None None) (ex_loc [ex_root; ex_sg4; ex_sg8b])
     = Ok (mkLocation true [ex_root; ex_sg4; ex_sg8a] None None None).
Proof. repeat split; vm_compute; reflexivity. Qed.

(** C06: layers_up / layers_down are the smallest numbers of layers to remove from
    x / y so that the same layers remain; at least one layer remains; if the first
    layers differ a ValueError is raised, otherwise the call returns *)
Theorem C06_distance (x y : Location) :
  lo_pseudo x = false -> lo_pseudo y = false -> lo_layers x <> [] -> lo_layers y <> [] ->
  let remaining (l : Location) (n : nat) := firstn (List.length (lo_layers l) - n) (lo_layers l) in
  match calculate_distance x y with
  | Ok d =>
      layers_up d < List.length (lo_layers x) /\ layers_down d < List.length (lo_layers y)
      /\ remaining x (layers_up d) = remaining y (layers_down d)
      /\ forall u' d', u' <= List.length (lo_layers x) -> d' <= List.length (lo_layers y) ->
           remaining x u' = remaining y d' -> layers_up d <= u' /\ layers_down d <= d'
  | Raise e => e = ValueError /\ hd_error (lo_layers x) <> hd_error (lo_layers y)
  end.
Proof.
  intros Px Py Nx Ny remaining. destruct (calculate_distance x y) as [d|e] eqn:E.
  - exact (distance_minimal x y d Px Py E).
  - pose proof (distance_spec x y Px Py) as H. rewrite E in H.
    destruct H as (-> & [H|[H|H]]); [congruence|congruence|auto].
Qed.
Print Assumptions C06_distance.

Theorem C06_distance_zero (x y : Location) (d : Distance) :
  lo_pseudo x = false -> lo_pseudo y = false -> calculate_distance x y = Ok d ->
  (layers_up d = 0 <-> is_sub_location_of y x = true)
  /\ (layers_down d = 0 <-> is_sub_location_of x y = true)
  /\ (layers_up d = 0 /\ layers_down d = 0 <-> lo_layers x = lo_layers y).
Proof.
  intros Px Py E. destruct (distance_zero x y d Px Py E) as [H1 H2].
  rewrite !is_sub_location_of_prefix. split; [exact H1|]. split; [exact H2|].
  rewrite H1, H2. split; [intros [A B]; exact (is_prefix_antisym _ _ A B)|].
  intros ->. split; apply is_prefix_refl.
Qed.
Print Assumptions C06_distance_zero.

Example C06_instance :
  calculate_distance (ex_loc [ex_root; ex_sg4; ex_sg8a]) (ex_loc [ex_root; ex_sg4; ex_sg8b]) = Ok (mkDistance 1 1)
  /\ calculate_distance (ex_loc [ex_root; ex_sg4; ex_sg8a]) (ex_loc [ex_root]) = Ok (mkDistance 2 0)
  /\ calculate_distance (ex_loc [ex_sg4]) (ex_loc [ex_root]) = Raise ValueError.
Proof. repeat split; vm_compute; reflexivity. Qed.
