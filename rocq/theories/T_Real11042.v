(** The example AHB 11042 of the project's tests meets the hypotheses of the theorems about locations (C15, C17, C89)
    and the deep AHB (C37 to C39, C86, C87): they speak about the AHBs the library is used for. *)
From Coq Require Import Ascii String List NArith ZArith Bool.
From Verif Require Import PyBase PyStr L_Base M_Components M_Ahb M_Sgh M_Navigation M_Matching S_Prefix S_Sgh S_Navigation S_Matching
  C_Sgh C_Navigation C_LocationsExact C_Matching T_Navigation11042.
Import ListNotations.
Local Open Scope list_scope.

(** where the groups are in the hierarchy *)
Definition places : list (option pystr * list nat) :=
  (None, []) :: map (fun x => (Some (u (fst x)), snd x))
    [("SG1", [0]); ("SG2", [1]); ("SG3", [1; 0]); ("SG4", [2]); ("SG5", [2; 0]); ("SG6", [2; 1]); ("SG8", [2; 2]);
     ("SG9", [2; 2; 0]); ("SG10", [2; 2; 1]); ("SG12", [2; 3])]%string.
Definition place_of (k : option pystr) : option (list nat) := option_map snd (find (fun x => ostr_eqb (fst x) k) places).
Fixpoint starts_with (p q : list nat) : bool :=
  match q with [] => true | i :: r => match p with j :: s => (Nat.eqb i j && starts_with s r)%bool | [] => false end end.
Definition follows (x y : option pystr) : bool :=
  match place_of x, place_of y with
  | Some p, Some q => match q with [] => true | _ => starts_with p (removelast q) end
  | _, _ => false
  end.
Fixpoint all_follow (x : option pystr) (lines : list AhbLine) : bool :=
  match lines with [] => true | l :: r => (follows x (al_group l) && all_follow (al_group l) r)%bool end.

Lemma places_right : forallb (fun x => match node_at example_sgh (snd x) with Some n => ostr_eqb (sgh_key n) (fst x) | None => false end) places = true.
Proof. vm_compute. reflexivity. Qed.
Lemma place_node k p : place_of k = Some p -> exists n, node_at example_sgh p = Some n /\ sgh_key n = k.
Proof.
  unfold place_of. destruct (find _ places) as [x|] eqn:F; [|discriminate]. intros [= <-]. apply find_some in F as [I E].
  pose proof (proj1 (forallb_forall _ _) places_right _ I) as H. cbn beta in H. destruct (node_at example_sgh (snd x)) as [n|]; [|discriminate H].
  exists n. split; [reflexivity|]. apply ostr_eqb_eq in H, E. congruence.
Qed.
Lemma starts_with_prefix p q : starts_with p q = true -> is_prefix q p.
Proof.
  revert p. induction q as [|i q IH]; intros p H; [exists p; reflexivity|]. destruct p as [|j p]; [discriminate H|]. cbn in H.
  apply andb_true_iff in H as [E H]. apply Nat.eqb_eq in E as ->. destruct (IH _ H) as (s & ->). exists s. reflexivity.
Qed.
Lemma follows_right x y : follows x y = true -> may_follow example_sgh x y.
Proof.
  unfold follows. destruct (place_of x) as [p|] eqn:P; [|discriminate]. destruct (place_of y) as [q|] eqn:Q; [|discriminate]. intros H.
  destruct (place_node _ _ P) as (n & N1 & N2). destruct (place_node _ _ Q) as (m & M1 & M2).
  exists p, n, q, m. repeat split; auto. destruct q as [|i q]; [now left|right].
  exists (removelast (i :: q)), (last (i :: q) 0). split; [now apply app_removelast_last|]. now apply starts_with_prefix.
Qed.
Lemma all_follow_right lines : forall x, all_follow x lines = true -> disciplined example_sgh x lines.
Proof. induction lines as [|l r IH]; intros x H; cbn in *; [exact I|]. apply andb_true_iff in H as [A B]. split; [now apply follows_right|now apply IH]. Qed.

Example real_hypotheses :
  distinct_keys example_sgh /\ well_named example_sgh /\ sgh_key example_sgh = None /\ disciplined example_sgh None example_lines
  /\ List.length example_lines = 832.
Proof.
  split; [|split; [|split; [reflexivity|split]]].
  - apply distinct_keys_NoDup. vm_compute. repeat (constructor; [intros H; repeat (destruct H as [H|H]; [discriminate|]); destruct H|]). constructor.
  - apply well_named_flattened. repeat constructor; vm_compute; reflexivity.
  - apply all_follow_right. vm_compute. reflexivity.
  - vm_compute. reflexivity.
Qed.

Example real_deep :
  match fst (to_deep_ahb ex_reader ex_str (ex_flat example_lines) example_sgh) with
  | Ok a => (List.length (all_groups a), List.length (all_segments a), List.length (flat_map seg_elements (all_segments a)))
  | Raise _ => (0, 0, 0)
  end = (13, 22, 65).
Proof. vm_compute. reflexivity. Qed.
