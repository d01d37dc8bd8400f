(** C01, C02: EDIFACT stacks and JSON paths. *)
From Coq Require Import Ascii String List NArith ZArith Bool Lia Arith.
From Verif Require Import PyBase PyStr PyRe M_Components S_Text S_Paths L_Base L_Str L_Re L_Paths.
Import ListNotations.
Local Open Scope list_scope.

Definition ex_level (n : string) (g : bool) (i : option Z) : StackLevel := mkLevel (u n) g i.
Definition ex_stack : EdifactStack :=
  [ex_level "Dokument" true (Some 0%Z); ex_level "Nachricht" true (Some 12%Z); ex_level "Meldepunkt ""A""" false None; ex_level "x" true None].
Example ex_stack_readable : readable ex_stack.
Proof.
  assert (N : forall n, forallb not_bracket (u n) = true -> u n <> [] -> plain_name (u n)).
  { intros n F Hn. rewrite forallb_forall in F. split; [exact Hn|]. split; intros K; specialize (F _ K); vm_compute in F; discriminate. }
  repeat constructor; cbn [lv_name ex_level lv_index]; try (apply N; [vm_compute; reflexivity|vm_compute; discriminate]);
    try (intros i [= <-]; lia); try (intros i K; discriminate).
Qed.

(** * C01 round trip *)
Theorem C01_round_trip s : readable s -> from_json_path (to_json_path s) = explicit s.
Proof. apply round_trip. Qed.
(** whatever string is parsed: the levels are in the domain and have explicit indices, so that they survive the round trip unchanged *)
Theorem C01_parsed_stacks_are_readable path : readable (from_json_path path) /\ explicit (from_json_path path) = from_json_path path.
Proof.
  pose proof (parsed_readable path) as H. unfold readable, explicit. induction H as [|l s [R E] _ [IH1 IH2]]; cbn [map]; [auto|].
  split; [now constructor|]. now rewrite E, IH2.
Qed.
Theorem C01_parsed_round_trip path : from_json_path (to_json_path (from_json_path path)) = from_json_path path.
Proof. destruct (C01_parsed_stacks_are_readable path) as [R E]. rewrite round_trip by exact R. exact E. Qed.
(** outside of the domain *)
Theorem C01_round_trip_of_empty_name_refuted : from_json_path (to_json_path [ex_level "" false None]) = [].
Proof. vm_compute. reflexivity. Qed.
Theorem C01_round_trip_of_bracket_refuted :
  from_json_path (to_json_path [ex_level "a[b" false None]) = [] /\ from_json_path (to_json_path [ex_level "a[""b" false None]) = [ex_level "b" false None].
Proof. split; vm_compute; reflexivity. Qed.
Theorem C01_round_trip_of_negative_index_refuted :
  from_json_path (to_json_path [ex_level "a" true (Some (-1)%Z)]) = [ex_level "a" false None].
Proof. vm_compute. reflexivity. Qed.
Theorem C01_round_trip_of_all_stacks_refuted : ~ (forall s, from_json_path (to_json_path s) = explicit s).
Proof. intros H. specialize (H [ex_level "" false None]). vm_compute in H. discriminate. Qed.
(** a stack whose round trip works has names that are not empty and free of brackets, and no negative indices: the domain
    cannot be enlarged *)
Theorem C01_domain_is_maximal s : from_json_path (to_json_path s) = explicit s -> readable s.
Proof.
  intros H. pose proof (parsed_readable (to_json_path s)) as P. rewrite H in P. clear H. induction s as [|l s IH]; [constructor|].
  inversion P as [|? ? [[Hn Hi] _] P']; subst. constructor; [|now apply IH].
  rewrite explicit_name in Hn. split; [exact Hn|]. intros i E. apply Hi. unfold explicit_level. now rewrite E.
Qed.
Print Assumptions C01_round_trip.
Print Assumptions C01_parsed_stacks_are_readable.
Print Assumptions C01_parsed_round_trip.
Print Assumptions C01_round_trip_of_empty_name_refuted.
Print Assumptions C01_round_trip_of_bracket_refuted.
Print Assumptions C01_round_trip_of_negative_index_refuted.
Print Assumptions C01_round_trip_of_all_stacks_refuted.
Print Assumptions C01_domain_is_maximal.
Example C01_example : to_json_path ex_stack = u "$[""Dokument""][0][""Nachricht""][12][""Meldepunkt ""A""""][""x""][0]"
  /\ from_json_path (to_json_path ex_stack) = explicit ex_stack.
Proof. split; [vm_compute; reflexivity|]. apply round_trip, ex_stack_readable. Qed.

(** * C02 JSON paths identify stacks *)
Theorem C02_same_path_iff a b : readable a -> readable b -> (to_json_path a = to_json_path b <-> explicit a = explicit b).
Proof.
  intros A B. split.
  - intros H. rewrite <- (round_trip a A), <- (round_trip b B). now rewrite H.
  - intros H. rewrite <- (to_json_path_explicit a), <- (to_json_path_explicit b). now rewrite H.
Qed.
Theorem C02_reprinting s : readable s -> to_json_path (from_json_path (to_json_path s)) = to_json_path s.
Proof. intros H. rewrite round_trip by exact H. apply to_json_path_explicit. Qed.
(** also without the restriction to the domain, stacks that agree up to explicit indices have the same path *)
Theorem C02_explicit_indices_do_not_matter s : to_json_path (explicit s) = to_json_path s.
Proof. apply to_json_path_explicit. Qed.
Theorem C02_path_identifies_any_stack_refuted : ~ (forall a b, to_json_path a = to_json_path b -> explicit a = explicit b).
Proof.
  intros H. specialize (H [ex_level "a""][""b" false None] [ex_level "a" false None; ex_level "b" false None]).
  assert (E : to_json_path [ex_level "a""][""b" false None] = to_json_path [ex_level "a" false None; ex_level "b" false None]) by (vm_compute; reflexivity).
  specialize (H E). discriminate.
Qed.
Print Assumptions C02_same_path_iff.
Print Assumptions C02_reprinting.
Print Assumptions C02_explicit_indices_do_not_matter.
Print Assumptions C02_path_identifies_any_stack_refuted.
