(** C32-C35: qualifiers and value pools. *)
From Coq Require Import Ascii String List NArith ZArith Bool Lia Arith.
From Verif Require Import PyBase PyStr PyRe M_Components S_Text S_FlatAhb S_ValuePool L_Base L_Str L_Validators L_ValuePool.
Import ListNotations.
Local Open Scope list_scope.

Definition ex_entry (q m e : string) : ValuePoolEntry := mkEntry (u q) (u m) (u e).
Definition ex_pool (entries : list ValuePoolEntry) : ValuePool :=
  mkPool (Some (u "d")) (u "1001") None (Some VALUE_POOL) entries.

(** * C34 Which qualifiers are accepted *)
(** the constructor of a value pool entry accepts exactly these arguments; None stands for
    the None that an untyped caller may pass *)
Theorem C34_accepted_qualifiers (qualifier meaning expression : option pystr) :
  (exists e, new_ValuePoolEntry qualifier meaning expression = Ok e)
  <-> exists q m x, qualifier = Some q /\ meaning = Some m /\ expression = Some x /\ accepted_qualifier q /\ ~ blank x.
Proof.
  unfold new_ValuePoolEntry. split.
  - intros (e & H). apply bind_ok in H as ([] & H1 & H). apply check_qualifier_ok in H1 as (q & -> & A).
    apply bind_ok in H as (q' & _ & H). apply bind_ok in H as (m & Hm & H). destruct meaning as [m'|]; [|discriminate].
    apply bind_ok in H as ([] & Hx & H). apply check_not_blank_ok in Hx as (x & -> & B). exists q, m', x. auto.
  - intros (q & m & x & -> & -> & -> & A & B).
    assert (check_is_edifact_qualifier (Some q) = Ok tt) as -> by (apply check_qualifier_ok; eauto).
    assert (check_not_blank (Some x) = Ok tt) as -> by (apply check_not_blank_ok; eauto). cbn. eauto.
Qed.
(** the entry that was created has just the arguments *)
Theorem C34_entry_has_the_arguments q m x e :
  new_ValuePoolEntry q m x = Ok e -> q = Some (ve_qualifier e) /\ m = Some (ve_meaning e) /\ x = Some (ve_expression e).
Proof.
  unfold new_ValuePoolEntry. intros H. apply bind_ok in H as ([] & _ & H). apply bind_ok in H as (q' & Hq & H).
  apply bind_ok in H as (m' & Hm & H). apply bind_ok in H as ([] & _ & H). apply bind_ok in H as (x' & Hx & H).
  destruct q, m, x; try discriminate. injection H as <-. cbn in *. intuition congruence.
Qed.
(** a qualifier that is not accepted is rejected with a ValueError *)
Theorem C34_rejected_with_a_value_error q m x :
  ~ (exists s, q = Some s /\ accepted_qualifier s) -> new_ValuePoolEntry q m x = Raise ValueError.
Proof.
  intros N. unfold new_ValuePoolEntry. destruct (check_is_edifact_qualifier q) as [[]|x'] eqn:E; cbn [bind].
  - exfalso. apply N. now apply check_qualifier_ok.
  - apply check_qualifier_raise in E as ->. reflexivity.
Qed.
(** the documented purpose ("is an EDIFACT qualifier": one word) is not enforced: any text may follow *)
Theorem C34_any_text_may_follow (c : char) (r : pystr) :
  capital_or_digit c = true -> is_space c = false -> accepted_qualifier (c :: r).
Proof.
  intros H S. split; [|left; exists c, r; auto]. intros B. inversion B as [|? ? K]. congruence.
Qed.
Theorem C34_acceptance_means_one_word_refuted :
  ~ (forall s, accepted_qualifier s -> Forall (fun c => is_space c = false) s).
Proof.
  intros H. specialize (H (u "E01 foo")).
  assert (A : accepted_qualifier (u "E01 foo")) by (apply C34_any_text_may_follow; reflexivity).
  specialize (H A). change (u "E01 foo") with (u "E01" ++ chr_space :: u "foo") in H.
  apply Forall_app in H as [_ H]. inversion H as [|? ? K]. vm_compute in K. discriminate.
Qed.
Print Assumptions C34_accepted_qualifiers.
Print Assumptions C34_entry_has_the_arguments.
Print Assumptions C34_rejected_with_a_value_error.
Print Assumptions C34_any_text_may_follow.
Print Assumptions C34_acceptance_means_one_word_refuted.

Example C34_good : accepted_qualifier (u "E01") /\ accepted_qualifier (u "-A7RLMmT").
Proof.
  split.
  - apply C34_any_text_may_follow; reflexivity.
  - split.
    + intros B. inversion B as [|? ? K]. vm_compute in K. discriminate.
    + right. exists (u "A7"), (u "RLMmT"), []. split; [reflexivity|]. split; [repeat constructor|].
      split; [now right; right|now left].
Qed.
Example C34_bad : new_ValuePoolEntry (Some (u "foo")) (Some (u "m")) (Some (u "X")) = Raise ValueError
  /\ new_ValuePoolEntry (Some (u "  ")) (Some (u "m")) (Some (u "X")) = Raise ValueError.
Proof. split; vm_compute; reflexivity. Qed.

(** * C32 replace_value_pool substitutes simultaneously *)
Theorem C32_substitution mapping merger p :
  NoDup (map ve_qualifier (vp_pool p)) ->
  (forall e, In e (vp_pool p) -> valid_image (fun q => dict_get q mapping) (ve_qualifier e)) ->
  exists p', replace_value_pool mapping merger p = (p', None)
    /\ vp_discriminator p' = vp_discriminator p /\ vp_id p' = vp_id p /\ vp_input p' = vp_input p /\ vp_type p' = vp_type p
    /\ Forall2 (renamed (fun q => dict_get q mapping) merger) (vp_pool p) (vp_pool p').
Proof.
  intros ND V. pose proof (replace_value_pool_valid mapping merger p V) as X.
  destruct (replace_value_pool mapping merger p) as [p' x] eqn:R. cbn in X. subst x. exists p'. split; [reflexivity|].
  apply replace_value_pool_spec in R as (H1 & H2 & H3 & H4 & HL & _ & P). repeat (split; [assumption|]).
  assert (P' : forall i e, nth_error (vp_pool p) i = Some e -> exists e', nth_error (vp_pool p') i = Some e' /\ renamed (fun q => dict_get q mapping) merger e e').
  { intros i e He. destruct (P i e He) as (e' & He' & Hr & _). exists e'. split; [exact He'|]. apply Hr. now apply NoDup_last. }
  clear -HL P'. revert HL P'. generalize (vp_pool p) (vp_pool p'). intros l; induction l as [|x l IH]; intros [|y l'] HL P; try discriminate; constructor.
  - destruct (P 0 x eq_refl) as (e' & [= <-] & H). exact H.
  - apply IH; [cbn in HL; congruence|]. intros i e He. exact (P (S i) e He).
Qed.
(** the image of one qualifier may be another qualifier of the pool: a swap *)
Theorem C32_swap q1 q2 merger p p' :
  NoDup (map ve_qualifier (vp_pool p)) -> accepted_qualifier q1 -> accepted_qualifier q2 ->
  replace_value_pool [(q1, Some q2); (q2, Some q1)] merger p = (p', None) ->
  Forall2 (fun e e' =>
     (ve_qualifier e = q1 -> ve_qualifier e' = q2) /\ (ve_qualifier e = q2 -> ve_qualifier e' = q1)
     /\ (ve_qualifier e <> q1 -> ve_qualifier e <> q2 -> e' = e)
     /\ ve_expression e' = ve_expression e) (vp_pool p) (vp_pool p').
Proof.
  intros ND A1 A2 R. destruct (C32_substitution [(q1, Some q2); (q2, Some q1)] merger p ND) as (p2 & R2 & _ & _ & _ & _ & F).
  - intros e _. unfold valid_image. cbn. destruct (str_eqb (ve_qualifier e) q1); [exact A2|].
    destruct (str_eqb (ve_qualifier e) q2); [exact A1|exact I].
  - rewrite R in R2. injection R2 as <-. eapply Forall2_impl; [|exact F]. intros e e'. unfold renamed. cbn.
    destruct (str_eqb_spec (ve_qualifier e) q1) as [E1|E1]; [intros ->; cbn; intuition congruence|].
    destruct (str_eqb_spec (ve_qualifier e) q2) as [E2|E2]; intros ->; cbn; intuition congruence.
Qed.
Print Assumptions C32_substitution.
Print Assumptions C32_swap.
Example C32_swap_example :
  let p := ex_pool [ex_entry "A1" "a" "X"; ex_entry "A2" "b" "Y"; ex_entry "A3" "c" "Z"] in
  NoDup (map ve_qualifier (vp_pool p)) /\
  replace_value_pool [(u "A1", Some (u "A2")); (u "A2", Some (u "A1"))] None p
  = (ex_pool [ex_entry "A2" "a" "X"; ex_entry "A1" "b" "Y"; ex_entry "A3" "c" "Z"], None).
Proof.
  split; [|vm_compute; reflexivity]. repeat constructor; cbn; intuition discriminate.
Qed.

(** * C33 replace_value_pool outside of its assumptions *)
(** For every pool, mapping and merger: what has become of each entry, whether the call
    returned or raised.  Entries that are not the last one with their qualifier are never
    changed.  If the call raises, then it is a ValueError, and it comes from the first
    qualifier (in the order of first occurrence in the pool) with an invalid image:
    the qualifiers before it have been replaced, its own entry has already got its new meaning,
    the others are as before. *)
Theorem C33_any_pool mapping merger p p' x :
  replace_value_pool mapping merger p = (p', x) ->
  vp_discriminator p' = vp_discriminator p /\ vp_id p' = vp_id p /\ vp_input p' = vp_input p /\ vp_type p' = vp_type p
  /\ List.length (vp_pool p') = List.length (vp_pool p)
  /\ match x with
     | None => (forall e, In e (vp_pool p) -> valid_image (fun q => dict_get q mapping) (ve_qualifier e))
               /\ forall i e, nth_error (vp_pool p) i = Some e -> exists e', nth_error (vp_pool p') i = Some e'
                  /\ (last_of_its_qualifier (vp_pool p) i -> renamed (fun q => dict_get q mapping) merger e e')
                  /\ (~ last_of_its_qualifier (vp_pool p) i -> e' = e)
     | Some ex => ex = ValueError /\ exists t1 q t2, first_occurrences (map ve_qualifier (vp_pool p)) (t1 ++ q :: t2)
               /\ (forall q, In q t1 -> valid_image (fun q => dict_get q mapping) q)
               /\ ~ valid_image (fun q => dict_get q mapping) q
               /\ forall i e, nth_error (vp_pool p) i = Some e -> exists e', nth_error (vp_pool p') i = Some e'
                  /\ (last_of_its_qualifier (vp_pool p) i ->
                      (In (ve_qualifier e) t1 -> renamed (fun q => dict_get q mapping) merger e e')
                      /\ (ve_qualifier e = q -> e' = mkEntry q (new_meaning merger e) (ve_expression e))
                      /\ (In (ve_qualifier e) t2 -> e' = e))
                  /\ (~ last_of_its_qualifier (vp_pool p) i -> e' = e)
     end.
Proof. apply replace_value_pool_spec. Qed.
(** it raises iff some qualifier of the pool has an invalid image *)
Theorem C33_raises_iff mapping merger p :
  snd (replace_value_pool mapping merger p) = None
  <-> forall e, In e (vp_pool p) -> valid_image (fun q => dict_get q mapping) (ve_qualifier e).
Proof.
  split; [|apply replace_value_pool_valid]. destruct (replace_value_pool mapping merger p) as [p' x] eqn:R. cbn. intros ->.
  apply replace_value_pool_spec in R. apply R.
Qed.
Theorem C33_all_entries_are_renamed_refuted :
  ~ (forall mapping p p', replace_value_pool mapping None p = (p', None) ->
       Forall2 (renamed (fun q => dict_get q mapping) None) (vp_pool p) (vp_pool p')).
Proof.
  intros H. specialize (H [(u "A1", Some (u "A2"))] (ex_pool [ex_entry "A1" "a" "X"; ex_entry "A1" "b" "Y"])
    (ex_pool [ex_entry "A1" "a" "X"; ex_entry "A2" "b" "Y"])).
  assert (R : replace_value_pool [(u "A1", Some (u "A2"))] None (ex_pool [ex_entry "A1" "a" "X"; ex_entry "A1" "b" "Y"])
              = (ex_pool [ex_entry "A1" "a" "X"; ex_entry "A2" "b" "Y"], None)) by (vm_compute; reflexivity).
  specialize (H R). inversion H as [|? ? ? ? K]. vm_compute in K. discriminate.
Qed.
Theorem C33_atomic_refuted :
  ~ (forall mapping p p' x, replace_value_pool mapping None p = (p', Some x) -> p' = p).
Proof.
  intros H. specialize (H [(u "A1", Some (u "B1")); (u "A2", Some (u ""))] (ex_pool [ex_entry "A1" "a" "X"; ex_entry "A2" "b" "Y"])
    (ex_pool [ex_entry "B1" "a" "X"; ex_entry "A2" "b" "Y"]) ValueError).
  assert (R : replace_value_pool [(u "A1", Some (u "B1")); (u "A2", Some (u ""))] None (ex_pool [ex_entry "A1" "a" "X"; ex_entry "A2" "b" "Y"])
              = (ex_pool [ex_entry "B1" "a" "X"; ex_entry "A2" "b" "Y"], Some ValueError)) by (vm_compute; reflexivity).
  specialize (H R). vm_compute in H. discriminate.
Qed.
Print Assumptions C33_any_pool.
Print Assumptions C33_raises_iff.
Print Assumptions C33_all_entries_are_renamed_refuted.
Print Assumptions C33_atomic_refuted.

(** * C35 has_value_pool_which_is_subset_of *)
Theorem C35_list p entries :
  has_value_pool_which_is_subset_of p entries = true <-> forall e, In e (vp_pool p) -> In (ve_qualifier e) entries.
Proof.
  unfold has_value_pool_which_is_subset_of. rewrite forallb_forall. split; intros H e He; specialize (H e He).
  - apply existsb_exists in H as (x & Hx & E). apply str_eqb_eq in E as ->. exact Hx.
  - apply existsb_exists. exists (ve_qualifier e). split; [exact H|apply str_eqb_refl].
Qed.
Theorem C35_iterator p items :
  has_value_pool_which_is_subset_of_iterator p items = true <-> subsequence (map ve_qualifier (vp_pool p)) items.
Proof. apply subset_of_iterator_spec. Qed.
(** so for an iterator the answer depends on the order *)
Theorem C35_iterator_like_list_refuted :
  ~ (forall p items, has_value_pool_which_is_subset_of_iterator p items = has_value_pool_which_is_subset_of p items).
Proof.
  intros H. specialize (H (ex_pool [ex_entry "A1" "a" "X"; ex_entry "A2" "b" "Y"]) [u "A2"; u "A1"]).
  vm_compute in H. discriminate.
Qed.
(** but True for an iterator implies True for the list of its items *)
Theorem C35_iterator_true p items :
  has_value_pool_which_is_subset_of_iterator p items = true -> has_value_pool_which_is_subset_of p items = true.
Proof.
  rewrite C35_iterator, C35_list. intros H e He. apply (in_map ve_qualifier) in He.
  induction H as [l|x a b H IH|x a b H IH]; [destruct He| |right; auto].
  destruct He as [-> |He]; [now left|right; auto].
Qed.
Print Assumptions C35_list.
Print Assumptions C35_iterator.
Print Assumptions C35_iterator_like_list_refuted.
Print Assumptions C35_iterator_true.
Example C35_example :
  has_value_pool_which_is_subset_of_iterator (ex_pool [ex_entry "A1" "a" "X"; ex_entry "A2" "b" "Y"]) [u "A1"; u "B"; u "A2"] = true
  /\ has_value_pool_which_is_subset_of (ex_pool [ex_entry "A1" "a" "X"; ex_entry "A2" "b" "Y"]) [u "A2"; u "A1"] = true
  /\ has_value_pool_which_is_subset_of (ex_pool [ex_entry "A1" "a" "X"; ex_entry "A2" "b" "Y"]) [u "A2"] = false.
Proof. repeat split; vm_compute; reflexivity. Qed.
