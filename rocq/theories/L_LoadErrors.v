(** The exceptions of loading. *)
From Coq Require Import Ascii String List NArith ZArith Bool.
From Verif Require Import PyBase PyStr PyRe M_Components M_Ahb M_Sgh M_Schema
  L_Base L_Validators L_FlatAhb L_ValuePool L_Load L_Reorder.
Import ListNotations.
Local Open Scope list_scope.

Definition mild {A} (r : result A) : Prop := forall e, r = Raise e -> e = ValidationError \/ e = ValueError \/ e = TypeError.
Lemma mild_ok {A} (a : A) : mild (Ok a).
Proof. intros e [=]. Qed.
Lemma mild_validation {A} : mild (@Raise A ValidationError).
Proof. intros e [= <-]. auto. Qed.
Lemma mild_value {A} : mild (@Raise A ValueError).
Proof. intros e [= <-]. auto. Qed.
Lemma mild_type {A} : mild (@Raise A TypeError).
Proof. intros e [= <-]. auto. Qed.
Lemma mild_bind {A B} (r : result A) (k : A -> result B) : mild r -> (forall a, mild (k a)) -> mild (bind r k).
Proof. intros H K e. destruct r as [a|e']; cbn [bind]; [apply K|intros [= <-]; now apply H]. Qed.
Lemma mild_both {A B} (a : result A) (b : result B) : mild a -> mild b -> mild (both a b).
Proof.
  intros Ha Hb e. unfold both. destruct a as [x|ea]; [destruct b as [y|eb]; [discriminate|intros [= <-]; now apply Hb]|].
  destruct (Ha ea eq_refl) as [-> |[-> | ->]]; [destruct b as [y|eb]; intros [= <-]; auto|intros [= <-]; auto..].
Qed.
Lemma mild_check b e : mild (@Raise unit e) -> mild (check b e).
Proof. intros H. unfold check. destruct b; [apply mild_ok|exact H]. Qed.
Lemma mild_get {A} (f : json -> result A) m k o : (forall j, mild (f j)) -> mild m -> mild (get_with f m k o).
Proof. intros Hf Hm. rewrite get_with_dict. destruct (dict_get k o); auto. Qed.
Lemma mild_nonnull {A} (f : json -> result A) j : mild (f j) -> mild (nonnull f j).
Proof. intros H. destruct j; cbn [nonnull]; auto using mild_validation. Qed.
Lemma mild_some {A} (r : result A) : mild r -> mild (match r with Ok a => Ok (Some a) | Raise e => Raise e end).
Proof. intros H. destruct r as [a|e]; [apply mild_ok|]. intros e' [= <-]. now apply H. Qed.
Lemma mild_nullable {A} (f : json -> result A) j : mild (f j) -> mild (nullable f j).
Proof. intros H. destruct j; cbn [nullable]; auto using mild_ok, mild_some. Qed.
Lemma mild_present {A} (f : json -> result A) j : mild (f j) -> mild (present f j).
Proof. unfold present. apply mild_some. Qed.
Lemma mild_items {A} (f : json -> result A) l : Forall (fun j => mild (f j)) l -> mild (load_items f l).
Proof.
  induction 1 as [|j l H _ IH]; cbn [load_items]; [apply mild_ok|].
  pose proof (mild_both _ _ (mild_nonnull f j H) IH) as B. destruct (both (nonnull f j) (load_items f l)) as [[a r]|e]; [apply mild_ok|].
  intros e' [= <-]. now apply B.
Qed.
Lemma mild_list {A} (f : json -> result A) j : (forall x, mild (f x)) -> mild (load_list f j).
Proof. intros H. destruct j; cbn [load_list]; try apply mild_validation. apply mild_items. apply Forall_forall. auto. Qed.
Lemma mild_str j : mild (load_str j).
Proof. destruct j; cbn; auto using mild_ok, mild_validation. Qed.
Lemma mild_uuid j : mild (load_uuid j).
Proof. destruct j; cbn; auto using mild_ok, mild_validation. destruct (uuid_of_str s); auto using mild_ok, mild_validation. Qed.
Lemma mild_int j : mild (load_int j).
Proof.
  destruct j as [| | |[z|]|s| |]; cbn; auto using mild_ok, mild_validation. destruct (py_int 10 s); auto using mild_ok, mild_validation.
Qed.
Lemma mild_load_type ca j : mild (load_type ca j).
Proof.
  destruct j; cbn; auto using mild_ok, mild_validation.
  destruct (str_eqb _ _); [apply mild_ok|]. destruct (str_eqb _ _); [apply mild_ok|]. destruct (str_eqb _ _); [apply mild_ok|].
  destruct (ca s) as [[]|]; auto using mild_ok, mild_validation.
Qed.
Lemma mild_not_blank v : mild (check_not_blank v).
Proof. intros e H. apply check_not_blank_raise in H. auto. Qed.
Lemma mild_is_str v : mild (check_is_str v).
Proof. destruct v; [apply mild_ok|apply mild_type]. Qed.
Lemma mild_re r s : mild (check_re r s).
Proof. intros e H. apply check_re_raise in H. auto. Qed.
Lemma mild_qualifier v : mild (check_is_edifact_qualifier v).
Proof. intros e H. apply check_qualifier_raise in H. auto. Qed.
Lemma mild_optional {A} (v : A -> result unit) o : (forall a, mild (v a)) -> mild (check_optional v o).
Proof. intros H. destruct o; cbn; [apply H|apply mild_ok]. Qed.
Lemma mild_argument {A} (o : option A) : mild (argument o).
Proof. destruct o; [apply mild_ok|apply mild_type]. Qed.
Lemma mild_check_type d t : mild (check_type d t).
Proof. destruct t as [[t| |]|]; cbn; auto using mild_ok, mild_type. Qed.
Lemma mild_flat_lines ls : mild (check_flat_lines ls).
Proof. intros e H. apply check_flat_lines_raise in H. auto. Qed.
Ltac mild_tac := repeat first
  [ apply mild_ok | apply mild_validation | apply mild_type | apply mild_value
  | apply mild_not_blank | apply mild_is_str | apply mild_re | apply mild_qualifier | apply mild_optional; intros
  | apply mild_argument | apply mild_check_type | apply mild_flat_lines
  | apply mild_str | apply mild_uuid | apply mild_int | apply mild_load_type
  | match goal with H : forall j, mild _ |- _ => apply H end
  | apply mild_both
  | apply mild_get; [intros|]
  | apply mild_nonnull | apply mild_nullable | apply mild_present | apply mild_list; intros
  | apply mild_check
  | apply mild_bind; [|intros; repeat match goal with x : (_ * _)%type |- _ => destruct x end] ].
Ltac mild_fields := unfold required, required_nullable, optional, optional_nullable, default_none, only_known; mild_tac.
Lemma mild_line j : mild (load_line j).
Proof. destruct j; cbn [load_line]; try apply mild_validation. mild_fields. all: unfold new_AhbLine, check_AhbLine; mild_tac. Qed.
Lemma mild_meta j : mild (load_meta j).
Proof. destruct j; cbn [load_meta]; try apply mild_validation. mild_fields. all: unfold new_Meta, check_Meta; mild_tac. Qed.
Lemma mild_flat j : mild (load_flat j).
Proof.
  pose proof mild_meta. pose proof mild_line. destruct j; cbn [load_flat]; try apply mild_validation. mild_fields. all: unfold new_FlatAhb; mild_tac.
Qed.
Lemma mild_entry j : mild (load_entry j).
Proof. destruct j; cbn [load_entry]; try apply mild_validation. mild_fields. all: unfold new_ValuePoolEntry; mild_tac. Qed.
Lemma mild_element ca j : mild (load_element ca j).
Proof.
  pose proof mild_entry. destruct j; cbn [load_element]; try apply mild_validation; try apply mild_type.
  destruct (str_in _ _).
  - unfold load_pool, load_common. mild_fields. all: unfold check_data_element, new_ValuePool, check_data_element; mild_tac.
  - unfold load_free_text, load_common. mild_fields. all: unfold check_data_element, new_FreeText, check_data_element; mild_tac.
Qed.
Lemma mild_segment ca j : mild (load_segment ca j).
Proof.
  pose proof (mild_element ca). destruct j; cbn [load_segment]; try apply mild_validation. mild_fields. all: unfold new_Segment; mild_tac.
Qed.
Lemma mild_sgh j : mild (load_sgh j) /\ (forall l, j = JList l -> mild (load_items load_sgh l)).
Proof.
  induction j as [|b|z|t|s|l IH|o IH] using json_induction; try (split; [apply mild_validation|discriminate]).
  - split; [apply mild_validation|]. intros l0 [= <-]. apply mild_items. eapply Forall_impl; [|exact IH]. intros j [H _]. exact H.
  - split; [|discriminate]. cbn [load_sgh].
    assert (M : mild (get_with (fun v => match v with
                                | JNull => Ok (Some None)
                                | JList l => match load_items load_sgh l with Ok x => Ok (Some (Some x)) | Raise e => Raise e end
                                | _ => Raise ValidationError
                                end) (Ok None) (u "sub_hierarchy") o)).
    { rewrite get_with_dict. destruct (dict_get (u "sub_hierarchy") o) as [v|] eqn:G; [|apply mild_ok].
      apply dict_get_In in G. rewrite Forall_forall in IH. destruct (IH _ G) as [_ I]. cbn [snd] in I.
      destruct v as [| | | | |l|]; try apply mild_validation; [apply mild_ok|].
      specialize (I l eq_refl). destruct (load_items load_sgh l) as [x|e]; [apply mild_ok|]. intros e' [= <-]. now apply I. }
    apply mild_bind; [apply mild_both; [apply mild_both; [|exact M]|]|]; [mild_fields..|].
    intros [[[k op] subs] x]. mild_tac.
Qed.
Lemma mild_group ca j : mild (load_group ca j) /\ (forall l, j = JList l -> mild (load_items (load_group ca) l)).
Proof.
  pose proof (mild_segment ca).
  induction j as [|b|z|t|s|l IH|o IH] using json_induction; try (split; [apply mild_validation|discriminate]).
  - split; [apply mild_validation|]. intros l0 [= <-]. apply mild_items. eapply Forall_impl; [|exact IH]. intros j [H' _]. exact H'.
  - split; [|discriminate]. cbn [load_group].
    assert (M : mild (get_with (fun v => match v with
                                | JNull => Ok None
                                | JList l => match load_items (load_group ca) l with Ok x => Ok (Some x) | Raise e => Raise e end
                                | _ => Raise ValidationError
                                end) (Ok None) (u "segment_groups") o)).
    { rewrite get_with_dict. destruct (dict_get (u "segment_groups") o) as [v|] eqn:G; [|apply mild_ok].
      apply dict_get_In in G. rewrite Forall_forall in IH. destruct (IH _ G) as [_ I]. cbn [snd] in I.
      destruct v as [| | | | |l|]; try apply mild_validation; [apply mild_ok|]. apply mild_some. exact (I l eq_refl). }
    apply mild_bind; [apply mild_both; [apply mild_both; [|exact M]|]|]; mild_fields.
    destruct a as [[[[d e] ss] gs] x]. unfold new_SegmentGroup. mild_tac.
Qed.
Lemma mild_deep ca j : mild (load_deep ca j).
Proof.
  pose proof mild_meta. assert (forall j, mild (load_group ca j)) by (intros k; apply mild_group).
  destruct j; cbn [load_deep]; try apply mild_validation. mild_fields.
Qed.
