(** Elementary facts: equality tests, Python lists and results. *)
From Coq Require Import List NArith ZArith Bool Lia.
From Verif Require Import PyBase PyUni PyStr M_Components M_Ahb M_Sgh M_Navigation.
Import ListNotations.

(** ** equality tests decide equality *)
Lemma str_eqb_eq a b : str_eqb a b = true <-> a = b.
Proof.
  revert b; induction a as [|x a IH]; intros [|y b]; cbn [str_eqb]; try (split; congruence).
  rewrite andb_true_iff, N.eqb_eq, IH. split; [intros [-> ->]|intros [=]]; auto.
Qed.

Lemma opt_eqb_eq {A} (eqb : A -> A -> bool) (H : forall x y, eqb x y = true <-> x = y) a b :
  opt_eqb eqb a b = true <-> a = b.
Proof.
  destruct a as [x|], b as [y|]; cbn [opt_eqb]; try (split; congruence).
  rewrite H. split; congruence.
Qed.

Lemma ostr_eqb_eq a b : ostr_eqb a b = true <-> a = b.
Proof. apply opt_eqb_eq, str_eqb_eq. Qed.

Lemma list_eqb_eq {A} (eqb : A -> A -> bool) (H : forall x y, eqb x y = true <-> x = y) a b :
  list_eqb eqb a b = true <-> a = b.
Proof.
  revert b; induction a as [|x a IH]; intros [|y b]; cbn [list_eqb]; try (split; congruence).
  rewrite andb_true_iff, H, IH. split; [intros [-> ->]|intros [=]]; auto.
Qed.

Lemma eqb_false {A} (eqb : A -> A -> bool) (H : forall x y, eqb x y = true <-> x = y) a b :
  eqb a b = false <-> a <> b.
Proof. rewrite <- H. destruct (eqb a b); split; congruence. Qed.

Lemma str_eqb_refl a : str_eqb a a = true.
Proof. now apply str_eqb_eq. Qed.
Lemma ostr_eqb_refl a : ostr_eqb a a = true.
Proof. now apply ostr_eqb_eq. Qed.
Lemma str_eqb_neq a b : str_eqb a b = false <-> a <> b.
Proof. apply eqb_false, str_eqb_eq. Qed.
Lemma ostr_eqb_neq a b : ostr_eqb a b = false <-> a <> b.
Proof. apply eqb_false, ostr_eqb_eq. Qed.
Lemma str_eqb_spec a b : reflect (a = b) (str_eqb a b).
Proof. apply iff_reflect. symmetry; apply str_eqb_eq. Qed.
Lemma ostr_eqb_spec a b : reflect (a = b) (ostr_eqb a b).
Proof. apply iff_reflect. symmetry; apply ostr_eqb_eq. Qed.
Lemma ostr_dec (a b : option pystr) : {a = b} + {a <> b}.
Proof. destruct (ostr_eqb_spec a b); auto. Qed.
Lemma str_dec (a b : pystr) : {a = b} + {a <> b}.
Proof. destruct (str_eqb_spec a b); auto. Qed.

Lemma existsb_eqb {A} (eqb : A -> A -> bool) (H : forall x y, eqb x y = true <-> x = y) x l :
  existsb (eqb x) l = true <-> In x l.
Proof.
  rewrite existsb_exists. split.
  - intros (y & Hy & E). apply H in E. now subst.
  - intros Hx. exists x. split; [assumption|now apply H].
Qed.
Lemma str_in_In x l : str_in x l = true <-> In x l.
Proof. apply existsb_eqb, str_eqb_eq. Qed.
Lemma ostr_in_In x l : ostr_in x l = true <-> In x l.
Proof. apply existsb_eqb, ostr_eqb_eq. Qed.
Lemma str_in_nIn x l : str_in x l = false <-> ~ In x l.
Proof. rewrite <- str_in_In. destruct (str_in x l); split; congruence. Qed.
Lemma ostr_in_nIn x l : ostr_in x l = false <-> ~ In x l.
Proof. rewrite <- ostr_in_In. destruct (ostr_in x l); split; congruence. Qed.

Ltac destr_eqb :=
  repeat rewrite andb_true_iff;
  repeat (rewrite ostr_eqb_eq || rewrite str_eqb_eq || rewrite N.eqb_eq || rewrite Z.eqb_eq
          || rewrite Bool.eqb_true_iff).

Lemma ozeqb_eq a b : opt_eqb Z.eqb a b = true <-> a = b.
Proof. apply opt_eqb_eq, Z.eqb_eq. Qed.
Lemma oneqb_eq a b : opt_eqb N.eqb a b = true <-> a = b.
Proof. apply opt_eqb_eq, N.eqb_eq. Qed.
Lemma datatype_eqb_eq a b : datatype_eqb a b = true <-> a = b.
Proof. destruct a, b; cbn; split; congruence. Qed.

Lemma level_eqb_eq a b : level_eqb a b = true <-> a = b.
Proof.
  destruct a, b; unfold level_eqb; cbn.
  rewrite !andb_true_iff, str_eqb_eq, Bool.eqb_true_iff, ozeqb_eq. split.
  - intros [[-> ->] ->]; reflexivity.
  - intros [=]; auto.
Qed.

Lemma layer_eqb_eq a b : layer_eqb a b = true <-> a = b.
Proof.
  destruct a, b; unfold layer_eqb; cbn.
  rewrite !andb_true_iff, !ostr_eqb_eq, str_eqb_eq. split.
  - intros [[-> ->] ->]; reflexivity.
  - intros [=]; auto.
Qed.

Lemma location_eqb_eq a b : location_eqb a b = true <-> a = b.
Proof.
  destruct a, b; unfold location_eqb; cbn.
  rewrite !andb_true_iff, !ostr_eqb_eq, Bool.eqb_true_iff, (list_eqb_eq _ layer_eqb_eq). split.
  - intros [[[[-> ->] ->] ->] ->]; reflexivity.
  - intros [=]; auto.
Qed.
Lemma layer_dec (a b : Layer) : {a = b} + {a <> b}.
Proof.
  destruct (layer_eqb a b) eqn:E; [left; now apply layer_eqb_eq|right].
  intros ->. assert (layer_eqb b b = true) by now apply layer_eqb_eq. congruence.
Qed.
Lemma location_eqb_refl a : location_eqb a a = true.
Proof. now apply location_eqb_eq. Qed.
Lemma location_eqb_neq a b : location_eqb a b = false <-> a <> b.
Proof. apply eqb_false, location_eqb_eq. Qed.

Lemma line_eqb_eq a b : line_eqb a b = true <-> a = b.
Proof.
  destruct a, b; unfold line_eqb; cbn.
  rewrite !andb_true_iff, !ostr_eqb_eq, oneqb_eq, ozeqb_eq. split.
  - intuition congruence.
  - intros [=]; intuition.
Qed.

Lemma entry_eqb_eq a b : entry_eqb a b = true <-> a = b.
Proof.
  destruct a, b; unfold entry_eqb; cbn. rewrite !andb_true_iff, !str_eqb_eq. split.
  - intuition congruence.
  - intros [=]; intuition.
Qed.
Lemma odt_eqb_eq a b : opt_eqb datatype_eqb a b = true <-> a = b.
Proof. apply opt_eqb_eq, datatype_eqb_eq. Qed.
Lemma freetext_eqb_eq a b : freetext_eqb a b = true <-> a = b.
Proof.
  destruct a, b; unfold freetext_eqb; cbn.
  rewrite !andb_true_iff, !str_eqb_eq, !ostr_eqb_eq, odt_eqb_eq. split.
  - intuition congruence.
  - intros [=]; intuition.
Qed.
Lemma pool_eqb_eq a b : pool_eqb a b = true <-> a = b.
Proof.
  destruct a, b; unfold pool_eqb; cbn.
  rewrite !andb_true_iff, !str_eqb_eq, !ostr_eqb_eq, odt_eqb_eq, (list_eqb_eq _ entry_eqb_eq). split.
  - intuition congruence.
  - intros [=]; intuition.
Qed.
Lemma element_eqb_eq a b : element_eqb a b = true <-> a = b.
Proof.
  destruct a, b; cbn [element_eqb]; rewrite ?freetext_eqb_eq, ?pool_eqb_eq; split; congruence.
Qed.
Lemma segment_eqb_eq a b : segment_eqb a b = true <-> a = b.
Proof.
  destruct a, b; unfold segment_eqb; cbn.
  rewrite !andb_true_iff, !str_eqb_eq, !ostr_eqb_eq, ozeqb_eq, (list_eqb_eq _ element_eqb_eq). split.
  - intuition congruence.
  - intros [=]; intuition.
Qed.

(** ** induction over nested trees *)
Section GroupInd.
  Variable P : SegmentGroup -> Prop.
  Hypothesis H : forall d e i ss gs, Forall P (olist gs) -> P (mkGroup d e i ss gs).
  Fixpoint group_ind' (g : SegmentGroup) : P g :=
    match g with
    | mkGroup d e i ss gs =>
        H d e i ss gs
          (match gs return Forall P (olist gs) with
           | None => Forall_nil P
           | Some l => (fix go (l : list SegmentGroup) : Forall P l :=
                          match l with
                          | [] => Forall_nil P
                          | x :: r => Forall_cons x (group_ind' x) (go r)
                          end) l
           end)
    end.
End GroupInd.

Section SghInd.
  Variable P : Sgh -> Prop.
  Hypothesis H : forall k o subs, Forall P (olist subs) -> P (mkSgh k o subs).
  Fixpoint sgh_ind' (h : Sgh) : P h :=
    match h with
    | mkSgh k o subs =>
        H k o subs
          (match subs return Forall P (olist subs) with
           | None => Forall_nil P
           | Some l => (fix go (l : list Sgh) : Forall P l :=
                          match l with
                          | [] => Forall_nil P
                          | x :: r => Forall_cons x (sgh_ind' x) (go r)
                          end) l
           end)
    end.
End SghInd.

Lemma group_eqb_eq a : forall b, group_eqb a b = true <-> a = b.
Proof.
  induction a as [d e i ss gs IH] using group_ind'. intros [d' e' i' ss' gs'].
  cbn [group_eqb].
  rewrite !andb_true_iff, !str_eqb_eq, ozeqb_eq,
    (opt_eqb_eq _ (list_eqb_eq _ segment_eqb_eq)).
  destruct gs as [l|], gs' as [l'|]; cbn [olist] in IH.
  - match goal with |- context [?f l l' = true] => assert (Hl : f l l' = true <-> l = l') end.
    { revert l'. induction IH as [|x l Hx Hl IHl]; intros [|y l']; try (split; congruence).
      rewrite andb_true_iff, Hx, IHl. split; [intros [-> ->]|intros [=]]; auto. }
    rewrite Hl. split; [intros [[[[-> ->] ->] ->] ->]; reflexivity|intros [=]; intuition].
  - split; [intros [_ ?]; congruence|intros [=]].
  - split; [intros [_ ?]; congruence|intros [=]].
  - split; [intros [[[[-> ->] ->] ->] _]; reflexivity|intros [=]; intuition].
Qed.

(** ** results *)
Lemma bind_ok {A B} (r : result A) (k : A -> result B) b :
  bind r k = Ok b <-> exists a, r = Ok a /\ k a = Ok b.
Proof.
  destruct r as [a|e]; cbn [bind]; split.
  - intros E. now exists a.
  - intros (a' & [= <-] & E). exact E.
  - congruence.
  - intros (a' & [=] & _).
Qed.
Lemma check_ok b e x : check b e = Ok x <-> b = true.
Proof. destruct x, b; cbn; split; congruence. Qed.
Lemma check_raise b e e' : check b e = Raise e' <-> b = false /\ e = e'.
Proof. destruct b; cbn; split; try congruence; intuition congruence. Qed.

Lemma foldM_app {A S} (f : S -> A -> result S) l1 l2 s :
  foldM f s (l1 ++ l2) = (let* s' := foldM f s l1 in foldM f s' l2).
Proof.
  revert s; induction l1 as [|a l1 IH]; intros s; cbn [foldM app bind]; [reflexivity|].
  destruct (f s a) as [s'|e]; cbn [bind]; [apply IH|reflexivity].
Qed.

Lemma mapM_ok {A B} (f : A -> result B) l bs :
  mapM f l = Ok bs <-> Forall2 (fun a b => f a = Ok b) l bs.
Proof.
  revert bs; induction l as [|a l IH]; intros bs; cbn [mapM].
  - split; [intros [= <-]; constructor|intros H; inversion H; reflexivity].
  - rewrite bind_ok. split.
    + intros (b & Eb & E). apply bind_ok in E as (r & Er & [= <-]).
      constructor; [exact Eb|now apply IH].
    + intros H; inversion H as [|? b ? r Hb Hr]; subst. exists b. split; [exact Hb|].
      apply bind_ok. exists r. split; [now apply IH|reflexivity].
Qed.

Lemma for_each_ok {A} (f : A -> result unit) l :
  for_each f l = Ok tt <-> Forall (fun a => f a = Ok tt) l.
Proof.
  induction l as [|a l IH]; cbn [for_each].
  - split; auto.
  - rewrite bind_ok. split.
    + intros ([] & E & E'). constructor; [exact E|now apply IH].
    + intros H; inversion H; subst. exists tt. split; [assumption|now apply IH].
Qed.

Lemma first_of_ok {A} (l : list A) a : first_of l = Ok a <-> exists r, l = a :: r.
Proof.
  destruct l as [|x r]; cbn; split; try congruence.
  - intros (r & [=]).
  - intros [= ->]. eauto.
  - intros (r' & [= -> _]). reflexivity.
Qed.

Lemma last_of_app {A} (l : list A) a : last_of (l ++ [a]) = Ok a.
Proof.
  induction l as [|x l IH]; [reflexivity|].
  cbn [app]. destruct l; [reflexivity|exact IH].
Qed.
Lemma last_of_ok {A} (l : list A) a : last_of l = Ok a <-> exists r, l = r ++ [a].
Proof.
  split.
  - destruct l as [|y l]; [discriminate|].
    assert (Hn : y :: l <> []) by discriminate.
    destruct (exists_last Hn) as (r & x & ->).
    rewrite last_of_app. intros [= ->]. eauto.
  - intros (r & ->). apply last_of_app.
Qed.
Lemma last_of_raise {A} (l : list A) e : last_of l = Raise e <-> l = [] /\ e = ValueError.
Proof.
  destruct l as [|x l]; [cbn; intuition congruence|].
  assert (Hn : x :: l <> []) by discriminate.
  destruct (exists_last Hn) as (r & y & E).
  rewrite E, last_of_app. split; [congruence|intros [Hr _]].
  destruct r; discriminate.
Qed.

(** ** lists *)
Lemma Forall_flat_map {A B} (P : B -> Prop) (f : A -> list B) l :
  Forall P (flat_map f l) <-> Forall (fun a => Forall P (f a)) l.
Proof.
  induction l as [|a l IH]; cbn [flat_map]; [split; auto|].
  rewrite Forall_app, IH. split; [intros []; auto|intros H; inversion H; auto].
Qed.

Lemma removelast_app1 {A} (l : list A) a : removelast (l ++ [a]) = l.
Proof. rewrite removelast_app by discriminate. cbn. apply app_nil_r. Qed.

Lemma list_set_length {A} i (x : A) l : length (list_set i x l) = length l.
Proof. revert i; induction l as [|y l IH]; intros [|i]; cbn; auto. Qed.
Lemma list_set_nth {A} i (x : A) l j :
  nth_error (list_set i x l) j = if Nat.eqb i j then (if Nat.ltb i (length l) then Some x else None) else nth_error l j.
Proof.
  revert i j; induction l as [|y l IH]; intros i j; cbn [list_set].
  - destruct i, (Nat.eqb _ j); try reflexivity; destruct j; reflexivity.
  - destruct i as [|i], j as [|j]; cbn [list_set nth_error Nat.eqb]; try reflexivity.
    rewrite IH. cbn [length]. destruct (Nat.eqb i j); reflexivity.
Qed.

Lemma is_none_true {A} (o : option A) : is_none o = true <-> o = None.
Proof. destruct o; cbn; split; congruence. Qed.
Lemma is_some_true {A} (o : option A) : is_some o = true <-> exists a, o = Some a.
Proof. destruct o; cbn; split; try congruence; eauto. intros [? [=]]. Qed.
Lemma is_some_false {A} (o : option A) : is_some o = false <-> o = None.
Proof. destruct o; cbn; split; congruence. Qed.
Lemma is_none_false {A} (o : option A) : is_none o = false <-> exists a, o = Some a.
Proof. destruct o; cbn; split; try congruence; eauto. intros [? [=]]. Qed.

Lemma flat_map_ext_in {A B} (f g : A -> list B) l : (forall a, In a l -> f a = g a) -> flat_map f l = flat_map g l.
Proof.
  induction l as [|a l IH]; cbn; intros H; [reflexivity|]. rewrite H by now left. f_equal. apply IH. intros b Hb. apply H. now right.
Qed.

Lemma Forall2_impl {A B} (P Q : A -> B -> Prop) a b : (forall x y, P x y -> Q x y) -> Forall2 P a b -> Forall2 Q a b.
Proof. intros I. induction 1; constructor; auto. Qed.
