(** Lemmas about finding the element of a location in a MIG. *)
From Coq Require Import Ascii String List NArith ZArith Bool Lia Arith Sorted.
From Verif Require Import PyBase PyStr PyRe M_Components M_Navigation M_Xml M_MigXml S_Text L_Base L_Str L_ValuePool S_MigXml L_Qualifiers L_Names L_MigTree.
Import ListNotations.
Local Open Scope list_scope.

Lemma fine_readable root key p : fine root key p <-> readable_at root p key.
Proof.
  unfold fine, keys_at, readable_at, element_at. split.
  - intros (l & H) e A. apply el_at_position in A. rewrite A in H. now apply qualifier_set_ok in H as [R _].
  - intros R. destruct (el_at root p) as [e|] eqn:A; [|eexists; reflexivity]. apply el_at_position in A. specialize (R e A).
    destruct (qualifier_set key e) as [l|x] eqn:Q; [eauto|]. apply qualifier_set_raise in Q as [_ Q]. contradiction.
Qed.
Lemma has_mentions root key q p : fine root key p -> has root key q p = true <-> mentions_at root p key q.
Proof.
  intros (l & H). rewrite (has_ok root key q p l H). unfold keys_at, element_at in H. unfold mentions_at. destruct (el_at root p) as [e|] eqn:A.
  - apply qualifier_set_ok in H as [_ H]. apply el_at_position in A. destruct q as [q|]; cbn [oqualifier_in].
    + rewrite str_in_In, H. split.
      * intros M. exists e, q. auto.
      * intros (e' & v & A' & [= <-] & M). apply el_at_position in A, A'. rewrite A in A'. injection A' as <-. exact M.
    + split; [discriminate|]. intros (e' & v & _ & ? & _). discriminate.
  - injection H as <-. split; [destruct q; discriminate|]. intros (e & v & A' & _). apply el_at_position in A'. congruence.
Qed.
Lemma has_not_mentions root key q p : fine root key p -> has root key q p = false <-> ~ mentions_at root p key q.
Proof. intros F. rewrite <- (has_mentions root key q p F). destruct (has root key q p); split; intros; try congruence; exfalso; auto. Qed.

Lemma forall_below (P : pos -> Prop) p is : Forall P (below p is) <-> Forall (fun i => P (p ++ [i])) is.
Proof. apply Forall_map. Qed.
Lemma fine_below root key p is : Forall (fine root key) (below p is) <-> all_readable root p key is.
Proof. rewrite forall_below. unfold all_readable. split; apply Forall_impl; intros i; apply fine_readable. Qed.
Lemma has_none_below root q p is : all_readable root p (u "key") is ->
  Forall (fun x => has root (u "key") q x = false) (below p is) <-> none_mentioning root p q is.
Proof.
  intros R. rewrite forall_below. unfold none_mentioning, all_readable in *. rewrite !Forall_forall in *.
  split; intros H i Hi; specialize (H i Hi); specialize (R i Hi); apply fine_readable in R; now apply (has_not_mentions root (u "key") q _ R).
Qed.
Lemma below_split p is : forall a c b, below p is = a ++ c :: b -> exists a' i b', is = a' ++ i :: b' /\ a = below p a' /\ c = p ++ [i] /\ b = below p b'.
Proof.
  unfold below. intros a c b H. apply map_eq_app in H as (a' & r & -> & <- & H). apply map_eq_cons in H as (i & b' & -> & <- & <-). eauto 8.
Qed.
Lemma below_app p a b : below p (a ++ b) = below p a ++ below p b.
Proof. apply map_app. Qed.
Lemma below_nth p is n i : nth_error is n = Some i -> nth_error (below p is) n = Some (p ++ [i]).
Proof. intros H. exact (map_nth_error (fun i => p ++ [i]) n is H). Qed.
Lemma nth_middle {A} (a : list A) c b : nth_error (a ++ c :: b) (List.length a) = Some c.
Proof. rewrite nth_error_app2 by lia. now rewrite Nat.sub_diag. Qed.
Lemma sorted_nodup (l : list nat) : StronglySorted lt l -> NoDup l.
Proof.
  induction 1 as [|x l So IH F]; constructor; [|exact IH]. intros H. rewrite Forall_forall in F. specialize (F x H). lia.
Qed.
Lemma nodup_middle {A} (a b a' b' : list A) x : NoDup (a ++ x :: b) -> a ++ x :: b = a' ++ x :: b' -> a = a' /\ b = b'.
Proof.
  revert a'; induction a as [|z a IH]; intros [|z' a'] N E; cbn in *.
  - injection E as ->. auto.
  - injection E as <- ->. inversion N as [|? ? Hn _]. exfalso. apply Hn. apply in_or_app. right. now left.
  - injection E as -> <-. inversion N as [|? ? Hn _]. exfalso. apply Hn. apply in_or_app. right. now left.
  - injection E as <- E. inversion N as [|? ? _ N']. destruct (IH a' N' E) as [-> ->]. auto.
Qed.
Lemma ref_of y : ostr_or (ly_key y) (u "UNH") = ref_of_layer y.
Proof. unfold ostr_or, ref_of_layer. destruct (ly_key y) as [[|]|]; reflexivity. Qed.

Lemma all_readable_app root p key a b : all_readable root p key (a ++ b) <-> all_readable root p key a /\ all_readable root p key b.
Proof. apply Forall_app. Qed.

Lemma first_has_below root p y is n : all_readable root p (u "key") is ->
  first_has root (u "key") (ly_qualifier y) (below p is) n <-> exists a i b, is = a ++ i :: b /\ n = List.length a /\ first_mentioning root p (ly_qualifier y) is i
     /\ mentions_at root (p ++ [i]) (u "key") (ly_qualifier y) /\ none_mentioning root p (ly_qualifier y) a.
Proof.
  intros R. split.
  - intros (a & c & b & E & -> & Hc & F). apply below_split in E as (a' & i & b' & -> & -> & -> & ->).
    apply all_readable_app in R as [Ra R]. inversion R as [|? ? Ri Rb]; subst. apply fine_readable in Ri.
    apply (has_mentions _ _ _ _ Ri) in Hc. apply has_none_below in F; [|exact Ra].
    exists a', i, b'. unfold below. rewrite map_length. repeat split; auto. exists a', b'. auto.
  - intros (a & i & b & -> & -> & _ & M & F). apply all_readable_app in R as [Ra R]. inversion R as [|? ? Ri Rb]; subst. apply fine_readable in Ri.
    exists (below p a), (p ++ [i]), (below p b). rewrite below_app. split; [reflexivity|]. split; [unfold below; now rewrite map_length|]. split.
    + now apply (has_mentions _ _ _ _ Ri).
    + now apply has_none_below.
Qed.

Section Search.
  Context (root : element).
  Notation ck p ref := (kids root p (tagged (u "class") (u "ref") ref)).

  Lemma classes_kids p ref is : classes root p ref is <-> is = ck p ref.
  Proof. apply children_with_kids. Qed.

  Lemma xpath_class fq p ref : fq <> [] -> xpath root fq = [p] -> xpath root (fq ++ [class_step ref]) = below p (ck p ref).
  Proof. intros N X. rewrite (xpath_snoc_single _ _ _ _ N X). apply select_attr. Qed.
  Lemma xpath_class_at fq p ref n i : fq <> [] -> xpath root fq = [p] -> nth_error (ck p ref) n = Some i -> xpath root (fq ++ [class_step_at ref (S n)]) = [p ++ [i]].
  Proof. intros N X H. rewrite (xpath_snoc_single _ _ _ _ N X). unfold class_step_at. rewrite select_attr_at. now rewrite H. Qed.
  Lemma xpath_field fq p id : fq <> [] -> xpath root fq = [p] ->
    xpath root (fq ++ [field_step id]) = below p (kids root p (tagged (u "field") (u "meta.id") id)).
  Proof. intros N X. rewrite (xpath_snoc_single _ _ _ _ N X). apply select_attr. Qed.
  Lemma snoc_nonempty {A} (l : list A) x : l ++ [x] <> [].
  Proof. destruct l; discriminate. Qed.

  Definition unreadable_document : Prop := exists p key, (key = u "key" \/ key = u "ref") /\ ~ readable_at root p key.
  Lemma unreadable_below p key is : key = u "key" \/ key = u "ref" -> ~ Forall (fine root key) (below p is) -> unreadable_document.
  Proof.
    intros K N. revert N. induction is as [|i is IH]; intros N; [exfalso; apply N; constructor|].
    destruct (keys_at root key (p ++ [i])) as [l|x] eqn:E.
    - apply IH. intros F. apply N. constructor; [exists l; exact E|exact F].
    - exists (p ++ [i]), key. split; [exact K|]. intros R. apply fine_readable in R as (l & R). congruence.
  Qed.

  Inductive steps_to (p : pos) (y : Layer) (i : nat) : Prop :=
  | only_step : classes root p (ref_of_layer y) [i] -> steps_to p y i
  | choice_step is : classes root p (ref_of_layer y) is -> List.length is >= 2 ->
      first_mentioning root p (ly_qualifier y) is i -> all_readable root p (u "key") is -> steps_to p y i.

  Lemma layer_step_ok fq c p y i : fq <> [] -> xpath root fq = [p] -> steps_to p y i ->
    exists fq', layer_iteration root (fq, c) y = Ok (fq', Some [p ++ [i]]) /\ fq' <> [] /\ xpath root fq' = [p ++ [i]].
  Proof.
    intros N X H. unfold layer_iteration. rewrite ref_of, (xpath_class _ _ _ N X). destruct H as [H|is H L (a & b & E & M & F) R].
    - apply classes_kids in H. rewrite <- H. exists (fq ++ [class_step (ref_of_layer y)]). cbn [below map]. split; [reflexivity|]. split; [apply snoc_nonempty|].
      rewrite (xpath_class _ _ _ N X), <- H. reflexivity.
    - apply classes_kids in H. rewrite <- H.
      assert (C : get_candidate_index_from_key root y (below p is) = Ok (List.length a)).
      { apply candidate_index_spec. split; [now apply fine_below|]. apply first_has_below; [exact R|]. exists a, i, b. repeat split; auto. exists a, b. auto. }
      assert (Hn : nth_error is (List.length a) = Some i) by (rewrite E; apply nth_middle).
      exists (fq ++ [class_step_at (ref_of_layer y) (S (List.length a))]).
      split; [|split; [apply snoc_nonempty|apply xpath_class_at; [exact N|exact X|now rewrite <- H]]].
      clear E M F. destruct is as [|i1 [|i2 is]]; cbn [List.length] in L; [lia|lia|].
      change (below p (i1 :: i2 :: is)) with ((p ++ [i1]) :: (p ++ [i2]) :: below p is) in *. cbv zeta. rewrite C. cbn [bind].
      apply (below_nth p) in Hn. change (below p (i1 :: i2 :: is)) with ((p ++ [i1]) :: (p ++ [i2]) :: below p is) in Hn. now rewrite Hn.
  Qed.
  Lemma layer_step_conv fq c p y r : fq <> [] -> xpath root fq = [p] -> layer_iteration root (fq, c) y = Ok r -> exists i, steps_to p y i.
  Proof.
    intros N X. unfold layer_iteration. rewrite ref_of, (xpath_class _ _ _ N X). remember (ck p (ref_of_layer y)) as is eqn:E. apply classes_kids in E.
    destruct is as [|i1 [|i2 is]].
    - discriminate.
    - intros _. exists i1. now apply only_step.
    - change (below p (i1 :: i2 :: is)) with ((p ++ [i1]) :: (p ++ [i2]) :: below p is). cbv zeta. intros H. apply bind_ok in H as (n & C & _).
      change ((p ++ [i1]) :: (p ++ [i2]) :: below p is) with (below p (i1 :: i2 :: is)) in C.
      apply candidate_index_spec in C as [R C]. apply fine_below in R. apply first_has_below in C as (a & i & b & _ & _ & FM & _); [|exact R].
      exists i. eapply choice_step; eauto. cbn; lia.
  Qed.
  Lemma layer_step_raise fq c p y x : fq <> [] -> xpath root fq = [p] -> layer_iteration root (fq, c) y = Raise x ->
    x = ValueError \/ (x = IndexError /\ unreadable_document).
  Proof.
    intros N X. unfold layer_iteration. rewrite ref_of, (xpath_class _ _ _ N X). remember (ck p (ref_of_layer y)) as is eqn:E.
    destruct is as [|i1 [|i2 is]].
    - intros [= <-]. auto.
    - discriminate.
    - change (below p (i1 :: i2 :: is)) with ((p ++ [i1]) :: (p ++ [i2]) :: below p is). cbv zeta. intros H.
      change ((p ++ [i1]) :: (p ++ [i2]) :: below p is) with (below p (i1 :: i2 :: is)) in H.
      destruct (get_candidate_index_from_key root y (below p (i1 :: i2 :: is))) as [n|z] eqn:C; cbn [bind] in H.
      + apply candidate_index_spec in C as [R C]. destruct C as (a & d & b & E' & -> & _). assert (Hn : nth_error (below p (i1 :: i2 :: is)) (List.length a) = Some d) by (rewrite E'; apply nth_middle). rewrite Hn in H. discriminate H.
      + injection H as <-. apply candidate_index_raise in C as [-> |[-> C]]; [auto|]. right. split; [reflexivity|]. eapply unreadable_below; [|exact C]. auto.
  Qed.
  Lemma enters_step p y ys g : enters root p (y :: ys) g <-> exists i, steps_to p y i /\ enters root (p ++ [i]) ys g.
  Proof.
    split.
    - intros H. inversion H; subst; eexists; (split; [|eassumption]); [now apply only_step|eapply choice_step; eauto].
    - intros (i & [H|is H1 H2 H3 H4] & E); [eapply the_only_class; eauto|eapply one_of_the_classes; eauto].
  Qed.

  Lemma layers_enter ys : forall fq c p g, fq <> [] -> xpath root fq = [p] -> enters root p ys g ->
    exists fq', foldM (layer_iteration root) (fq, c) ys = Ok (fq', match ys with [] => c | _ => Some [g] end) /\ fq' <> [] /\ xpath root fq' = [g].
  Proof.
    induction ys as [|y ys IH]; intros fq c p g N X H.
    - inversion H; subst. exists fq. auto.
    - apply enters_step in H as (i & St & H). destruct (layer_step_ok _ c _ _ _ N X St) as (fq' & E & N' & X').
      destruct (IH fq' (Some [p ++ [i]]) _ _ N' X' H) as (fq'' & E' & N'' & X''). exists fq''. split; [|auto]. change (foldM (layer_iteration root) (fq, c) (y :: ys)) with (let* s := layer_iteration root (fq, c) y in foldM (layer_iteration root) s ys). rewrite E. etransitivity; [exact E'|].
      destruct ys; [inversion H; reflexivity|reflexivity].
  Qed.
  Lemma layers_conv ys : forall fq c p r, fq <> [] -> xpath root fq = [p] -> foldM (layer_iteration root) (fq, c) ys = Ok r -> exists g, enters root p ys g.
  Proof.
    induction ys as [|y ys IH]; intros fq c p r N X H.
    - exists p. constructor.
    - cbn [foldM] in H. apply bind_ok in H as (s & E & H). destruct (layer_step_conv _ _ _ _ _ N X E) as (i & St).
      destruct (layer_step_ok _ c _ _ _ N X St) as (fq' & E' & N' & X'). rewrite E in E'. injection E' as ->.
      destruct (IH _ _ _ _ N' X' H) as (g & G). exists g. apply enters_step. eauto.
  Qed.
  Lemma layers_raise ys x : forall fq c p, fq <> [] -> xpath root fq = [p] -> foldM (layer_iteration root) (fq, c) ys = Raise x ->
    x = ValueError \/ (x = IndexError /\ unreadable_document).
  Proof.
    induction ys as [|y ys IH]; intros fq c p N X H; [discriminate|]. cbn [foldM] in H. destruct (layer_iteration root (fq, c) y) as [s|z] eqn:E; cbn [bind] in H.
    - destruct (layer_step_conv _ _ _ _ _ N X E) as (i & St).
      destruct (layer_step_ok _ c _ _ _ N X St) as (fq' & E' & N' & X'). rewrite E in E'. injection E' as ->. eapply IH; eassumption.
    - injection H as <-. eapply layer_step_raise; eassumption.
  Qed.

  Lemma last_layer (l : list Layer) ys y : l = ys ++ [y] -> hd_error (rev l) = Some y.
  Proof. intros ->. now rewrite rev_app_distr. Qed.
  Lemma last_layer_exists (l : list Layer) : l <> [] -> exists ys y, l = ys ++ [y].
  Proof. intros N. destruct (exists_last N) as (ys & y & ->). eauto. Qed.

  (** ** the segment *)
  Lemma segment_ok l fq g s clear : fq <> [] -> xpath root fq = [g] -> segment_class root l g s clear ->
    exists fq' c', segment_stage root l (fq, Some [g]) = Ok (fq', Some c') /\ fq' <> [] /\ xpath root fq' = [s]
      /\ (if clear then c' = [g] else List.length c' >= 2).
  Proof.
    intros N X H. unfold segment_stage. destruct H as [H|code H U C|code i H U C|code is i ys y H U C L Y (a & b & E & M & F) R|code is ys y H U C L Y NM R].
    - exists fq, [g]. destruct H as [-> | ->]; [auto|]. rewrite (proj2 (str_eqb_eq _ _) eq_refl). auto.
    - rewrite H. destruct (str_eqb_spec code (u "UNH")) as [e|_]; [contradiction|]. apply classes_kids in C. rewrite (xpath_class _ _ _ N X), <- C. exists fq, [g]. auto.
    - rewrite H. destruct (str_eqb_spec code (u "UNH")) as [e|_]; [contradiction|]. apply classes_kids in C. rewrite (xpath_class _ _ _ N X), <- C.
      exists (fq ++ [class_step code]), [g]. cbn [below map]. split; [reflexivity|]. split; [apply snoc_nonempty|]. split; [|reflexivity]. rewrite (xpath_class _ _ _ N X), <- C. reflexivity.
    - rewrite H. destruct (str_eqb_spec code (u "UNH")) as [e|_]; [contradiction|]. apply classes_kids in C. rewrite (xpath_class _ _ _ N X), <- C.
      specialize (R a b E).
      assert (S0 : first_segment_candidate root (Some y) (enumerate (below g is)) = Ok (Some (List.length a))).
      { apply first_segment_spec. exists (below g a), (g ++ [i]), (below g b). rewrite E, below_app. split; [reflexivity|].
        split; [unfold below; rewrite map_length; lia|]. apply all_readable_app in R as [Ra R]. inversion R as [|? ? Ri _]; subst.
        split; [apply fine_readable in Ri; now apply (has_mentions _ _ _ _ Ri)|]. split; [now apply has_none_below|].
        change [g ++ [i]] with (below g [i]). rewrite <- below_app. apply fine_below. apply all_readable_app. split; [exact Ra|]. constructor; [exact Ri|constructor]. }
      assert (Hn : nth_error is (List.length a) = Some i) by (rewrite E; apply nth_middle).
      exists (fq ++ [class_step_at code (S (List.length a))]), (below g is).
      split; [|split; [apply snoc_nonempty|split; [apply xpath_class_at; [exact N|exact X|now rewrite <- C]|unfold below; now rewrite map_length]]].
      rewrite (last_layer _ _ _ Y). clear E M F Hn. destruct is as [|i1 [|i2 is]]; cbn [List.length] in L; [lia|lia|].
      change (below g (i1 :: i2 :: is)) with ((g ++ [i1]) :: (g ++ [i2]) :: below g is) in *. cbv zeta. rewrite S0. reflexivity.
    - rewrite H. destruct (str_eqb_spec code (u "UNH")) as [e|_]; [contradiction|]. apply classes_kids in C. rewrite (xpath_class _ _ _ N X), <- C.
      assert (S0 : first_segment_candidate root (Some y) (enumerate (below g is)) = Ok None).
      { apply first_segment_none. split; [now apply has_none_below|now apply fine_below]. }
      rewrite (last_layer _ _ _ Y). destruct is as [|i1 [|i2 is]]; cbn [List.length] in L; [lia|lia|].
      change (below g (i1 :: i2 :: is)) with ((g ++ [i1]) :: (g ++ [i2]) :: below g is) in *. cbv zeta. rewrite S0. exists fq, [g]. auto.
  Qed.
  Lemma segment_conv l fq g r : lo_layers l <> [] -> fq <> [] -> xpath root fq = [g] -> segment_stage root l (fq, Some [g]) = Ok r ->
    exists s clear, segment_class root l g s clear.
  Proof.
    intros NL N X. destruct (last_layer_exists _ NL) as (ys & y & Y). unfold segment_stage. destruct (lo_segment l) as [code|] eqn:H.
    - destruct (str_eqb_spec code (u "UNH")) as [->|U]; [intros _; exists g, true; apply no_segment; auto|].
      rewrite (xpath_class _ _ _ N X). remember (ck g code) as is eqn:C. apply classes_kids in C. destruct is as [|i1 [|i2 is]].
      + intros _. exists g, true. eapply no_class; eauto.
      + intros _. exists (g ++ [i1]), true. eapply one_class; eauto.
      + assert (L : List.length (i1 :: i2 :: is) >= 2) by (cbn; lia). remember (i1 :: i2 :: is) as is' eqn:D.
        assert (D' : below g is' = (g ++ [i1]) :: (g ++ [i2]) :: below g is) by now rewrite D. rewrite D'. cbv zeta. rewrite <- D'. clear D D'.
        rewrite (last_layer _ _ _ Y). intros E. apply bind_ok in E as ([n|] & E & _).
        * apply first_segment_spec in E as (a & c & b & E & _ & Hc & F & R). apply below_split in E as (a' & i & b' & -> & -> & -> & ->).
          change [g ++ [i]] with (below g [i]) in R. rewrite <- below_app in R. apply fine_below in R. pose proof R as R'. apply all_readable_app in R as [Ra Ri].
          inversion Ri as [|? ? Ri' _]; subst. apply fine_readable in Ri'.
          exists (g ++ [i]), false. eapply many_classes; eauto.
          -- exists a', b'. split; [reflexivity|]. split; [now apply (has_mentions _ _ _ _ Ri')|now apply has_none_below].
          -- intros a b E. apply classes_kids in C. pose proof (proj2 (classes_kids g code _) C) as [So _]. apply sorted_nodup in So.
             destruct (nodup_middle _ _ _ _ _ So E) as [-> ->]. exact R'.
        * apply first_segment_none in E as [F R]. apply fine_below in R. apply has_none_below in F; [|exact R]. exists g, true. eapply no_mentioning_class; eauto.
    - intros _. exists g, true. apply no_segment. auto.
  Qed.
  Lemma segment_raise l fq g x : lo_layers l <> [] -> fq <> [] -> xpath root fq = [g] -> segment_stage root l (fq, Some [g]) = Raise x ->
    x = IndexError /\ unreadable_document.
  Proof.
    intros NL N X. destruct (last_layer_exists _ NL) as (ys & y & Y). unfold segment_stage. destruct (lo_segment l) as [code|] eqn:H; [|discriminate].
    destruct (str_eqb code (u "UNH")); [discriminate|]. rewrite (xpath_class _ _ _ N X). remember (ck g code) as is eqn:C. destruct is as [|i1 [|i2 is]]; [discriminate|discriminate|].
    remember (i1 :: i2 :: is) as is' eqn:D.
    assert (D' : below g is' = (g ++ [i1]) :: (g ++ [i2]) :: below g is) by now rewrite D. rewrite D'. cbv zeta. rewrite <- D'. clear D D'.
    rewrite (last_layer _ _ _ Y). intros E. destruct (first_segment_candidate root (Some y) (enumerate (below g is'))) as [o|z] eqn:F; [destruct o; discriminate|].
    cbn [bind] in E. injection E as <-. apply first_segment_raise in F as [-> F]. split; [reflexivity|]. eapply unreadable_below; [|exact F]. auto.
  Qed.

  (** ** the field *)
  Notation fk p id := (kids root p (tagged (u "field") (u "meta.id") id)).
  Lemma fields_kids p id is : children_with root p (u "field") (u "meta.id") id is <-> is = fk p id.
  Proof. apply children_with_kids. Qed.

  (* mig_xml_reader.py:174-197 *)
  Definition field_stage (l : Location) (s : list step * option (list pos)) : result pos :=
    let '(final_query_path, candidates) := s in
    let* candidates :=
      match lo_element l with
      | None => Ok candidates
      | Some id =>
          let candidates := xpath root (final_query_path ++ [field_step id]) in
          match candidates with
          | [] => Raise ValueError
          | [_] => Ok (Some candidates)
          | _ =>
              match lo_qualifier l with
              | None => Raise ValueError
              | Some qualifier =>
                  let* candidate_index := one_candidate root qualifier None (enumerate candidates) in
                  Ok (Some (firstn 1 (skipn candidate_index candidates)))
              end
          end
      end in
    match candidates with
    | None => Raise UnboundLocalError
    | Some candidates => one_of candidates
    end.

  Lemma slice_middle {A} (a : list A) c b : firstn 1 (skipn (List.length a) (a ++ c :: b)) = [c].
  Proof. rewrite skipn_app, skipn_all, Nat.sub_diag. reflexivity. Qed.
  Lemma has_ref q p : fine root (u "ref") p -> has root (u "ref") (Some q) p = true <-> mentions_at root p (u "ref") (Some q).
  Proof. apply has_mentions. Qed.

  Lemma field_many l fq s id ks q p c : fq <> [] -> xpath root fq = [s] -> lo_element l = Some id -> lo_qualifier l = Some q ->
    ks = fk s id -> List.length ks >= 2 ->
    field_stage l (fq, c) = Ok p <->
    exists k, p = s ++ [k] /\ In k ks /\ (forall k', In k' ks -> mentions_at root (s ++ [k']) (u "ref") (Some q) <-> k' = k) /\ all_readable root s (u "ref") ks.
  Proof.
    intros N X He Hq K L. pose proof (proj2 (fields_kids s id ks) K) as [So _]. apply sorted_nodup in So.
    assert (Ex : field_stage l (fq, c) = (let* n := one_candidate root q None (enumerate (below s ks)) in one_of (firstn 1 (skipn n (below s ks))))).
    { unfold field_stage. rewrite He, (xpath_field _ _ _ N X), <- K, Hq. destruct ks as [|k1 [|k2 ks]]; cbn [List.length] in L; [lia|lia|].
      remember (below s (k1 :: k2 :: ks)) as l0 eqn:E. destruct l0 as [|p1 [|p2 l0]]; [discriminate|discriminate|]. cbv zeta.
      now destruct (one_candidate root q None (enumerate (p1 :: p2 :: l0))). }
    rewrite Ex. clear Ex. split.
    - intros H. apply bind_ok in H as (n & O & H). apply one_candidate_none in O as ((a & d & b & E & -> & Hd & F) & R).
      pose proof E as E0. apply below_split in E as (a' & k & b' & -> & -> & -> & ->). cbn [plus] in H. rewrite E0, slice_middle in H. injection H as <-.
      exists k. split; [reflexivity|]. split; [apply in_or_app; right; now left|]. apply fine_below in R. split; [|exact R].
      intros k' Hk'. assert (R' : fine root (u "ref") (s ++ [k'])). { apply fine_readable. unfold all_readable in R. rewrite Forall_forall in R. now apply R. }
      rewrite <- (has_ref q _ R'). split; [|intros ->; exact Hd]. intros T. apply in_app_or in Hk' as [Hk'|[->|Hk']]; [|reflexivity|]; exfalso.
      + apply Forall_app in F as [F _]. apply forall_below in F. rewrite Forall_forall in F. rewrite (F _ Hk') in T. discriminate.
      + apply Forall_app in F as [_ F]. apply forall_below in F. rewrite Forall_forall in F. rewrite (F _ Hk') in T. discriminate.
    - intros (k & -> & Hk & M & R). apply in_split in Hk as (a & b & ->). apply bind_ok. exists (List.length (below s a)). split.
      + apply one_candidate_none. split; [|now apply fine_below]. exists (below s a), (s ++ [k]), (below s b). rewrite below_app. split; [reflexivity|]. split; [reflexivity|].
        assert (Fi : forall k', In k' (a ++ k :: b) -> fine root (u "ref") (s ++ [k'])).
        { intros k' Hk'. apply fine_readable. unfold all_readable in R. rewrite Forall_forall in R. now apply R. }
        split.
        * apply has_ref; [apply Fi|apply M; [|reflexivity]]; apply in_or_app; right; now left.
        * rewrite <- below_app. apply forall_below. apply Forall_forall. intros k' Hk'. pose proof (NoDup_remove_2 _ _ _ So) as Nk.
          assert (Hin : In k' (a ++ k :: b)) by (apply in_app_or in Hk' as [?|?]; apply in_or_app; [auto|right; now right]).
          destruct (has root (u "ref") (Some q) (s ++ [k'])) eqn:T; [|reflexivity]. exfalso. apply has_ref in T; [|now apply Fi].
          apply (M _ Hin) in T. subst k'. contradiction.
      + rewrite below_app. change (below s (k :: b)) with ((s ++ [k]) :: below s b). rewrite slice_middle. reflexivity.
  Qed.
  Lemma field_stage_spec l fq g s clear c p : fq <> [] -> xpath root fq = [s] -> (if clear : bool then c = [g] else List.length c >= 2) ->
    field_stage l (fq, Some c) = Ok p <-> match lo_element l with None => clear = true /\ p = g | Some id => field_of root l id s p end.
  Proof.
    intros N X C. destruct (lo_element l) as [id|] eqn:He.
    - remember (fk s id) as ks eqn:K. destruct (le_lt_dec 2 (List.length ks)) as [L|L].
      + destruct (lo_qualifier l) as [q|] eqn:Hq.
        * rewrite (field_many l fq s id ks q p (Some c) N X He Hq K L). split.
          -- intros (k & -> & Hk & M & R). eapply the_mentioning_field; eauto. now apply fields_kids.
          -- intros H. inversion H as [k F|ks' k q' F L' Q' Hk M R]; subst p.
             ++ apply fields_kids in F. rewrite <- K in F. rewrite <- F in L. cbn in L. lia.
             ++ apply fields_kids in F. rewrite <- K in F. subst ks'. rewrite Hq in Q'. injection Q' as <-. exists k. auto.
        * split.
          -- intros H. exfalso. unfold field_stage in H. rewrite He, (xpath_field _ _ _ N X), <- K, Hq in H. destruct ks as [|k1 [|k2 ks]]; cbn [List.length] in L; [lia|lia|].
             discriminate.
          -- intros H. inversion H as [k F|ks' k q' F L' Q' Hk M R]; subst p; [|congruence]. apply fields_kids in F. rewrite <- K in F. rewrite <- F in L. cbn in L. lia.
      + unfold field_stage. rewrite He, (xpath_field _ _ _ N X), <- K. destruct ks as [|k [|k2 ks]]; cbn [List.length] in L; [| |lia].
        * split; [discriminate|]. intros H. inversion H as [k F|ks' k q' F L' Q' Hk M R]; subst p; apply fields_kids in F; rewrite <- K in F; [discriminate|]. subst ks'. destruct Hk.
        * cbn [below map bind one_of]. split.
          -- intros [= <-]. apply the_only_field. now apply fields_kids.
          -- intros H. inversion H as [k' F|ks' k' q' F L' Q' Hk M R]; subst p; apply fields_kids in F; rewrite <- K in F; [congruence|]. subst ks'. cbn in L'. lia.
    - unfold field_stage. rewrite He. cbn [bind]. destruct clear.
      + subst c. cbn [one_of]. split; [intros [= <-]; auto|intros [_ ->]; reflexivity].
      + split; [|intros [? _]; discriminate]. destruct c as [|c1 [|c2 c]]; cbn [List.length] in C; [lia|lia|discriminate].
  Qed.
  Lemma field_stage_raise l fq s c x : fq <> [] -> xpath root fq = [s] -> field_stage l (fq, Some c) = Raise x ->
    x = ValueError \/ (x = IndexError /\ unreadable_document).
  Proof.
    intros N X. unfold field_stage. destruct (lo_element l) as [id|] eqn:He.
    - rewrite (xpath_field _ _ _ N X). remember (below s (fk s id)) as l0 eqn:E. cbv zeta. destruct l0 as [|p1 [|p2 l0]].
      + intros [= <-]. auto.
      + discriminate.
      + destruct (lo_qualifier l) as [q|]; [|intros [= <-]; auto]. destruct (one_candidate root q None (enumerate (p1 :: p2 :: l0))) as [n|z] eqn:O.
        * cbn [bind]. destruct (firstn 1 (skipn n (p1 :: p2 :: l0))) as [|a [|]] eqn:T; cbn [one_of]; [intros [= <-]; auto|discriminate|intros [= <-]; auto].
        * cbn [bind]. intros [= <-]. apply one_candidate_raise in O as [-> |[-> O]]; [auto|]. right. split; [reflexivity|]. rewrite E in O. eapply unreadable_below; [|exact O]. auto.
    - cbn [bind]. destruct c as [|a [|]]; cbn [one_of]; [intros [= <-]; auto|discriminate|intros [= <-]; auto].
  Qed.
End Search.

Lemma get_element_stages root l : get_element (new_MigXmlReader root) l
  = (let* s := foldM (layer_iteration root) ([mkStep (el_tag root) []; class_step (u "/")], None) (lo_layers l) in
     let* s := segment_stage root l s in field_stage root l s).
Proof. reflexivity. Qed.
Lemma xpath_start root i : classes root [] (u "/") [i] -> xpath root [mkStep (el_tag root) []; class_step (u "/")] = [[i]].
Proof.
  intros C. apply classes_kids in C.
  assert (X : xpath root [mkStep (el_tag root) []] = [[]]).
  { cbn. now rewrite (proj2 (str_eqb_eq _ _) eq_refl). }
  pose proof (xpath_class root [mkStep (el_tag root) []] [] (u "/") ltac:(discriminate) X) as H. cbn [app] in H. rewrite H, <- C. reflexivity.
Qed.
Lemma nonempty_some {A B} (l : list A) (x y : B) : l <> [] -> match l with [] => x | _ => y end = y.
Proof. destruct l; congruence. Qed.

Lemma get_element_spec root l p i : classes root [] (u "/") [i] -> lo_layers l <> [] ->
  get_element (new_MigXmlReader root) l = Ok p <-> described root l p.
Proof.
  intros C NL. rewrite get_element_stages. pose proof (xpath_start root i C) as X. assert (N : [mkStep (el_tag root) []; class_step (u "/")] <> []) by discriminate. split.
  - intros H. apply bind_ok in H as (s & E & H). destruct (layers_conv root _ _ _ _ _ N X E) as (g & G).
    destruct (layers_enter root _ _ None _ _ N X G) as (fq & E' & N' & X'). rewrite E in E'. injection E' as ->. rewrite (nonempty_some _ _ _ NL) in H.
    apply bind_ok in H as (s2 & E2 & H). destruct (segment_conv root l fq g _ NL N' X' E2) as (s & clear & S1).
    destruct (segment_ok root l fq g s clear N' X' S1) as (fq2 & c2 & E2' & N2 & X2 & C2). pose proof (eq_trans (eq_sym E2) E2') as Es. injection Es as ->.
    exists i, g, s, clear. split; [exact C|]. split; [exact G|]. split; [exact S1|]. now apply (field_stage_spec root l fq2 g s clear c2 p N2 X2 C2).
  - intros (i' & g & s & clear & C' & G & S1 & F). assert (i' = i) as ->. { apply classes_kids in C, C'. congruence. }
    destruct (layers_enter root _ _ None _ _ N X G) as (fq & E' & N' & X'). rewrite (nonempty_some _ _ _ NL) in E'.
    destruct (segment_ok root l fq g s clear N' X' S1) as (fq2 & c2 & E2' & N2 & X2 & C2).
    apply bind_ok. eexists. split; [exact E'|]. apply bind_ok. eexists. split; [exact E2'|]. now apply (field_stage_spec root l fq2 g s clear c2 p N2 X2 C2).
Qed.
Lemma unreadable_any root key l : key = u "key" \/ key = u "ref" -> ~ Forall (fine root key) l -> unreadable_document root.
Proof.
  intros K. induction l as [|p l IH]; intros N; [exfalso; apply N; constructor|]. destruct (keys_at root key p) as [q|x] eqn:E.
  - apply IH. intros F. apply N. constructor; [exists q; exact E|exact F].
  - exists p, key. split; [exact K|]. intros R. apply fine_readable in R as (q & R). congruence.
Qed.
Lemma layer_any_raise root s y x : layer_iteration root s y = Raise x -> x = ValueError \/ (x = IndexError /\ unreadable_document root).
Proof.
  destruct s as [fq c]. unfold layer_iteration. remember (xpath root _) as l eqn:L. clear L. destruct l as [|p1 [|p2 l]]; cbv zeta; [intros [= <-]; auto|discriminate|].
  intros H. destruct (get_candidate_index_from_key root y (p1 :: p2 :: l)) as [n|z] eqn:C; cbn [bind] in H.
  - apply candidate_index_spec in C as [_ (a & d & b & E & -> & _)]. rewrite E, nth_middle in H. discriminate.
  - injection H as <-. apply candidate_index_raise in C as [-> |[-> C]]; [auto|]. right. split; [reflexivity|]. eapply unreadable_any; [|exact C]. auto.
Qed.
Lemma layer_any_some root s y s' : layer_iteration root s y = Ok s' -> snd s' <> None.
Proof.
  destruct s as [fq c]. unfold layer_iteration. destruct (xpath root _) as [|p1 [|p2 l]]; cbv zeta; [discriminate|intros [= <-]; discriminate|].
  intros H. apply bind_ok in H as (n & _ & H). destruct (nth_error _ n); [injection H as <-|]; discriminate.
Qed.
Lemma layers_any root ys : forall s,
  match foldM (layer_iteration root) s ys with
  | Ok s' => ys <> [] -> snd s' <> None
  | Raise x => x = ValueError \/ (x = IndexError /\ unreadable_document root)
  end.
Proof.
  induction ys as [|y ys IH]; intros s; [cbn; congruence|]. cbn [foldM]. destruct (layer_iteration root s y) as [s'|x] eqn:E; cbn [bind].
  - specialize (IH s'). destruct (foldM _ _ _) as [t|x] eqn:F; [|exact IH]. intros _. destruct ys; [|now apply IH]. injection F as <-. now apply layer_any_some in E.
  - now apply layer_any_raise in E.
Qed.
Lemma segment_any root l s :
  match segment_stage root l s with
  | Ok s' => snd s <> None -> snd s' <> None
  | Raise x => (x = IndexError /\ unreadable_document root) \/ (x = UnboundLocalError /\ lo_layers l = [])
  end.
Proof.
  destruct s as [fq c]. unfold segment_stage. destruct (lo_segment l) as [code|]; [|cbn; auto]. destruct (str_eqb code (u "UNH")); [cbn; auto|].
  remember (xpath root _) as ps eqn:L. clear L. destruct ps as [|p1 [|p2 ps]]; cbv zeta; [cbn; auto|cbn; auto|].
  destruct (first_segment_candidate _ _ _) as [o|x] eqn:F; cbn [bind]; [destruct o; cbn; [discriminate|auto]|].
  destruct (lo_layers l) as [|y0 ys0] eqn:Y.
  - cbn [enumerate List.length seq combine rev hd_error first_segment_candidate] in F. fold (keys_at root (u "key") p1) in F.
    destruct (keys_at root (u "key") p1) as [q|z] eqn:K; cbn [bind] in F; injection F as <-; [auto|]. left. apply qualifier_set_raise in K as K'. destruct K' as [-> _]. split; [reflexivity|].
    apply (unreadable_any root (u "key") [p1]); [auto|]. intros H. inversion H as [|? ? (q & Hq)]. congruence.
  - destruct (last_layer_exists (lo_layers l)) as (ys & y & E); [now rewrite Y|]. rewrite <- Y, (last_layer _ _ _ E) in F. apply first_segment_raise in F as [-> F]. left. split; [reflexivity|].
    eapply unreadable_any; [|exact F]. auto.
Qed.
Lemma field_any_raise root l fq c x : field_stage root l (fq, c) = Raise x ->
  x = ValueError \/ (x = IndexError /\ unreadable_document root) \/ (x = UnboundLocalError /\ c = None /\ lo_element l = None).
Proof.
  unfold field_stage. destruct (lo_element l) as [id|] eqn:He.
  - remember (xpath root _) as l0 eqn:E. clear E. cbv zeta. destruct l0 as [|p1 [|p2 l0]].
    + intros [= <-]. auto.
    + discriminate.
    + destruct (lo_qualifier l) as [q|]; [|intros [= <-]; auto]. destruct (one_candidate root q None (enumerate (p1 :: p2 :: l0))) as [n|z] eqn:O.
      * cbn [bind]. destruct (firstn 1 (skipn n (p1 :: p2 :: l0))) as [|a [|]] eqn:T; cbn [one_of]; [intros [= <-]; auto|discriminate|intros [= <-]; auto].
      * cbn [bind]. intros [= <-]. apply one_candidate_raise in O as [-> |[-> O]]; [auto|]. right. left. split; [reflexivity|]. eapply unreadable_any; [|exact O]. auto.
  - cbn [bind]. destruct c as [[|a [|]]|]; cbn [one_of]; [intros [= <-]; auto|discriminate|intros [= <-]; auto|intros [= <-]; auto].
Qed.
Lemma unreadable_not_readable root : unreadable_document root -> ~ readable_document root.
Proof. intros (p & key & K & U) R. apply U. intros e A. destruct (R p e A). now destruct K as [-> | ->]. Qed.
Lemma get_element_raise root l x :
  get_element (new_MigXmlReader root) l = Raise x ->
  x = ValueError \/ (x = IndexError /\ ~ readable_document root) \/ (x = UnboundLocalError /\ lo_layers l = []).
Proof.
  rewrite get_element_stages. pose proof (unreadable_not_readable root) as U. intros H.
  match type of H with bind (foldM _ ?s _) _ = _ => pose proof (layers_any root (lo_layers l) s) as A end.
  destruct (foldM _ _ _) as [s|z] eqn:E; cbn [bind] in H; [|injection H as <-; destruct A as [A|[A B]]; auto].
  pose proof (segment_any root l s) as B. destruct (segment_stage root l s) as [[fq c]|z]; cbn [bind] in H; [|injection H as <-; destruct B as [[B C]|B]; auto].
  apply field_any_raise in H as [H|[[H V]|(H & V & _)]]; auto. right. right. split; [exact H|]. destruct (lo_layers l); [reflexivity|]. exfalso. apply B; [|exact V]. apply A. discriminate.
Qed.
Lemma get_element_no_slash root l : classes root [] (u "/") [] -> lo_layers l <> [] -> get_element (new_MigXmlReader root) l = Raise ValueError.
Proof.
  intros C NL. rewrite get_element_stages. apply classes_kids in C.
  assert (X0 : xpath root [mkStep (el_tag root) []] = [[]]).
  { cbn. now rewrite (proj2 (str_eqb_eq _ _) eq_refl). }
  pose proof (xpath_class root [mkStep (el_tag root) []] [] (u "/") ltac:(discriminate) X0) as H. cbn [app] in H. rewrite <- C in H. cbn [below map] in H.
  destruct (lo_layers l) as [|y ys]; [congruence|]. cbn [foldM]. unfold layer_iteration at 1. unfold class_step at 2.
  rewrite xpath_snoc by discriminate. rewrite H. reflexivity.
Qed.
Lemma get_element_no_layers root l : lo_layers l = [] -> lo_element l = None -> is_ok (get_element (new_MigXmlReader root) l) = false.
Proof.
  intros NL NE. rewrite get_element_stages, NL. cbn [foldM bind]. unfold segment_stage, field_stage. rewrite NE, NL.
  destruct (lo_segment l) as [code|]; [|reflexivity]. destruct (str_eqb code (u "UNH")); [reflexivity|]. destruct (xpath root _) as [|p1 [|p2 ps]]; [reflexivity..|]. cbv zeta.
  cbn [enumerate List.length seq combine rev hd_error first_segment_candidate]. destruct (qualifier_set _ _); reflexivity.
Qed.

(** ** in every document: the way to the element that is found *)
Lemma descends_snoc root p specs q i c tag key value : descends root p specs q ->
  at_position root (q ++ [i]) c -> el_tag c = tag -> carries c key value -> descends root p (specs ++ [(tag, key, value)]) (q ++ [i]).
Proof.
  induction 1 as [p|p j d t k v rest q A T C D IH]; intros A' T' C'; cbn [app].
  - eapply goes_down; eauto. constructor.
  - eapply goes_down; eauto.
Qed.
Section Descent.
  Context (root : element).
  Notation reach specs := (descends root [] specs).
  Lemma reach_below specs p tag key value : reach specs p -> Forall (reach (specs ++ [(tag, key, value)])) (below p (kids root p (tagged tag key value))).
  Proof.
    intros D. apply forall_below. apply Forall_forall. intros i Hi. destruct (kids_children_with root p tag key value) as [_ K].
    apply K in Hi as (c & A & T & C). eapply descends_snoc; eauto.
  Qed.
  Lemma reach_step fq specs tag key value : fq <> [] -> Forall (reach specs) (xpath root fq) ->
    Forall (reach (specs ++ [(tag, key, value)])) (xpath root (fq ++ [mkStep tag [HasAttr key value]])).
  Proof.
    intros N F. rewrite xpath_snoc by exact N. apply Forall_flat_map. eapply Forall_impl; [|exact F]. cbn beta. intros p D. rewrite select_attr. now apply reach_below.
  Qed.
  Lemma reach_step_at fq specs tag key value n : fq <> [] -> Forall (reach specs) (xpath root fq) ->
    Forall (reach (specs ++ [(tag, key, value)])) (xpath root (fq ++ [mkStep tag [HasAttr key value; Position (S n)]])).
  Proof.
    intros N F. rewrite xpath_snoc by exact N. apply Forall_flat_map. eapply Forall_impl; [|exact F]. cbn beta. intros p D. rewrite select_attr_at.
    destruct (nth_error _ n) as [i|] eqn:E; [|constructor]. pose proof (reach_below specs p tag key value D) as R. rewrite Forall_forall in R.
    constructor; [|constructor]. apply R. apply in_map_iff. exists i. split; [reflexivity|]. eapply nth_error_In; eauto.
  Qed.
  Lemma reach_layer specs fq c y fq' c' : fq <> [] -> Forall (reach specs) (xpath root fq) -> layer_iteration root (fq, c) y = Ok (fq', c') ->
    fq' <> [] /\ Forall (reach (specs ++ [class_with (ref_of_layer y)])) (xpath root fq')
    /\ exists l, c' = Some l /\ Forall (reach (specs ++ [class_with (ref_of_layer y)])) l.
  Proof.
    intros N F. unfold layer_iteration. rewrite ref_of. pose proof (reach_step fq specs (u "class") (u "ref") (ref_of_layer y) N F) as R.
    change (mkStep (u "class") [HasAttr (u "ref") (ref_of_layer y)]) with (class_step (ref_of_layer y)) in R. fold (class_with (ref_of_layer y)) in R.
    cbv zeta. destruct (xpath root (fq ++ [class_step (ref_of_layer y)])) as [|c1 [|c2 cs]] eqn:X.
    - discriminate.
    - intros [= <- <-]. split; [apply snoc_nonempty|]. split; [rewrite X; exact R|]. eexists. split; [reflexivity|exact R].
    - intros H. apply bind_ok in H as (n & _ & H). destruct (nth_error (c1 :: c2 :: cs) n) as [d|] eqn:E; [|discriminate]. injection H as <- <-.
      split; [apply snoc_nonempty|]. split; [now apply reach_step_at|]. eexists. split; [reflexivity|]. constructor; [|constructor].
      rewrite Forall_forall in R. apply R. eapply nth_error_In; eauto.
  Qed.
  Lemma reach_layers ys : forall specs fq c fq' c', fq <> [] -> Forall (reach specs) (xpath root fq) -> foldM (layer_iteration root) (fq, c) ys = Ok (fq', c') ->
    fq' <> [] /\ Forall (reach (specs ++ map (fun y => class_with (ref_of_layer y)) ys)) (xpath root fq')
    /\ (ys = [] /\ c' = c \/ exists l, c' = Some l /\ Forall (reach (specs ++ map (fun y => class_with (ref_of_layer y)) ys)) l).
  Proof.
    induction ys as [|y ys IH]; intros specs fq c fq' c' N F H.
    - injection H as <- <-. rewrite app_nil_r. auto.
    - cbn [foldM] in H. apply bind_ok in H as ([fq1 c1] & E & H). apply (reach_layer specs) in E as (N1 & F1 & l & -> & Fl); try assumption.
      cbn [map]. specialize (IH (specs ++ [class_with (ref_of_layer y)]) _ _ _ _ N1 F1 H). rewrite <- app_assoc in IH. cbn [app] in IH.
      destruct IH as (N2 & F2 & D). split; [exact N2|]. split; [exact F2|]. right. destruct D as [[-> ->]|D]; [|exact D]. exists l. split; [reflexivity|exact Fl].
  Qed.
  Lemma reach_element l p : lo_layers l <> [] -> get_element (new_MigXmlReader root) l = Ok p ->
    exists rest, behind_group l rest /\ reach (class_with (u "/") :: map (fun y => class_with (ref_of_layer y)) (lo_layers l) ++ rest) p.
  Proof.
    intros NL. rewrite get_element_stages. intros H. apply bind_ok in H as ([fq c] & E & H).
    assert (X : xpath root [mkStep (el_tag root) []] = [[]]). { cbn. now rewrite (proj2 (str_eqb_eq _ _) eq_refl). }
    assert (F0 : Forall (reach [class_with (u "/")]) (xpath root [mkStep (el_tag root) []; class_step (u "/")])).
    { change (Forall (reach ([] ++ [class_with (u "/")])) (xpath root ([mkStep (el_tag root) []] ++ [mkStep (u "class") [HasAttr (u "ref") (u "/")]]))).
      apply reach_step; [discriminate|]. rewrite X. constructor; [constructor|constructor]. }
    assert (N0 : [mkStep (el_tag root) []; class_step (u "/")] <> []) by discriminate.
    destruct (reach_layers _ _ _ _ _ _ N0 F0 E) as (N & F & [[D _]|(cs & -> & Fc)]); [contradiction|]. clear E F0 X.
    cbn [app] in F, Fc. set (specs := class_with (u "/") :: map (fun y => class_with (ref_of_layer y)) (lo_layers l)) in *.
    enough (K : exists rest, behind_group l rest /\ reach (specs ++ rest) p) by exact K.
    apply bind_ok in H as ([fq2 c2] & E & H).
    assert (S2 : fq2 <> [] /\ exists seg, Forall (reach (specs ++ seg)) (xpath root fq2) /\ (seg = [] \/ exists code, lo_segment l = Some code /\ seg = [class_with code])
                 /\ exists cs', c2 = Some cs' /\ (cs' = cs \/ List.length cs' >= 2)).
    { unfold segment_stage in E. destruct (lo_segment l) as [code|] eqn:Hc.
      2:{ injection E as <- <-. split; [exact N|]. exists []. rewrite app_nil_r. split; [exact F|]. split; [auto|]. exists cs. auto. }
      destruct (str_eqb code (u "UNH")).
      { injection E as <- <-. split; [exact N|]. exists []. rewrite app_nil_r. split; [exact F|]. split; [auto|]. exists cs. auto. }
      cbv zeta in E. pose proof (reach_step fq specs (u "class") (u "ref") code N F) as R. fold (class_step code) in R.
      destruct (xpath root (fq ++ [class_step code])) as [|s1 [|s2 ss]] eqn:Xs.
      - injection E as <- <-. split; [exact N|]. exists []. rewrite app_nil_r. split; [exact F|]. split; [auto|]. exists cs. auto.
      - injection E as <- <-. split; [apply snoc_nonempty|]. exists [class_with code]. split; [rewrite Xs; exact R|]. split; [eauto|]. exists cs. auto.
      - apply bind_ok in E as ([n|] & _ & E).
        + injection E as <- <-. split; [apply snoc_nonempty|]. exists [class_with code]. split; [now apply reach_step_at|]. split; [eauto|]. eexists. split; [reflexivity|]. right. cbn. lia.
        + injection E as <- <-. split; [exact N|]. exists []. rewrite app_nil_r. split; [exact F|]. split; [auto|]. exists cs. auto. }
    destruct S2 as (N2 & seg & F2 & Sg & cs' & -> & Cs). unfold field_stage in H. unfold behind_group.
    destruct (lo_element l) as [id|].
    - exists (seg ++ [field_with id]). split; [destruct Sg as [-> |(code & Hc & ->)]; [left; reflexivity|right; exists code; auto]|].
      pose proof (reach_step fq2 (specs ++ seg) (u "field") (u "meta.id") id N2 F2) as R. fold (field_step id) in R. rewrite <- app_assoc in R. change [(u "field", u "meta.id", id)] with [field_with id] in R.
      rewrite Forall_forall in R. apply R. cbv zeta in H. destruct (xpath root (fq2 ++ [field_step id])) as [|p1 [|p2 ps]]; [discriminate| |].
      + injection H as <-. now left.
      + destruct (lo_qualifier l) as [q|]; [|discriminate]. apply bind_ok in H as (o & H & Ho). apply bind_ok in H as (n & _ & H).
        assert (H0 : o = Some (firstn 1 (skipn n (p1 :: p2 :: ps)))) by congruence. clear H. subst o. remember (firstn 1 (skipn n (p1 :: p2 :: ps))) as sl eqn:T. symmetry in T. destruct sl as [|a [|]]; try discriminate. injection Ho as <-.
        assert (I : In a (skipn n (p1 :: p2 :: ps))) by (rewrite <- (firstn_skipn 1 (skipn n (p1 :: p2 :: ps))), T; now left).
        rewrite <- (firstn_skipn n (p1 :: p2 :: ps)). apply in_or_app. now right.
    - exists []. split; [reflexivity|]. rewrite app_nil_r. cbn [bind] in H. destruct Cs as [-> |L].
      + destruct cs as [|a [|]]; try discriminate. injection H as <-. now inversion Fc.
      + destruct cs' as [|a [|b cs']]; cbn [List.length] in L; [lia|lia|discriminate].
  Qed.
End Descent.
