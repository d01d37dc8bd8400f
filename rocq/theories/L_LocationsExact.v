(** Lemmas for C89: the layers of a location in closed form. *)
From Coq Require Import Ascii String List NArith ZArith Bool Arith Lia.
From Verif Require Import PyBase PyStr PyRe M_Components M_Ahb M_Sgh M_Navigation
  S_Prefix S_Text S_Sgh S_Navigation S_LocationsExact L_Base L_Prefix L_Sgh L_Navigation L_Locations C_Navigation.
Import ListNotations.
Local Open Scope list_scope.

Lemma layer_for_unique h lines changes i key a b :
  layer_for h lines changes i key a -> layer_for h lines changes i key b -> a = b.
Proof.
  intros Ha Hb. destruct Ha as [k o q (Hk & Ek & Lk) Ho Hq|q E N Hq]; inversion Hb as [k' o' q' (Hk' & Ek' & Lk') Ho' Hq'|q' E' N' Hq']; subst.
  - assert (k = k') as <-.
    { destruct (Nat.lt_trichotomy k k') as [H|[H|H]]; [|exact H|]; exfalso; [apply (Lk k' (conj H Hk') Ek')|apply (Lk' k (conj H Hk) Ek)]. }
    pose proof (next_at_unique _ _ _ _ _ Ho Ho') as E1. pose proof (next_at_unique _ _ _ _ _ Hq Hq') as E2. congruence.
  - exfalso. exact (N' k Hk Ek).
  - exfalso. exact (N k' Hk' Ek').
  - pose proof (next_at_unique _ _ _ _ _ Hq Hq'). congruence.
Qed.

(** nothing entered at the next position *)
Lemma layer_for_later h lines changes i key a :
  ~ entered_at changes key (S i) -> layer_for h lines changes i key a -> layer_for h lines changes (S i) key a.
Proof.
  intros N [k o q (Hk & Ek & Lk) Ho Hq|q E NE Hq].
  - apply layer_entered with (k := k); auto. split; [lia|]. split; [exact Ek|]. intros m Hm K.
    destruct (Nat.eq_dec m (S i)) as [->|D]; [exact (N K)|]. apply (Lk m); [lia|exact K].
  - apply layer_of_the_message; auto. intros k Hk K. destruct (Nat.eq_dec k (S i)) as [->|D]; [exact (N K)|]. apply (NE k); [lia|exact K].
Qed.

Lemma Forall2_app_split {A B} (P : A -> B -> Prop) l1 l2 m1 m2 : List.length l1 = List.length m1 ->
  Forall2 P (l1 ++ l2) (m1 ++ m2) -> Forall2 P l1 m1 /\ Forall2 P l2 m2.
Proof.
  revert m1; induction l1 as [|a l1 IH]; intros [|b m1] L H; try discriminate; [auto|].
  cbn in H. inversion H; subst. destruct (IH m1) as [H1 H2]; [now injection L|assumption|]. auto.
Qed.

(** the keys on a path are different *)
Lemma keys_NoDup h p n : distinct_keys h -> node_at h p = Some n -> NoDup (keys h p).
Proof.
  intros D. revert n. induction p as [|i p IH] using rev_ind; intros n H.
  - cbn. constructor; [tauto|constructor].
  - rewrite (keys_snoc h p i n H). assert (Hp : node_at h p <> None) by (rewrite node_at_app in H; destruct (node_at h p); [discriminate|discriminate H]).
    destruct (node_at h p) as [m|] eqn:E; [|congruence]. specialize (IH m eq_refl).
    assert (NI : ~ In (sgh_key n) (keys h p)).
    { intros K. apply keys_in in K as (k & n' & Hk & Hn' & Ek); [|congruence].
      pose proof (D _ _ _ _ Hn' H Ek) as F. apply (f_equal (@List.length _)) in F. rewrite firstn_length, app_length in F. cbn in F. lia. }
    clear - IH NI. induction (keys h p) as [|x l IHl]; cbn; [constructor; [tauto|constructor]|].
    inversion IH; subst. constructor.
    + intros K. apply in_app_or in K as [K|[K|[]]]; [auto|]. subst. apply NI. now left.
    + apply IHl; [assumption|]. intros K. apply NI. now right.
Qed.

Lemma nth_error_ext {A} (l m : list A) : (forall i, nth_error l i = nth_error m i) -> l = m.
Proof.
  revert m; induction l as [|a l IH]; intros [|b m] H; [reflexivity|discriminate (H 0)|discriminate (H 0)|].
  f_equal; [now injection (H 0)|]. apply IH. intros i. exact (H (S i)).
Qed.

Lemma change_dec (c : Change) : c = STAY \/ c <> STAY.
Proof. destruct c; (now left) || (right; discriminate). Qed.

Section Exact.
  Variables (h : Sgh) (lines : list AhbLine) (r : list (AhbLine * Location)) (changes : list (AhbLine * Change)).
  Hypothesis D : distinct_keys h.
  Hypothesis W : well_named h.
  Hypothesis R : sgh_key h = None.
  Hypothesis HD : disciplined h None lines.
  Hypothesis HL : determine_locations h lines = Ok r.
  Hypothesis HC : determine_hierarchy_changes lines h = Ok changes.

  Lemma change_of_line i line loc : nth_error r i = Some (line, loc) -> exists c, nth_error changes i = Some (line, c).
  Proof.
    intros H. pose proof (C13_locations_line_by_line h lines r HL) as E1.
    destruct (C13_changes_line_by_line lines h) as (r' & E & E2). rewrite HC in E. injection E as <-.
    assert (K : nth_error (map fst changes) i = Some line) by (rewrite E2, <- E1; exact (map_nth_error fst i r H)).
    rewrite nth_error_map in K. destruct (nth_error changes i) as [[l c]|]; [|discriminate]. injection K as <-. eauto.
  Qed.
  Lemma line_of_location i line loc : nth_error r i = Some (line, loc) -> nth_error lines i = Some line.
  Proof. intros H. rewrite <- (C13_locations_line_by_line h lines r HL). exact (map_nth_error fst i r H). Qed.

  (** the new last layer, the others unchanged *)
  Lemma layers_of_entered i line loc c outer o q p n :
    nth_error r i = Some (line, loc) -> nth_error changes i = Some (line, c) -> c <> STAY ->
    next_at al_segment lines i (Some o) -> next_at al_entry lines i q ->
    lo_layers loc = outer ++ [mkLayer (al_group line) o q] ->
    node_at h p = Some n -> map ly_key (lo_layers loc) = keys h p ->
    (forall ks, ks ++ [al_group line] = keys h p -> ~ In (al_group line) ks -> map ly_key outer = ks -> Forall2 (layer_for h lines changes i) ks outer) ->
    Forall2 (layer_for h lines changes i) (keys h p) (lo_layers loc).
  Proof.
    intros Hr Hc Nc Ho Hq E Hp Hk HO.
    rewrite E, map_app in Hk. cbn [map ly_key] in Hk.
    assert (NI : ~ In (al_group line) (map ly_key outer)).
    { pose proof (keys_NoDup h p n D Hp) as ND. rewrite <- Hk in ND. apply NoDup_remove_2 in ND. now rewrite app_nil_r in ND. }
    rewrite E, <- Hk. apply Forall2_app; [exact (HO _ Hk NI eq_refl)|]. constructor; [|constructor].
    apply layer_entered with (k := i); [|exact Ho|exact Hq]. split; [lia|]. split; [|intros m Hm; lia].
    exists line, c. auto.
  Qed.

  Lemma layers_exact i : forall line loc, nth_error r i = Some (line, loc) ->
    exists p n, node_at h p = Some n /\ sgh_key n = al_group line /\ Forall2 (layer_for h lines changes i) (keys h p) (lo_layers loc).
  Proof.
    induction i as [|i IH]; intros line loc Hr.
    - destruct (C15_layers_follow_the_hierarchy h lines r D W R HD HL 0 line loc Hr) as (p & n & Hp & Hn & Hk). fold (keys h p) in Hk.
      exists p, n. split; [exact Hp|]. split; [exact Hn|].
      destruct (change_of_line 0 line loc Hr) as (c & Hc). pose proof (line_of_location 0 line loc Hr) as Hl.
      destruct (determine_locations_steps h lines r HL) as [_ P].
      destruct (P 0 line Hl) as (y & Hy & base & HB & _ & _ & _ & HV & HS & HN & HR). rewrite Hr in Hy. injection Hy as <-. cbn [fst snd] in *.
      pose proof (item_change h lines 0 line Hl) as HI. rewrite determine_hierarchy_changes_eq in HC. injection HC as HC'. rewrite HC', Hc in HI.
      assert (HI' : snd (fst (fst (item_at h lines 0 line))) = c) by congruence. rewrite HI' in HV, HS, HN, HR. clear HI HI'. cbn [item_at fst snd firstn layers_before] in *.
      set (q := first_some al_entry (skipn 0 lines)) in *. set (ns := first_some al_segment (skipn 0 lines)) in *.
      assert (Hq : next_at al_entry lines 0 q) by apply first_some_next. assert (Hs : next_at al_segment lines 0 ns) by apply first_some_next.
      assert (Eb : base = [mkLayer (sgh_key h) (sgh_opening h) q]).
      { cbn [base_layers] in HB. destruct HB as [(_ & p0 & l0 & E & K)|(p0 & l0 & E & _ & -> & _)];
          (destruct p0 as [|a [|b p0]]; try discriminate; injection E as <-); [now elim K|reflexivity]. }
      subst base.
      destruct (change_dec c) as [Ec|Nc].
      + rewrite (HS Ec) in *. cbn [map ly_key] in Hk. rewrite <- Hk. constructor; [|constructor].
        apply layer_of_the_message; [reflexivity| |exact Hq]. intros k Hk0 (l & c' & Hc' & Nc' & _).
        assert (k = 0) as -> by lia. rewrite Hc in Hc'. injection Hc' as <- <-. contradiction.
      + destruct HV as [HV|(o & Ho & _)]; [contradiction|]. specialize (HN o Ho). rewrite Ho in Hs.
        destruct (new_layers_last _ _ _ _ HN Nc) as (outer & E).
        eapply layers_of_entered; [exact Hr|exact Hc|exact Nc|exact Hs|exact Hq|exact E|exact Hp|exact Hk|].
        intros ks Eks NI Em. destruct c; cbn [new_layers_of] in HN; try contradiction.
        * destruct HN as (p0 & old & E1 & E2). rewrite E in E2. apply app_inj_tail in E2 as [-> _].
          destruct p0 as [|a [|b p0]]; try discriminate. cbn in Em. subst ks. constructor.
        * rewrite E in HN. apply app_inj_tail in HN as [-> _]. cbn in Em. subst ks. constructor; [|constructor].
          apply layer_of_the_message; [reflexivity| |exact Hq]. intros k Hk0 (l & c' & Hc' & _ & G).
          assert (k = 0) as -> by lia. rewrite Hc in Hc'. injection Hc' as <- <-. apply NI. rewrite G. now left.
        * now elim (HR eq_refl).
    - assert (exists line1 loc1, nth_error r i = Some (line1, loc1)) as (line1 & loc1 & Hr1).
      { destruct (nth_error r i) as [[a b]|] eqn:E; [eauto|]. apply nth_error_None in E. assert (S i < List.length r) by (apply nth_error_Some; congruence). lia. }
      destruct (IH line1 loc1 Hr1) as (p1 & n1 & Hp1 & Hn1 & F1).
      destruct (C15_layers_follow_the_hierarchy h lines r D W R HD HL (S i) line loc Hr) as (p & n & Hp & Hn & Hk). fold (keys h p) in Hk.
      exists p, n. split; [exact Hp|]. split; [exact Hn|].
      destruct (change_of_line (S i) line loc Hr) as (c & Hc).
      assert (Hk1 : map ly_key (lo_layers loc1) = keys h p1).
      { clear - F1. induction F1 as [|k l ks ls H _ IH]; [reflexivity|]. cbn. rewrite IH. f_equal. now destruct H. }
      destruct (C18_layers_of_neighbouring_lines h lines r changes i line1 loc1 line loc c HL HC Hr1 Hr Hc) as [HS HN].
      destruct (change_dec c) as [Ec|Nc].
      + specialize (HS Ec). rewrite HS in *. rewrite <- Hk, Hk1. eapply Forall2_impl; [|exact F1]. cbn. intros k l. apply layer_for_later.
        intros (l' & c' & Hc' & Nc' & _). rewrite Hc in Hc'. injection Hc' as <- <-. contradiction.
      + destruct (HN Nc) as (outer & o & q & Ho & Hq & E & H1 & H2 & H3).
        eapply layers_of_entered; [exact Hr|exact Hc|exact Nc|exact Ho|exact Hq|exact E|exact Hp|exact Hk|].
        intros ks Eks NI Em.
        assert (PF : exists rest, lo_layers loc1 = outer ++ rest).
        { destruct (C16_reported_changes lines h changes (S i) line c (al_group line1) HC Hc) as (_ & _ & _ & X1 & X2).
          { right. exists i, line1. split; [reflexivity|]. split; [exact (line_of_location i line1 loc1 Hr1)|reflexivity]. }
          destruct c; try contradiction; try congruence.
          - destruct (H1 eq_refl) as (old & ->). eauto.
          - rewrite (H2 eq_refl). exists []. now rewrite app_nil_r.
          - destruct (H3 eq_refl) as (rest & ->). eauto. }
        destruct PF as (rest & PF). rewrite <- Hk1, PF, map_app in F1.
        apply Forall2_app_split in F1 as [F1 _]; [|now rewrite map_length]. rewrite Em in F1.
        assert (G : forall k, In k ks -> ~ entered_at changes k (S i)).
        { intros k Hin (l' & c' & Hc' & _ & G). rewrite Hc in Hc'. injection Hc' as <- <-. subst k. contradiction. }
        clear - F1 G. induction F1 as [|k l ks ls H _ IH]; constructor; [|apply IH; intros; apply G; now right].
        apply layer_for_later; [apply G; now left|exact H].
  Qed.
End Exact.
