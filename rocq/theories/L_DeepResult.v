(** Lemmas: the result of to_deep_ahb, and lookups that fail. *)
From Coq Require Import Ascii String List NArith ZArith Bool Lia Arith.
From Verif Require Import PyBase PyStr PyRe M_Components M_Ahb M_Sgh M_Navigation M_Matching
  S_Prefix S_Text S_ValuePool S_Navigation S_Matching L_Base L_Prefix L_Str L_Validators L_Matching L_DeepTree L_DeepLoop.
Import ListNotations.
Local Open Scope list_scope.

(** locations of lines are no pseudo locations *)
Lemma located_plain h lines r : determine_locations h lines = Ok r -> Forall (fun y => lo_pseudo (snd y) = false) r.
Proof.
  unfold determine_locations. intros H. apply bind_ok in H as (l0 & _ & H). apply bind_ok in H as (ch & _ & H). apply bind_ok in H as (sg & _ & H). apply bind_ok in H as (qs & _ & H).
  apply bind_ok in H as (st & H & E). injection E as <-.
  assert (G : forall xs st0 st1, foldM (location_step h) st0 xs = Ok st1 -> Forall (fun y => lo_pseudo (snd y) = false) (snd st0) -> Forall (fun y => lo_pseudo (snd y) = false) (snd st1)).
  { intros xs. induction xs as [|x xs IH]; intros st0 st1 K F; cbn [foldM] in K; [injection K as <-; exact F|].
    apply bind_ok in K as (st2 & K1 & K). apply (IH st2 st1 K). clear IH K. destruct x as [[[line c] ns] nq]. destruct st0 as [layers res]. cbn [location_step] in K1.
    apply bind_ok in K1 as (base & _ & K1).
    assert (EM : forall new, (let* loc := new_Location false new ns (al_element line) (al_entry line) in Ok (new, res ++ [(line, loc)])) = Ok st2 ->
       Forall (fun y => lo_pseudo (snd y) = false) (snd st2)).
    { intros new E. apply bind_ok in E as (loc & El & E). apply new_Location_ok in El as [-> _]. injection E as <-. cbn [snd] in *. apply Forall_app. split; [exact F|]. constructor; [reflexivity|constructor]. }
    destruct c.
    - now apply (EM base).
    - apply bind_ok in K1 as (ls & _ & K1). apply bind_ok in K1 as (n & _ & K1). eapply EM; exact K1.
    - injection K1 as <-. exact F.
    - apply bind_ok in K1 as (n & _ & K1). eapply EM; exact K1.
    - discriminate.
    - apply bind_ok in K1 as (lr & _ & K1). apply bind_ok in K1 as (ll & _ & K1). apply bind_ok in K1 as (ca & _ & K1). apply bind_ok in K1 as (di & _ & K1).
      apply bind_ok in K1 as (ly & _ & K1). apply bind_ok in K1 as (n & _ & K1). eapply EM; exact K1. }
  apply (G _ _ _ H). constructor.
Qed.
Lemma place_plain r : Forall (fun y => lo_pseudo (snd y) = false) r -> lo_pseudo (place r) = false.
Proof. destruct r as [|[l p] [|y r]]; intros F; try reflexivity. inversion F. assumption. Qed.

Lemma firstn_map_d {A B} (f : A -> B) n l : map f (firstn n l) = firstn n (map f l).
Proof. symmetry. apply firstn_map. Qed.
Lemma nth_error_seq_d n : forall a j, j < n -> nth_error (seq a n) j = Some (a + j).
Proof.
  induction n as [|n IH]; intros a [|j] H; try lia; cbn [seq nth_error]; [f_equal; lia|]. rewrite IH by lia. f_equal. lia.
Qed.
Section Result.
  Variable reader : Location -> result EdifactStack.
  Variable str_of_location : Location -> pystr.

  Lemma forall2_impl {A B} (R Q : A -> B -> Prop) l m : (forall x y, R x y -> Q x y) -> Forall2 R l m -> Forall2 Q l m.
  Proof. intros H. induction 1; constructor; auto. Qed.
  Lemma forall2_map_l {A B C} (f : A -> B) (R : B -> C -> Prop) l m : Forall2 R (map f l) m <-> Forall2 (fun x y => R (f x) y) l m.
  Proof.
    split; revert m; induction l as [|x l IH]; intros m H; cbn [map] in *; inversion H; subst; constructor; auto.
  Qed.
  Lemma forall2_map_r {A B C} (f : A -> B) (R : C -> B -> Prop) l m : Forall2 R l (map f m) <-> Forall2 (fun x y => R x (f y)) l m.
  Proof.
    split; revert l; induction m as [|x m IH]; intros l H; cbn [map] in *; inversion H; subst; constructor; auto.
  Qed.
  Lemma forall2_trans {A B C} (R : A -> B -> Prop) (Q : B -> C -> Prop) l m n : Forall2 R l m -> Forall2 Q m n -> Forall2 (fun x z => exists y, R x y /\ Q y z) l n.
  Proof. intros H. revert n. induction H; intros n K; inversion K; subst; constructor; eauto. Qed.
  Lemma forall2_nth_r {A B} (R : A -> B -> Prop) l m : Forall2 R l m -> forall i y, nth_error m i = Some y -> exists x, nth_error l i = Some x /\ R x y.
  Proof. induction 1; intros [|i] z E; try discriminate; [injection E as <-; eexists; split; [reflexivity|assumption]|exact (IHForall2 i z E)]. Qed.
  Lemma forall2_nth_l {A B} (R : A -> B -> Prop) l m : Forall2 R l m -> forall i x, nth_error l i = Some x -> exists y, nth_error m i = Some y /\ R x y.
  Proof. induction 1; intros [|i] z E; try discriminate; [injection E as <-; eexists; split; [reflexivity|assumption]|exact (IHForall2 i z E)]. Qed.
  Lemma forall2_seq (cells : list GroupCell) (Q : GroupCell -> SegmentGroup -> Prop) Gs : forall pre,
    Forall2 (fun g G => exists c, nth_error (pre ++ cells) g = Some c /\ Q c G) (seq (List.length pre) (List.length cells)) Gs -> Forall2 Q cells Gs.
  Proof.
    revert Gs. induction cells as [|c cells IH]; intros Gs pre H; cbn [List.length seq] in H; inversion H as [|? G ? Gs' Hc Hr]; subst; constructor.
    - destruct Hc as (c' & E & K). rewrite nth_error_app2, Nat.sub_diag in E by reflexivity. injection E as <-. exact K.
    - apply (IH Gs' (pre ++ [c])). rewrite app_length, Nat.add_1_r, <- app_assoc. exact Hr.
  Qed.

  Definition shows (i : Info) (g : SegmentGroup) : Prop :=
    g_discriminator g = disc i /\ g_expression g = snd (fst (fst i)) /\ g_index g = snd (fst i) /\ g_segments g = Some (segs i).
  Lemma deep_groups h f spine m : consistent h f spine ->
    let a := mkDeep m (render_lines h) in
    Forall2 shows (infos h) (all_groups a)
    /\ Forall2 (fun x y => Forall2 (group_at (hp_cells h) []) (fst x) (fst y) /\ group_at (hp_cells h) [] (snd x) (snd y)) (ancs [] f) (groups_with_ancestors a).
  Proof.
    intros (HL & HA & HI & _) a.
    assert (E : da_lines a = map (tree_at (hp_cells h)) f).
    { unfold a, render_lines. cbn [da_lines]. apply render_forest; [exact HL|exact HA|]. rewrite HI, seq_length. lia. }
    assert (P : Forall2 (fun x y => Forall2 (group_at (hp_cells h) []) (fst x) (fst y) /\ group_at (hp_cells h) [] (snd x) (snd y)) (ancs [] f) (groups_with_ancestors a)).
    { unfold groups_with_ancestors. rewrite E. exact (forest_preorder (hp_cells h) f HA). }
    split; [|exact P]. unfold infos. apply forall2_map_l. apply (forall2_seq (hp_cells h) _ _ []). cbn [app List.length]. rewrite <- HI. unfold ids, all_groups.
    apply forall2_map_l, forall2_map_r. revert P. apply forall2_impl. intros x y [_ G]. apply group_at_cell in G as (c & G1 & G2 & G3 & G4 & G5). exists c. split; [exact G1|].
    split; [exact G2|]. auto.
  Qed.

  Definition result_of (flat : FlatAhb) (h : Sgh) (deep : DeepAhb) (located : Run) (runs : list Run) (parts : Parts) : Prop :=
    determine_locations h (fa_lines flat) = Ok located /\ maximal_runs located runs
    /\ sections runs = ([], concat parts)
    /\ parts_become reader str_of_location parts (all_groups deep)
    /\ NoDup (map g_discriminator (all_groups deep))
    /\ ((forall p ps, parts = p :: ps -> List.length (opening_layers p) = 1) -> enters_step_by_step parts -> nesting_mirrors (map opening_layers parts) deep).
  Lemma to_deep_ahb_result flat h deep flat' : to_deep_ahb reader str_of_location flat h = (Ok deep, flat') ->
    exists located runs parts, result_of flat h deep located runs parts.
  Proof.
    unfold to_deep_ahb. intros H. assert (H1 : fst (Ok deep, flat') = Ok deep) by reflexivity. rewrite <- H in H1 at 1. cbn [fst] in H1. clear H.
    apply bind_ok in H1 as (located & HL & H1). apply bind_ok in H1 as (st & HF & H1). injection H1 as <-.
    change (fun x : AhbLine * Location => remove_qualifier (snd x)) with rq in HF.
    destruct (groupby_spec located) as (GE & GC & GR & GS). cbv zeta in *. rewrite GE in HF. set (runs := map snd (groupby rq located)) in *.
    assert (PL := located_plain h (fa_lines flat) located HL).
    assert (HR : forall r, In r runs -> r <> [] /\ lo_pseudo (place r) = false).
    { intros r Hr. destruct (GR r Hr) as [Hne _]. split; [exact Hne|]. apply place_plain. apply Forall_forall. intros y Hy. rewrite Forall_forall in PL. apply PL. rewrite <- GC. apply in_concat. eauto. }
    destruct (inv_loop reader str_of_location runs [] initial_deep_state [] [] [] st (inv_initial reader str_of_location) HR HF) as (parts & f & spine & V).
    cbn [app] in V. destruct V as [V1 V2 V3 V4 V5 V6 V7 V8].
    destruct (deep_groups (ds_heap st) f spine (stamp_version (fa_meta flat)) V1) as [D1 D2]. cbv zeta in D1, D2. set (deep := mkDeep (stamp_version (fa_meta flat)) (render_lines (ds_heap st))) in *.
    assert (Disc : map g_discriminator (all_groups deep) = map disc (infos (ds_heap st))).
    { clear -D1. induction D1 as [|i g is gs (E & _) F IH]; cbn [map]; [reflexivity|]. now rewrite E, IH. }
    exists located, runs, parts. split; [exact HL|]. split; [exact (groupby_runs located)|]. split; [exact V2|]. split; [|split].
    - split.
      + pose proof (forall2_trans _ _ _ _ _ V3 D1) as F. revert F. apply forall2_impl. intros part g (i & (M1 & o & rest & fl & e & M2 & M3 & M4 & M5 & M6 & M7) & S1 & S2 & S3 & S4).
        split; [exists (segs i); auto|]. exists o, rest, fl, e. rewrite S1, S2, S3, M6. pose proof (strip_spec e). auto 10.
      + intros k o rest r path Hk Hr Ho. rewrite firstn_map_d, Disc, <- firstn_map_d. exact (V6 k o rest r path Hk Hr Ho).
    - rewrite Disc. rewrite V4 in V5. apply NoDup_rev in V5. now rewrite rev_involutive in V5.
    - intros N1 N2. destruct parts as [|p0 ps0] eqn:Ep.
      + intros i around g ls _ Hls. destruct i; discriminate.
      + rewrite <- Ep in *. destruct (V8 N1 N2 ltac:(congruence)) as [M _]. clear V8.
        intros i around g ls Hg Hls. destruct (forall2_nth_r _ _ _ D2 i _ Hg) as ([ar id] & Ha & [Fa Gid]). cbn [fst snd] in *.
        destruct (M i ar id ls Ha Hls) as [L K]. split; [rewrite <- L; f_equal; symmetry; eapply Forall2_length; exact Fa|].
        intros k G Hk. destruct (forall2_nth_r _ _ _ Fa k G Hk) as (j & Hj & Gj). destruct (K k j Hj) as (K1 & K2 & K3). exists j. split; [exact K1|]. split; [|split; [exact K2|exact K3]].
        assert (Hids : exists aj, nth_error (ancs [] f) j = Some (aj, j)).
        { destruct V1 as (_ & _ & VI & _). unfold ids in VI. assert (Lj : j < List.length (ancs [] f)).
          { assert (i < List.length (ancs [] f)) by (apply nth_error_Some; congruence). lia. }
          destruct (nth_error (ancs [] f) j) as [[aj j']|] eqn:Ej; [|apply nth_error_None in Ej; lia]. exists aj. f_equal. f_equal.
          apply (map_nth_error snd) in Ej. rewrite VI in Ej. cbn [snd] in Ej. rewrite <- (map_length snd) in Lj. rewrite VI, seq_length in Lj. rewrite nth_error_seq_d in Ej by exact Lj. cbn [Nat.add] in Ej. congruence. }
        destruct Hids as (aj & Ej). destruct (forall2_nth_l _ _ _ D2 j _ Ej) as (y & Hy & [_ Gy]). cbn [fst snd] in Gy. unfold all_groups. rewrite (map_nth_error snd _ _ Hy). f_equal.
        eapply group_at_unique; eassumption.
  Qed.
End Result.
