(** Lemmas: to_deep_ahb with two MIG readers. *)
From Coq Require Import Ascii String List NArith ZArith Bool Lia Arith.
From Verif Require Import PyBase PyStr PyRe M_Components M_Ahb M_Sgh M_Navigation M_Matching
  S_Prefix S_Text S_ValuePool S_Navigation S_Matching L_Base L_Prefix L_Str L_Validators L_ValuePool L_Matching L_DeepTree L_DeepLoop L_DeepResult.
Import ListNotations.
Local Open Scope list_scope.

Definition fmap {A B} (f : A -> B) (r : result A) : result B := match r with Ok a => Ok (f a) | Raise e => Raise e end.
(** ** forgetting discriminators *)
Definition ec (c : GroupCell) : GroupCell :=
  mkCell (gc_discriminator c) (gc_expression c) (gc_index c) (map anonymous_segment (gc_segments c)) (gc_groups c).
Definition eh (h : Heap) : Heap := mkHeap (hp_lines h) (map ec (hp_cells h)).
Definition es (st : DeepState) : DeepState :=
  mkDS (eh (ds_heap st)) (ds_segments_here st) (ds_sg_here st) (ds_elements_here st) (ds_previous st) (ds_parents st) (ds_used st).
Lemma map_list_set {A B} (f : A -> B) i x l : map f (list_set i x l) = list_set i (f x) (map f l).
Proof. revert i; induction l as [|y l IH]; intros [|i]; cbn; try reflexivity. now rewrite IH. Qed.
Lemma nth_map {A B} (f : A -> B) l i : nth_error (map f l) i = option_map f (nth_error l i).
Proof. revert i; induction l as [|y l IH]; intros [|i]; cbn; try reflexivity. apply IH. Qed.
Lemma eh_update g k k' h : (forall c, ec (k c) = k' (ec c)) -> eh (update_cell g k h) = update_cell g k' (eh h).
Proof.
  intros H. unfold update_cell. cbn [eh hp_cells hp_lines]. rewrite nth_map. destruct (nth_error (hp_cells h) g) as [c|]; cbn [option_map]; [|reflexivity].
  unfold eh. cbn [hp_lines hp_cells]. now rewrite map_list_set, H.
Qed.
Lemma eh_append_group r g h : eh (append_group r g h) = append_group r g (eh h).
Proof. destruct r as [|p]; cbn [append_group]; [reflexivity|]. apply eh_update. reflexivity. Qed.
Lemma eh_append_segment g s h : eh (append_segment g s h) = append_segment g (anonymous_segment s) (eh h).
Proof. apply eh_update. intros c. unfold ec. cbn. now rewrite map_app. Qed.
Lemma anonymous_add d s : anonymous_segment (add_element d s) = add_element (anonymous_element d) (anonymous_segment s).
Proof. unfold anonymous_segment, add_element. cbn. now rewrite map_app. Qed.
Lemma eh_append_element ref d h : eh (append_element ref d h) = append_element ref (anonymous_element d) (eh h).
Proof.
  apply eh_update. intros c. unfold ec. cbn [gc_discriminator gc_expression gc_index gc_segments gc_groups]. f_equal. rewrite nth_map.
  destruct (nth_error (gc_segments c) (snd ref)) as [s|]; cbn [option_map]; [|reflexivity]. now rewrite map_list_set, anonymous_add.
Qed.
Lemma eh_count h g : segment_count (eh h) g = segment_count h g.
Proof. unfold segment_count. cbn [eh hp_cells]. rewrite nth_map. destruct (nth_error (hp_cells h) g) as [c|]; cbn; [apply map_length|reflexivity]. Qed.
Lemma eh_deref h r : deref (eh h) r = deref h r.
Proof. destruct r as [|g]; cbn [deref eh hp_lines hp_cells]; [reflexivity|]. rewrite nth_map. destruct (nth_error (hp_cells h) g); reflexivity. Qed.
Lemma eh_go_down n : forall h r ps, go_down n (eh h) r ps = go_down n h r ps.
Proof. induction n as [|n IH]; intros h [r|] ps; cbn [go_down]; try reflexivity. rewrite eh_deref. destruct (last_of (deref h r)) as [g|e]; cbn [bind]; [apply IH|reflexivity]. Qed.
Lemma es_open_group st pos path first : open_group (es st) pos path first = fmap es (open_group st pos path first).
Proof.
  unfold open_group. destruct (new_SegmentGroup path _ _ _ _) as [g|e]; cbn [bind]; [|reflexivity].
  cbn [es ds_heap ds_previous ds_sg_here ds_parents ds_elements_here ds_used eh hp_cells hp_lines]. rewrite map_length.
  set (id := List.length (hp_cells (ds_heap st))). set (c0 := mkCell (g_discriminator g) (g_expression g) (g_index g) [] []).
  set (heap := mkHeap (hp_lines (ds_heap st)) (hp_cells (ds_heap st) ++ [c0])).
  assert (Eh : mkHeap (hp_lines (ds_heap st)) (map ec (hp_cells (ds_heap st)) ++ [c0]) = eh heap) by (unfold eh, heap; cbn [hp_lines hp_cells]; now rewrite map_app).
  rewrite Eh.
  assert (R : forall r ps, mkDS (append_group r id (eh heap)) (Some id) (Some (RefGroups id)) (ds_elements_here st) (ds_previous st) ps (path :: ds_used st)
     = es (mkDS (append_group r id heap) (Some id) (Some (RefGroups id)) (ds_elements_here st) (ds_previous st) ps (path :: ds_used st))).
  { intros r ps. unfold es. cbn [ds_heap ds_segments_here ds_sg_here ds_elements_here ds_previous ds_parents ds_used]. now rewrite eh_append_group. }
  destruct (str_eqb (g_discriminator g) root_discriminator); [rewrite R; reflexivity|].
  destruct (ds_previous st) as [prev|]; [|reflexivity]. destruct (is_sub_location_of pos prev).
  - destruct (ds_sg_here st) as [r|]; [|reflexivity]. rewrite R. reflexivity.
  - destruct (calculate_distance prev pos) as [d|e]; cbn [bind]; [|reflexivity]. destruct (go_up (layers_up d) (ds_sg_here st) (ds_parents st)) as [[sg ps]|e]; cbn [bind]; [|reflexivity].
    rewrite eh_go_down. destruct (go_down (layers_down d - 1) heap sg ps) as [[sg2 ps2]|e]; cbn [bind]; [|reflexivity]. destruct sg2 as [r|]; [|reflexivity]. rewrite R. reflexivity.
Qed.

(** ** merging does not depend on the stack *)
Lemma check_data_element_any d id i : check_data_element d id = Ok i -> forall st, check_data_element (option_map to_json_path st) id = Ok i.
Proof.
  unfold check_data_element. intros H st.
  assert (E : check_optional (fun s => check_not_blank (Some s)) (option_map to_json_path st) = Ok tt).
  { apply check_optional_ok. intros a Ha. apply check_not_blank_ok. destruct st as [st|]; [|discriminate]. injection Ha as <-. exists (to_json_path st). split; [reflexivity|apply json_path_not_blank]. }
  rewrite E. apply bind_ok in H as (y & _ & H). exact H.
Qed.
Lemma merge_any lines st d : merge_lines_with_same_data_element lines st = Ok d ->
  forall st', exists d', merge_lines_with_same_data_element lines st' = Ok d' /\ anonymous_element d' = anonymous_element d.
Proof.
  unfold merge_lines_with_same_data_element. intros H st'. apply bind_ok in H as (y & Hy & H). rewrite Hy. cbn [bind]. destruct lines as [|l0 lines]; [discriminate|].
  destruct (is_some (al_entry l0)).
  - apply bind_ok in H as (p & Hp & H). apply bind_ok in H as (es & He & H). injection H as <-. unfold new_ValuePool in *. apply bind_ok in Hp as (i & Hi & Hp). injection Hp as <-.
    rewrite (check_data_element_any _ _ _ Hi st'). cbn [bind]. rewrite He. cbn [bind]. eexists. split; reflexivity.
  - apply bind_ok in H as (p & Hp & H). unfold new_FreeText in *. apply bind_ok in Hp as (i & Hi & Hp). apply bind_ok in Hp as (e & He & Hp). apply bind_ok in Hp as (x & Hx & Hp). injection Hp as <-.
    rewrite (check_data_element_any _ _ _ Hi st'). cbn [bind]. rewrite He. cbn [bind]. rewrite Hx. cbn [bind]. destruct (derive_data_type_from_segment_code (al_segment l0)); injection H as <-; eexists; (split; [reflexivity|]); reflexivity.
Qed.

Section Two.
  Variables reader reader' : Location -> result EdifactStack.
  Variable str_of_location : Location -> pystr.
  Hypothesis OnlyVE : only_value_errors reader'.

  Lemma lookup_returns r : lookup_stack reader' (place r) r = Ok (stack_of reader' r).
  Proof.
    assert (R : forall n p, retry_stack reader' (S n) p = Ok (match reader' p with Ok x => Some x | Raise _ => None end)).
    { induction n as [|n IH]; intros p; cbn [retry_stack]; destruct (reader' p) as [x|e] eqn:E; try reflexivity; rewrite (OnlyVE _ _ E); [reflexivity|].
      specialize (IH p). cbn [retry_stack] in IH. rewrite E in IH. rewrite (OnlyVE _ _ E) in IH. exact IH. }
    unfold lookup_stack, stack_of. destruct (reader' (place r)) as [x|e] eqn:E; [reflexivity|]. rewrite (OnlyVE _ _ E).
    destruct r as [|[l p] [|y r]]; cbn [List.length Nat.ltb Nat.leb]; try reflexivity. apply R.
  Qed.
  Lemma es_fields st st' : es st = es st' -> eh (ds_heap st) = eh (ds_heap st') /\ ds_segments_here st = ds_segments_here st' /\ ds_sg_here st = ds_sg_here st'
    /\ ds_elements_here st = ds_elements_here st' /\ ds_previous st = ds_previous st' /\ ds_parents st = ds_parents st' /\ ds_used st = ds_used st'.
  Proof. intros H. unfold es in H. assert (forall {B} (g : DeepState -> B), g (mkDS (eh (ds_heap st)) (ds_segments_here st) (ds_sg_here st) (ds_elements_here st) (ds_previous st) (ds_parents st) (ds_used st)) = g (mkDS (eh (ds_heap st')) (ds_segments_here st') (ds_sg_here st') (ds_elements_here st') (ds_previous st') (ds_parents st') (ds_used st'))) as G by (intros B g; now rewrite H).
    repeat split; [exact (G _ ds_heap)|exact (G _ ds_segments_here)|exact (G _ ds_sg_here)|exact (G _ ds_elements_here)|exact (G _ ds_previous)|exact (G _ ds_parents)|exact (G _ ds_used)]. Qed.
  Lemma es_intro st st' : eh (ds_heap st) = eh (ds_heap st') -> ds_segments_here st = ds_segments_here st' -> ds_sg_here st = ds_sg_here st' ->
    ds_elements_here st = ds_elements_here st' -> ds_previous st = ds_previous st' -> ds_parents st = ds_parents st' -> ds_used st = ds_used st' -> es st = es st'.
  Proof. intros. unfold es. congruence. Qed.

  Lemma step_two st st2 r st1 : r <> [] -> (opening_lines r -> stack_of reader' r = stack_of reader r) -> es st = es st2 ->
    deep_step reader str_of_location st (run_key r, r) = Ok st1 ->
    exists st3, deep_step reader' str_of_location st2 (run_key r, r) = Ok st3 /\ es st1 = es st3.
  Proof.
    intros Hr HO HE H. unfold deep_step in *. rewrite (place_key r Hr) in *. fold (run_lines r) in *.
    destruct (existsb (fun l => is_some (al_segment l)) (run_lines r)) eqn:ES; cbn [negb] in *; [|exists st2; split; congruence].
    apply bind_ok in H as (stack & Hs & H). apply lookup_ok in Hs. subst stack. rewrite lookup_returns. cbn [bind].
    destruct (es_fields _ _ HE) as (F1 & F2 & F3 & F4 & F5 & F6 & F7).
    destruct (existsb (fun l => is_some (al_element l)) (run_lines r)) eqn:EE.
    - destruct (existsb (fun l => is_some (al_expression l)) (run_lines r)) eqn:EX; cbn [negb] in *; [|exists st2; split; congruence].
      apply bind_ok in H as (d & Hd & H). destruct (merge_any _ _ _ Hd (stack_of reader' r)) as (d' & Hd' & Ed). rewrite Hd'. cbn [bind]. rewrite <- F4.
      destruct (ds_elements_here st) as [ref|]; [|discriminate]. injection H as <-. eexists. split; [reflexivity|].
      apply es_intro; cbn; try assumption; try reflexivity. now rewrite !eh_append_element, Ed, F1.
    - apply bind_ok in H as (first & Hf & H). apply bind_ok in H as (last & Hl & H). apply bind_ok in H as (opens & Ho & H). apply bind_ok in H as (stm & H1 & H).
      rewrite Hf. cbn [bind]. rewrite Hl. cbn [bind].
      unfold opens_group in *. apply bind_ok in Ho as (layer & Hlay & Ho). rewrite Hlay. cbn [bind]. rewrite <- F7.
      match type of Ho with Ok ?b = Ok ?c => assert (Ho' : b = c) by congruence; clear Ho; rename Ho' into Ho end.
      set (a1 := ostr_eqb (al_group first) (ly_key layer)) in *. set (a2 := ostr_eqb (Some (ly_opening layer)) (al_segment last)) in *. set (a4 := is_some (al_expression first)) in *.
      assert (Op : exists stm2, (if a1 && a2 && match stack_of reader' r with Some s => negb (str_in (to_json_path s) (ds_used st)) | None => false end && a4
                 then match stack_of reader' r with Some s => open_group st2 (place r) (to_json_path s) first | None => Ok st2 end else Ok st2) = Ok stm2 /\ es stm = es stm2).
      { destruct (a1 && a2 && a4) eqn:A.
        - apply andb_true_iff in A as [A A4]. apply andb_true_iff in A as [A1 A2].
          assert (O : opening_lines r).
          { apply first_of_ok in Hf as (fr & Hf). apply last_of_ok in Hl as (lr & Hl). apply last_of_ok in Hlay as (outer & Hlay).
            exists first, last, outer, layer. rewrite Hf. split; [reflexivity|]. split; [rewrite <- Hf; eauto|]. split; [exact Hlay|]. apply ostr_eqb_eq in A1, A2. split; [exact A1|]. split; [congruence|].
            unfold a4 in A4. destruct (al_expression first); [discriminate|discriminate A4]. }
          rewrite (HO O). rewrite Ho. destruct opens; [|injection H1 as <-; eauto]. destruct (stack_of reader r) as [s|]; [|injection H1 as <-; eauto].
          pose proof (es_open_group st (place r) (to_json_path s) first) as O1. pose proof (es_open_group st2 (place r) (to_json_path s) first) as O2. rewrite <- HE in O2. rewrite H1 in O1. rewrite O1 in O2.
          destruct (open_group st2 (place r) (to_json_path s) first) as [stm2|e]; [|discriminate]. cbn [fmap] in O2. exists stm2. split; [reflexivity|]. congruence.
        - assert (Z : forall b, a1 && a2 && b && a4 = false) by (intros b; destruct a1, a2, b, a4; cbn in *; congruence). rewrite Z in Ho |- *. subst opens. injection H1 as <-. exists st2. auto. }
      destruct Op as (stm2 & -> & Em). cbn [bind]. unfold add_segment in *. apply bind_ok in H as (x1 & Hx1 & H). apply bind_ok in H as (x2 & Hx2 & H). rewrite Hx1, Hx2. cbn [bind].
      destruct (find (fun l => otruthy (al_expression l)) (run_lines r)) as [x|]; [|injection H as <-; eauto].
      apply bind_ok in H as (s & Hs & H). unfold new_Segment in *. apply bind_ok in Hs as (e & He & Hs). apply bind_ok in Hs as (x3 & Hx3 & Hs). cbn [check_optional bind] in Hs. injection Hs as <-.
      rewrite He. cbn [bind]. rewrite Hx3. cbn [bind check_optional]. destruct (es_fields _ _ Em) as (G1 & G2 & G3 & G4 & G5 & G6 & G7). rewrite <- G2.
      destruct (ds_segments_here stm) as [g|]; [|discriminate]. injection H as <-. eexists. split; [reflexivity|].
      apply es_intro; cbn [ds_heap ds_segments_here ds_sg_here ds_elements_here ds_previous ds_parents ds_used]; try assumption; try reflexivity.
      + rewrite !eh_append_segment, G1. reflexivity.
      + now rewrite <- (eh_count (ds_heap stm)), <- (eh_count (ds_heap stm2)), G1.
  Qed.
  Lemma loop_two runs : forall st st2 st1, (forall r, In r runs -> r <> [] /\ (opening_lines r -> stack_of reader' r = stack_of reader r)) -> es st = es st2 ->
    foldM (deep_step reader str_of_location) st (map (fun r => (run_key r, r)) runs) = Ok st1 ->
    exists st3, foldM (deep_step reader' str_of_location) st2 (map (fun r => (run_key r, r)) runs) = Ok st3 /\ es st1 = es st3.
  Proof.
    induction runs as [|r runs IH]; intros st st2 st1 HR HE H; cbn [map foldM] in *.
    - injection H as <-. eauto.
    - apply bind_ok in H as (sta & Ha & H). destruct (HR r (or_introl eq_refl)) as [R1 R2]. destruct (step_two st st2 r sta R1 R2 HE Ha) as (stb & Hb & Eb).
      destruct (IH sta stb st1 ltac:(intros x Hx; apply HR; now right) Eb H) as (stc & Hc & Ec). exists stc. split; [|exact Ec]. apply bind_ok. exists stb. auto.
  Qed.
End Two.
Lemma render_ec fuel : forall cells g, render fuel (map ec cells) g = map anonymous_group (render fuel cells g).
Proof.
  induction fuel as [|fuel IH]; intros cells g; cbn [render]; [reflexivity|]. rewrite nth_map. destruct (nth_error cells g) as [c|]; cbn [option_map map]; [|reflexivity].
  f_equal. cbn [anonymous_group ec gc_discriminator gc_expression gc_index gc_segments gc_groups option_map]. f_equal. f_equal.
  induction (gc_groups c) as [|x l IHl]; cbn [flat_map map]; [reflexivity|]. now rewrite map_app, IHl, IH.
Qed.
Lemma render_lines_eh h : render_lines (eh h) = map anonymous_group (render_lines h).
Proof.
  unfold render_lines. cbn [eh hp_lines hp_cells]. rewrite map_length. generalize (List.length (hp_cells h)). intros n. induction (hp_lines h) as [|x l IHl]; cbn [flat_map map]; [reflexivity|].
  now rewrite map_app, IHl, render_ec.
Qed.
