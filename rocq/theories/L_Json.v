(** Loading what has been dumped. *)
From Coq Require Import Ascii String List NArith ZArith Bool Lia.
From Verif Require Import PyBase PyStr PyRe M_Components M_Ahb M_Sgh M_Schema
  S_Text S_FlatAhb S_ValuePool S_DeepAhb S_Json L_Base L_Str L_Validators L_FlatAhb L_ValuePool L_Uuid.
Import ListNotations.
Local Open Scope list_scope.

Lemma both_ok {A B} (a : result A) (b : result B) p : both a b = Ok p <-> a = Ok (fst p) /\ b = Ok (snd p).
Proof.
  destruct p as [x y]. unfold both. cbn [fst snd]. destruct a as [a|e]; [destruct b as [b|e]|].
  - split; [intros [= -> ->]|intros [[= ->] [= ->]]]; auto.
  - split; [intros [=]|intros [_ [=]]].
  - split; [destruct e, b; intros [=]|intros [[=] _]].
Qed.

(** ** what the constructors accept *)
Lemma some_text_ok o : check_optional (fun s => check_not_blank (Some s)) o = Ok tt <-> some_text o.
Proof.
  rewrite check_optional_ok. unfold some_text. split; intros H s E.
  - specialize (H s E). apply check_not_blank_ok in H as (t & [= <-] & H). exact H.
  - apply check_not_blank_ok. exists s. auto.
Qed.
Lemma not_blank_ok s : check_not_blank (Some s) = Ok tt <-> ~ blank s.
Proof. rewrite check_not_blank_ok. split; [intros (t & [= <-] & H); exact H|intros H; exists s; auto]. Qed.
Ltac inv_tt := repeat match goal with x : unit |- _ => destruct x end.

Lemma new_Meta_ok m m' : new_Meta m = Ok m' <-> m' = m /\ valid_meta m.
Proof.
  unfold new_Meta, check_Meta, valid_meta. rewrite bind_ok. split.
  - intros ([] & H & [= <-]). apply bind_ok in H as ([] & H1 & H2). split; [reflexivity|].
    split; apply some_text_ok; assumption.
  - intros (-> & H1 & H2). exists tt. split; [|reflexivity]. apply bind_ok. exists tt. split; apply some_text_ok; assumption.
Qed.
Lemma new_AhbLine_ok l l' : new_AhbLine l = Ok l' <-> l' = l /\ some_text (al_expression l) /\ (forall i, al_index l = Some i -> (0 <= i)%Z).
Proof.
  unfold new_AhbLine, check_AhbLine. rewrite bind_ok. split.
  - intros ([] & H & [= <-]). apply bind_ok in H as ([] & H1 & H2). split; [reflexivity|].
    split; [apply some_text_ok; assumption|]. intros i E. rewrite check_optional_ok in H2. specialize (H2 i E).
    apply check_ok in H2. now apply Z.leb_le.
  - intros (-> & H1 & H2). exists tt. split; [|reflexivity]. apply bind_ok. exists tt. split; [apply some_text_ok; assumption|].
    apply check_optional_ok. intros i E. apply check_ok, Z.leb_le. auto.
Qed.
Lemma new_Entry_ok q m e x :
  new_ValuePoolEntry (Some q) (Some m) (Some e) = Ok x <-> x = mkEntry q m e /\ accepted_qualifier q /\ ~ blank e.
Proof.
  unfold new_ValuePoolEntry. cbn [check_is_str]. rewrite bind_ok. split.
  - intros ([] & H & K). cbn [bind] in K. apply bind_ok in K as ([] & H2 & [= <-]). split; [reflexivity|].
    apply check_qualifier_ok in H as (s & [= <-] & H). apply not_blank_ok in H2. auto.
  - intros (-> & H1 & H2). exists tt. split; [apply check_qualifier_ok; exists q; auto|]. cbn [bind].
    apply bind_ok. exists tt. split; [now apply not_blank_ok|reflexivity].
Qed.
Lemma check_data_element_ok d i x : check_data_element d (Some i) = Ok x <-> x = i /\ some_text d /\ n_digits 4 i.
Proof.
  unfold check_data_element. rewrite bind_ok. cbn [check_is_str bind]. split.
  - intros ([] & H & K). apply bind_ok in K as ([] & H2 & [= <-]). split; [reflexivity|].
    split; [now apply some_text_ok|]. now apply full_digits, check_re_ok.
  - intros (-> & H1 & H2). exists tt. split; [now apply some_text_ok|]. apply bind_ok. exists tt.
    split; [now apply check_re_ok, full_digits|reflexivity].
Qed.
Lemma new_FreeText_ok d i inp t e x :
  new_FreeText d (Some i) inp t (Some e) = Ok x
  <-> x = mkFreeText d i inp t e /\ some_text d /\ n_digits 4 i /\ ~ blank e.
Proof.
  unfold new_FreeText. cbn [check_is_str]. rewrite bind_ok. split.
  - intros (y & H & K). cbn [bind] in K. apply bind_ok in K as ([] & H2 & [= <-]). apply check_data_element_ok in H as (-> & H).
    apply not_blank_ok in H2. intuition.
  - intros (-> & H1 & H2 & H3). exists i. split; [now apply check_data_element_ok|]. cbn [bind]. apply bind_ok. exists tt.
    split; [now apply not_blank_ok|reflexivity].
Qed.
Lemma new_ValuePool_ok d i inp t p x :
  new_ValuePool d (Some i) inp t p = Ok x <-> x = mkPool d i inp t p /\ some_text d /\ n_digits 4 i.
Proof.
  unfold new_ValuePool. rewrite bind_ok. split.
  - intros (y & H & [= <-]). apply check_data_element_ok in H as (-> & H). auto.
  - intros (-> & H). exists i. split; [now apply check_data_element_ok|reflexivity].
Qed.
Lemma new_Segment_ok d e i es sn si x :
  new_Segment d (Some e) i es sn si = Ok x
  <-> x = mkSegment d e i es sn si /\ ~ blank e /\ (forall k, si = Some k -> n_digits 5 k).
Proof.
  unfold new_Segment. cbn [check_is_str bind]. rewrite bind_ok. split.
  - intros ([] & H & K). apply bind_ok in K as ([] & H2 & [= <-]). apply not_blank_ok in H. split; [reflexivity|]. split; [exact H|].
    intros k ->. now apply full_digits, check_re_ok.
  - intros (-> & H1 & H2). exists tt. split; [now apply not_blank_ok|]. apply bind_ok. exists tt. split; [|reflexivity].
    apply check_optional_ok. intros k E. now apply check_re_ok, full_digits, H2.
Qed.
Lemma new_Group_ok d e i ss gs x :
  new_SegmentGroup d (Some e) i ss gs = Ok x <-> x = mkGroup d e i ss gs /\ ~ blank e.
Proof.
  unfold new_SegmentGroup. cbn [check_is_str bind]. rewrite bind_ok. split.
  - intros ([] & H & [= <-]). apply not_blank_ok in H. auto.
  - intros (-> & H). exists tt. split; [now apply not_blank_ok|reflexivity].
Qed.
Lemma new_Flat_ok m ls x :
  new_FlatAhb m ls = Ok x
  <-> x = mkFlat m ls /\ Forall accepted_line ls
      /\ exists cs n, is_chunking enters_group ls cs /\ count_of has_control_segment cs n /\ n <= 2.
Proof.
  unfold new_FlatAhb. rewrite bind_ok. split.
  - intros ([] & H & [= <-]). apply check_flat_lines_ok in H as [F L]. split; [reflexivity|]. split; [exact F|].
    exists (split_when switches_from_no_sg_to_sg ls). eexists. split; [apply line_chunks|].
    split; [|exact L]. apply (count_of_filter _ _ _ _ contains_control_spec). reflexivity.
  - intros (-> & F & cs & n & H & C & L). exists tt. split; [|reflexivity]. apply check_flat_lines_ok. split; [exact F|].
    rewrite <- (is_chunking_unique _ _ _ _ H (line_chunks ls)).
    apply (count_of_filter _ _ _ _ contains_control_spec) in C. lia.
Qed.

(** ** lookups in dumped objects *)
Lemma get_hit {A} (f : json -> A) m k v r : get_with f m k ((k, v) :: r) = f v.
Proof. cbn [get_with]. now rewrite str_eqb_refl. Qed.
Lemma get_miss {A} (f : json -> A) m k k' v r : str_eqb k k' = false -> get_with f m k ((k', v) :: r) = get_with f m k r.
Proof. intros H. cbn [get_with]. now rewrite H. Qed.
Lemma get_nil {A} (f : json -> A) m k : get_with f m k [] = m.
Proof. reflexivity. Qed.
Lemma only_known_ok names o : forallb (fun k => str_in k names) (map fst o) = true -> only_known names o = Ok tt.
Proof.
  unfold only_known. intros H. apply check_ok. rewrite <- H. clear H. induction o as [|[k v] o IH]; [reflexivity|]. cbn [forallb map fst]. now rewrite IH.
Qed.
Ltac look :=
  unfold required, required_nullable, optional, optional_nullable, default_none;
  repeat first [rewrite get_hit | rewrite get_miss by (vm_compute; reflexivity) | rewrite get_nil];
  try (rewrite only_known_ok by (vm_compute; reflexivity)).

Lemma nullable_str o : nullable load_str (dump_opt JStr o) = Ok o.
Proof. destruct o; reflexivity. Qed.
Lemma present_nullable_str o : present (nullable load_str) (dump_opt JStr o) = Ok (Some o).
Proof. unfold present. now rewrite nullable_str. Qed.
Lemma nullable_int o : nullable load_int (dump_opt JInt o) = Ok o.
Proof. destruct o; reflexivity. Qed.
Lemma nullable_uuid o : (forall n, o = Some n -> (n < 2 ^ 128)%N) ->
  nullable load_uuid (dump_opt (fun n => JStr (str_of_uuid n)) o) = Ok o.
Proof.
  destruct o as [n|]; [|reflexivity]. intros H. cbn [dump_opt nullable load_uuid]. rewrite uuid_round_trip by (apply H; reflexivity). reflexivity.
Qed.

Section Items.
  Context {X Y : Type} (load : json -> result Y) (dump : X -> json) (c : X -> bool) (g : X -> Y).
  Lemma load_items_dumped l :
    (forall x, In x l -> dump x <> JNull /\ load (dump x) = if c x then Ok (g x) else Raise ValidationError) ->
    load_items load (map dump l) = if forallb c l then Ok (map g l) else Raise ValidationError.
  Proof.
    induction l as [|x l IH]; intros H; [reflexivity|]. cbn [map load_items forallb].
    assert (E : nonnull load (dump x) = load (dump x)) by (destruct (H x (or_introl eq_refl)) as [D _]; destruct (dump x); [congruence|reflexivity..]).
    rewrite E. destruct (H x (or_introl eq_refl)) as [_ ->]. rewrite IH by (intros y Hy; apply H; now right).
    destruct (c x), (forallb c l); reflexivity.
  Qed.
End Items.
Lemma load_items_dumped_ok {X Y} (load : json -> result Y) (dump : X -> json) (g : X -> Y) l :
  (forall x, In x l -> dump x <> JNull /\ load (dump x) = Ok (g x)) -> load_items load (map dump l) = Ok (map g l).
Proof.
  intros H. rewrite (load_items_dumped load dump (fun _ => true) g l H).
  assert (forallb (fun _ : X => true) l = true) as -> by (induction l; [reflexivity|apply IHl; intros x Hx; apply H; now right]).
  reflexivity.
Qed.

(** ** hierarchies *)
Lemma dump_sgh_obj h : dump_sgh h <> JNull.
Proof. destruct h; discriminate. Qed.
Lemma sgh_round_trip h : load_sgh (dump_sgh h) = Ok h.
Proof.
  induction h as [k o subs IH] using sgh_ind'. cbn [dump_sgh load_sgh]. look. rewrite nullable_str. cbn [nonnull load_str].
  destruct subs as [l|]; [|reflexivity]. cbn [olist] in IH.
  rewrite (load_items_dumped_ok load_sgh dump_sgh (fun h => h) l).
  - cbn [both bind argument]. now rewrite map_id.
  - intros x Hx. split; [apply dump_sgh_obj|]. rewrite Forall_forall in IH. now apply IH.
Qed.

(** ** flat AHBs *)
Lemma line_round_trip l : valid_line l -> load_line (dump_line l) = Ok l.
Proof.
  intros (H1 & H2 & H3). unfold dump_line, load_line. look. rewrite !nullable_str, nullable_int, nullable_uuid by exact H3.
  cbn [both bind]. apply new_AhbLine_ok. cbn [al_expression al_index]. destruct l; auto.
Qed.
Lemma meta_round_trip m : valid_meta m -> load_meta (dump_meta m) = Ok m.
Proof.
  intros H. unfold dump_meta, load_meta. look. rewrite !present_nullable_str. cbn [nonnull load_str both bind or_default].
  apply new_Meta_ok. destruct m; auto.
Qed.
Lemma flat_round_trip a : valid_flat a -> load_flat (dump_flat a) = Ok a.
Proof.
  intros (Hm & Hl & Ha & Hc). unfold dump_flat, load_flat. look.
  unfold present at 1. change (nonnull load_meta (dump_meta (fa_meta a))) with (load_meta (dump_meta (fa_meta a))).
  rewrite (meta_round_trip _ Hm). unfold present, nonnull, load_list.
  rewrite (load_items_dumped_ok load_line dump_line (fun l => l)).
  - cbn [both bind argument]. rewrite map_id. apply new_Flat_ok. destruct a; auto.
  - intros l Hin. split; [discriminate|]. rewrite Forall_forall in Hl. apply line_round_trip, Hl, Hin.
Qed.

(** ** deep AHBs *)
Section Deep.
  Variable ca : pystr -> option bool.
  Definition has_type (d : DataElement) : bool := is_some (type_of d).
  Definition has_all (s : Segment) : bool := is_some (seg_section s) && forallb has_type (seg_elements s).
  Fixpoint tree_complete (g : SegmentGroup) : bool :=
    match g with
    | mkGroup _ _ _ ss gs =>
        forallb has_all (olist ss) && match gs with Some l => forallb tree_complete l | None => true end
    end.

  Lemma entry_round_trip e : valid_entry e -> load_entry (dump_entry e) = Ok e.
  Proof.
    intros [H1 H2]. unfold dump_entry, load_entry. look. cbn [nonnull load_str both bind]. apply new_Entry_ok. destruct e; auto.
  Qed.
  Lemma type_dumped t : present (nonnull (load_type ca)) (dump_opt (fun t => JStr (type_name t)) t)
                        = match t with Some t => Ok (Some (AMember t)) | None => Raise ValidationError end.
  Proof. destruct t as [[| |]|]; reflexivity. Qed.

  Lemma free_text_round_trip f : valid_element (DFree f) ->
    load_free_text ca (dump_free_text f) = if is_some (ft_type f) then Ok f else Raise ValidationError.
  Proof.
    intros (H1 & H2 & H3). unfold dump_free_text, load_free_text, load_common.
    destruct f as [d i [inp|] t e]; cbn [ft_discriminator ft_id ft_input ft_type ft_expression dump_input app] in *; look;
      rewrite present_nullable_str, type_dumped; destruct t as [t|]; try reflexivity;
      cbn [nonnull nullable load_str both bind argument check_type is_some is_none negb];
      apply bind_ok; exists i; (split; [apply check_data_element_ok; auto|]);
      apply new_FreeText_ok; auto.
  Qed.
  Lemma pool_round_trip p : valid_element (DPool p) ->
    load_pool ca (dump_pool p) = if is_some (vp_type p) then Ok p else Raise ValidationError.
  Proof.
    intros (H1 & H2 & H3). unfold dump_pool, load_pool, load_common.
    assert (E : load_items load_entry (map dump_entry (vp_pool p)) = Ok (vp_pool p)).
    { rewrite (load_items_dumped_ok load_entry dump_entry (fun e => e)); [now rewrite map_id|].
      intros x Hx. split; [discriminate|]. rewrite Forall_forall in H3. apply entry_round_trip, H3, Hx. }
    destruct p as [d i [inp|] t es]; cbn [vp_discriminator vp_id vp_input vp_type vp_pool dump_input app] in *; look;
      rewrite present_nullable_str, type_dumped; unfold nonnull, load_list; rewrite E; destruct t as [t|]; try reflexivity;
      cbn [nonnull nullable load_str both bind argument check_type is_some is_none negb];
      apply bind_ok; exists i; (split; [apply check_data_element_ok; auto|]);
      apply new_ValuePool_ok; auto.
  Qed.
  Lemma element_round_trip d : valid_element d ->
    load_element ca (dump_element d) = if has_type d then Ok d else Raise ValidationError.
  Proof.
    intros H. destruct d as [f|p]; cbn [dump_element]; unfold load_element.
    - unfold dump_free_text at 1.
      match goal with |- context [str_in ?x ?l] => assert (str_in x l = false) as -> end.
      { destruct (ft_input f); vm_compute; reflexivity. }
      change (JObj _) with (dump_free_text f). rewrite (free_text_round_trip f H). unfold has_type. cbn [type_of].
      destruct (is_some (ft_type f)); reflexivity.
    - unfold dump_pool at 1.
      match goal with |- context [str_in ?x ?l] => assert (str_in x l = true) as -> end.
      { destruct (vp_input p); vm_compute; reflexivity. }
      change (JObj _) with (dump_pool p). rewrite (pool_round_trip p H). unfold has_type. cbn [type_of].
      destruct (is_some (vp_type p)); reflexivity.
  Qed.
  Lemma segment_round_trip s : valid_segment s ->
    load_segment ca (dump_segment s) = if has_all s then Ok (segment_reset_index s) else Raise ValidationError.
  Proof.
    intros (H1 & H2 & H3). unfold dump_segment, load_segment. look.
    rewrite present_nullable_str. cbn [nonnull load_str nullable]. unfold present at 1. cbn [nonnull load_list].
    rewrite (load_items_dumped (load_element ca) dump_element has_type (fun d => d)).
    2:{ intros d Hd. split; [destruct d; discriminate|]. rewrite Forall_forall in H2. apply element_round_trip, H2, Hd. }
    rewrite map_id. unfold has_all.
    assert (E : present (nonnull load_str) (dump_opt JStr (seg_section s))
                = match seg_section s with Some n => Ok (Some n) | None => Raise ValidationError end) by (destruct (seg_section s); reflexivity).
    rewrite E. destruct s as [d e i es sn si]; cbn [seg_section seg_elements seg_discriminator seg_expression seg_id] in *.
    destruct (forallb has_type es), sn as [n|]; cbn [both is_some is_none negb andb]; try reflexivity.
    cbn [bind argument or_default]. apply new_Segment_ok. auto.
  Qed.

  Lemma inside_child g l h k : g_groups g = Some l -> In h l -> inside h k -> inside g k.
  Proof.
    intros E Hin H. induction H as [|h' k' l' _ IH E' Hin']; [eapply inside_deeper; [apply inside_self|exact E|exact Hin]|].
    eapply inside_deeper; eauto.
  Qed.
  Lemma valid_tree_child g l h : valid_group_tree g -> g_groups g = Some l -> In h l -> valid_group_tree h.
  Proof.
    intros [V1 V2] E Hin. split.
    - intros k Hk. apply V1. eapply inside_child; eauto.
    - intros s (k & Hk & Hs). apply V2. exists k. split; [eapply inside_child; eauto|exact Hs].
  Qed.
  Lemma group_round_trip g : valid_group_tree g ->
    load_group ca (dump_group g) = if tree_complete g then Ok (group_reset_index g) else Raise ValidationError.
  Proof.
    induction g as [d e i ss gs IH] using group_ind'. intros V. cbn [dump_group load_group]. look. cbn [nonnull nullable load_str].
    assert (Es : nullable (load_list (load_segment ca)) (dump_opt (fun l => JList (map dump_segment l)) ss)
                 = if forallb has_all (olist ss) then Ok (option_map (map segment_reset_index) ss) else Raise ValidationError).
    { destruct ss as [l|]; [|reflexivity]. cbn [dump_opt nullable load_list olist].
      rewrite (load_items_dumped (load_segment ca) dump_segment has_all segment_reset_index).
      - destruct (forallb has_all l); reflexivity.
      - intros s Hs. split; [discriminate|]. apply segment_round_trip. apply V.
        exists (mkGroup d e i (Some l) gs). split; [apply inside_self|]. exists l. auto. }
    rewrite Es. clear Es.
    assert (Eg : match (match gs with Some l => JList (map dump_group l) | None => JNull end) with
                 | JNull => Ok None
                 | JList l => match load_items (load_group ca) l with Ok x => Ok (Some x) | Raise e => Raise e end
                 | _ => Raise ValidationError
                 end = if match gs with Some l => forallb tree_complete l | None => true end
                       then Ok (option_map (map group_reset_index) gs) else Raise ValidationError).
    { destruct gs as [l|]; [|reflexivity]. cbn [olist] in IH.
      rewrite (load_items_dumped (load_group ca) dump_group tree_complete group_reset_index).
      - destruct (forallb tree_complete l); reflexivity.
      - intros x Hx. split; [destruct x; discriminate|]. rewrite Forall_forall in IH. apply IH; [exact Hx|].
        eapply valid_tree_child; [exact V|reflexivity|exact Hx]. }
    rewrite Eg. clear Eg. cbn [tree_complete group_reset_index].
    destruct (forallb has_all (olist ss)), (match gs with Some l => forallb tree_complete l | None => true end); cbn [both andb bind]; try reflexivity.
    apply new_Group_ok. split; [reflexivity|]. apply (proj1 V _ (inside_self _)).
  Qed.

  Lemma deep_round_trip a : valid_deep a ->
    load_deep ca (dump_deep a) = if forallb tree_complete (da_lines a) then Ok (deep_reset_index a) else Raise ValidationError.
  Proof.
    intros (Hm & Hg & Hs). unfold dump_deep, load_deep. look.
    unfold present at 1. change (nonnull load_meta (dump_meta (da_meta a))) with (load_meta (dump_meta (da_meta a))).
    rewrite (meta_round_trip _ Hm). unfold present, nonnull, load_list.
    rewrite (load_items_dumped (load_group ca) dump_group tree_complete group_reset_index).
    - destruct (forallb tree_complete (da_lines a)); reflexivity.
    - intros g Hin. split; [destruct g; discriminate|]. apply group_round_trip. split.
      + intros h Hh. apply Hg. exists g. auto.
      + intros s (h & Hh & Hd). apply Hs. exists h. split; [exists g; auto|exact Hd].
  Qed.

  (** ** completeness *)
  Lemma has_all_spec s : has_all s = true <-> complete_segment s.
  Proof.
    unfold has_all, complete_segment. rewrite andb_true_iff, forallb_forall, is_some_true. split.
    - intros [(n & ->) H]. split; [discriminate|]. intros d Hd. specialize (H d Hd). unfold has_type in H.
      apply is_some_true in H as (t & ->). discriminate.
    - intros [H K]. split; [destruct (seg_section s) as [n|]; [now exists n|congruence]|]. intros d Hd. specialize (K d Hd).
      unfold has_type. apply is_some_true. destruct (type_of d) as [t|]; [now exists t|congruence].
  Qed.
  Lemma tree_complete_spec g : tree_complete g = true <-> forall s, segment_inside g s -> complete_segment s.
  Proof.
    induction g as [d e i ss gs IH] using group_ind'. cbn [tree_complete]. rewrite andb_true_iff, forallb_forall.
    assert (Eg : match gs with Some l => forallb tree_complete l | None => true end = true <-> forall g, In g (olist gs) -> forall s, segment_inside g s -> complete_segment s).
    { destruct gs as [l|]; cbn [olist] in *; [|split; [intros _ g []|reflexivity]]. rewrite forallb_forall. rewrite Forall_forall in IH.
      split; intros H g Hg; specialize (H g Hg); now apply IH. }
    rewrite Eg. split.
    - intros [H K] s (h & Hh & Hs).
      assert (C : h = mkGroup d e i ss gs \/ exists g, In g (olist gs) /\ inside g h).
      { clear -Hh. induction Hh as [|h k l Hh IH E Hin]; [now left|]. right. destruct IH as [-> |(g & Hg & IH)].
        - cbn [g_groups] in E. subst gs. exists k. split; [exact Hin|apply inside_self].
        - exists g. split; [exact Hg|]. eapply inside_deeper; eauto. }
      destruct C as [-> |(g & Hg & Hi)].
      + destruct Hs as (l & E & Hin). cbn [g_segments] in E. subst ss. apply has_all_spec, H, Hin.
      + apply (K g Hg). exists h. auto.
    - intros H. split.
      + intros s Hs. apply has_all_spec, H. exists (mkGroup d e i ss gs). split; [apply inside_self|].
        destruct ss as [l|]; [|destruct Hs]. exists l. auto.
      + intros g Hg s (h & Hh & Hs). apply H. exists h. split; [|exact Hs]. destruct gs as [l|]; [|destruct Hg].
        eapply inside_child; [reflexivity|exact Hg|exact Hh].
  Qed.
  Lemma complete_spec a : forallb tree_complete (da_lines a) = true <-> complete a.
  Proof.
    rewrite forallb_forall. split.
    - intros H s (g & (line & Hl & Hi) & Hd). specialize (H line Hl). rewrite tree_complete_spec in H. apply H. exists g. auto.
    - intros H line Hl. apply tree_complete_spec. intros s (g & Hi & Hd). apply H. exists g. split; [exists line; auto|exact Hd].
  Qed.
End Deep.
