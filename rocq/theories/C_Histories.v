(** Property C80: no history of updates makes a deep AHB invalid or changes its structure. *)
From Coq Require Import Ascii String List NArith ZArith Bool Lia.
From Verif Require Import PyBase PyStr M_Components M_Ahb M_Callbacks M_Sgh M_Schema M_Transformation
  S_Text S_Numbers S_ValuePool S_DeepAhb S_Json S_Histories S_Callbacks L_Base L_Str L_ValuePool L_DeepAhb L_Positions L_Json L_Callbacks C_DeepAhb C_Callbacks C_Json C_Preserved.
Import ListNotations.
Local Open Scope list_scope.

(** ** relations between AHBs *)
Section Related.
  Variable R : DataElement -> DataElement -> Prop.
  Variable I : option Z -> option Z -> Prop.

  Lemma related_discriminator g g' : groups_related R I g g' -> g_expression g' = g_expression g.
  Proof. now inversion 1. Qed.
  Lemma related_inside g g' : groups_related R I g g' -> forall h', inside g' h' -> exists h, inside g h /\ groups_related R I h h'.
  Proof.
    intros H h' K. induction K as [|h' k' l' _ IH E L]; [exists g; split; [constructor|exact H]|].
    destruct IH as (h & K & Q). inversion Q as [d e i i' ss ss' gs gs' _ _ G]; subst. cbn in E. subst gs'. inversion G as [|l l1 F]; subst.
    destruct (forall2_in_r _ _ _ _ F L) as (k & K' & Q'). exists k. split; [|exact Q']. eapply inside_deeper; [exact K|reflexivity|exact K'].
  Qed.
  Lemma related_group a a' g' : ahbs_related R I a a' -> group_of a' g' -> exists g, group_of a g /\ groups_related R I g g'.
  Proof.
    intros (_ & F) (line' & L & K). destruct (forall2_in_r _ _ _ _ F L) as (line & L' & Q). destruct (related_inside _ _ Q _ K) as (g & K' & Q').
    exists g. split; [now exists line|exact Q'].
  Qed.
  Lemma related_segment a a' s' : ahbs_related R I a a' -> segment_of a' s' -> exists s, segment_of a s /\ segments_related R I s s'.
  Proof.
    intros H (g' & G & l' & E & L). destruct (related_group _ _ _ H G) as (g & G' & Q). inversion Q as [d e i i' ss ss' gs gs' _ S0 _]; subst. cbn in E. subst ss'.
    inversion S0 as [|l l1 F]; subst. destruct (forall2_in_r _ _ _ _ F L) as (s & K & Q'). exists s. split; [|exact Q'].
    exists (mkGroup d e i (Some l) gs). split; [exact G'|]. now exists l.
  Qed.
  Lemma related_valid a a' : (forall d d', R d d' -> valid_element d -> valid_element d') -> ahbs_related R I a a' -> valid_deep a -> valid_deep a'.
  Proof.
    intros V H (M & G & Q). split; [|split].
    - destruct H as (E & _). rewrite E. exact M.
    - intros g' K. destruct (related_group _ _ _ H K) as (g & K' & T). rewrite (related_discriminator _ _ T). auto.
    - intros s' K. destruct (related_segment _ _ _ H K) as (s & K' & T). destruct (Q s K') as (A & B & C). destruct T as (_ & E & _ & F & _ & J). split; [|split].
      + now rewrite E.
      + rewrite Forall_forall in B |- *. intros d' D. destruct (forall2_in_r _ _ _ _ F D) as (d & D' & T). eauto.
      + rewrite J. exact C.
  Qed.
  Lemma related_complete a a' : (forall d d', R d d' -> type_of d' = type_of d) -> ahbs_related R I a a' -> complete a -> complete a'.
  Proof.
    intros V H C s' K. destruct (related_segment _ _ _ H K) as (s & K' & T). destruct (C s K') as (A & B). destruct T as (_ & _ & _ & F & E & _). split; [now rewrite E|].
    intros d' D. destruct (forall2_in_r _ _ _ _ F D) as (d & D' & T). rewrite (V _ _ T). auto.
  Qed.

  Lemma segments_refl s : (forall d, R d d) -> (forall i, I i i) -> segments_related R I s s.
  Proof. intros H K. unfold segments_related. repeat split; auto. induction (seg_elements s); constructor; auto. Qed.
  Lemma groups_refl g : (forall d, R d d) -> (forall i, I i i) -> groups_related R I g g.
  Proof.
    intros H K. induction g as [d e i ss gs IH] using group_ind'. rewrite Forall_forall in IH. constructor; [apply K| |].
    - destruct ss as [l|]; constructor. induction l; constructor; auto using segments_refl.
    - destruct gs as [l|]; constructor. assert (T : forall g, In g l -> groups_related R I g g) by (intros g J; now apply IH). clear IH. induction l as [|g l IH]; constructor; auto using in_eq, in_cons.
  Qed.
  Lemma ahbs_refl a : (forall d, R d d) -> (forall i, I i i) -> ahbs_related R I a a.
  Proof. intros H K. split; [reflexivity|]. induction (da_lines a); constructor; auto using groups_refl. Qed.

  Lemma groups_modify path s i f : (forall d, R d d) -> (forall i, I i i) -> (forall p, R (DPool p) (DPool (f p))) -> forall g, groups_related R I g (modify_group path s i f g).
  Proof.
    intros H K M. induction path as [|j path IH]; intros [d e x ss gs]; cbn [modify_group]; pose proof (groups_refl (mkGroup d e x ss gs) H K) as Q; inversion Q; subst; constructor; auto.
    - destruct ss as [l|]; constructor. apply Forall2_modify; auto using segments_refl. intros sg. unfold segments_related, modify_segment. cbn. repeat split; auto.
      apply Forall2_modify; auto. intros [t|p]; cbn; auto.
    - destruct gs as [l|]; constructor. apply Forall2_modify; auto using groups_refl.
  Qed.
  Lemma ahbs_modify pos f a : (forall d, R d d) -> (forall i, I i i) -> (forall p, R (DPool p) (DPool (f p))) -> ahbs_related R I a (modify_pool pos f a).
  Proof.
    intros H K M. destruct pos as [[[|line path] s] i]; cbn [modify_pool]; [now apply ahbs_refl|]. split; [reflexivity|]. cbn. apply Forall2_modify; auto using groups_refl, groups_modify.
  Qed.

  Lemma segments_trans s1 s2 s3 : (forall x y z, R x y -> R y z -> R x z) -> (forall x y z, I x y -> I y z -> I x z) ->
    segments_related R I s1 s2 -> segments_related R I s2 s3 -> segments_related R I s1 s3.
  Proof.
    intros T U (A1 & A2 & A3 & A4 & A5 & A6) (B1 & B2 & B3 & B4 & B5 & B6). repeat split; try congruence; [eapply U; eassumption|].
    eapply Forall2_trans_in; [|exact A4|exact B4]. intros; eapply T; eassumption.
  Qed.
  Lemma groups_trans g1 : (forall x y z, R x y -> R y z -> R x z) -> (forall x y z, I x y -> I y z -> I x z) ->
    forall g2 g3, groups_related R I g1 g2 -> groups_related R I g2 g3 -> groups_related R I g1 g3.
  Proof.
    intros T U. induction g1 as [d e i ss gs IH] using group_ind'. rewrite Forall_forall in IH. intros g2 g3 H K. inversion H as [? ? ? i2 ? ss2 ? gs2 Ei Es Eg]; subst. inversion K as [? ? ? i3 ? ss3 ? gs3 Ei' Es' Eg']; subst.
    constructor; [eapply U; eassumption| |].
    - inversion Es; subst; inversion Es'; subst; constructor. eapply Forall2_trans_in; try eassumption. intros; eapply segments_trans; eassumption.
    - inversion Eg as [|l1 l2 F]; subst; inversion Eg' as [|l2' l3 F']; subst; constructor. eapply Forall2_trans_in; try eassumption.
  Qed.
  Lemma ahbs_trans a b c : (forall x y z, R x y -> R y z -> R x z) -> (forall x y z, I x y -> I y z -> I x z) ->
    ahbs_related R I a b -> ahbs_related R I b c -> ahbs_related R I a c.
  Proof.
    intros T U (M & F) (M' & F'). split; [congruence|]. eapply Forall2_trans_in; try eassumption. intros; eapply groups_trans; eassumption.
  Qed.
End Related.

Lemma segments_mono (R R' : DataElement -> DataElement -> Prop) (I I' : option Z -> option Z -> Prop) s s' :
  (forall x y, R x y -> R' x y) -> (forall x y, I x y -> I' x y) -> segments_related R I s s' -> segments_related R' I' s s'.
Proof. intros T U (A1 & A2 & A3 & A4 & A5 & A6). repeat split; auto. eapply Forall2_impl; [|exact A4]. auto. Qed.
Lemma groups_mono (R R' : DataElement -> DataElement -> Prop) (I I' : option Z -> option Z -> Prop) g :
  (forall x y, R x y -> R' x y) -> (forall x y, I x y -> I' x y) -> forall g', groups_related R I g g' -> groups_related R' I' g g'.
Proof.
  intros T U. induction g as [d e i ss gs IH] using group_ind'. rewrite Forall_forall in IH. intros g' H. inversion H as [? ? ? i2 ? ss2 ? gs2 Ei Es Eg]; subst.
  constructor; auto.
  - inversion Es as [|l l' F]; subst; constructor. eapply Forall2_impl; [|exact F]. intros. eapply segments_mono; eassumption.
  - inversion Eg as [|l l' F]; subst; constructor. cbn in IH. clear - F IH. induction F as [|x y l l' Q F IHF]; constructor; [apply IH; [now left|exact Q]|]. apply IHF. intros; apply IH; [now right|assumption].
Qed.
Lemma ahbs_mono (R R' : DataElement -> DataElement -> Prop) (I I' : option Z -> option Z -> Prop) a a' :
  (forall x y, R x y -> R' x y) -> (forall x y, I x y -> I' x y) -> ahbs_related R I a a' -> ahbs_related R' I' a a'.
Proof. intros T U (M & F). split; [exact M|]. eapply Forall2_impl; [|exact F]. intros. eapply groups_mono; eassumption. Qed.

(** ** what one update does to a data element *)
Definition sound_update (d d' : DataElement) : Prop := essence_kept d d' /\ (valid_element d -> valid_element d').
Lemma essence_refl d : essence_kept d d.
Proof. destruct d; cbn; auto. Qed.
Lemma essence_trans x y z : essence_kept x y -> essence_kept y z -> essence_kept x z.
Proof. destruct x, y, z; cbn; intuition congruence. Qed.
Lemma sound_refl d : sound_update d d.
Proof. split; [apply essence_refl|auto]. Qed.
Lemma sound_trans x y z : sound_update x y -> sound_update y z -> sound_update x z.
Proof. intros (A & B) (C & D). split; [eapply essence_trans; eassumption|auto]. Qed.

Lemma list_set_expressions i e l x : nth_error l i = Some x -> ve_expression e = ve_expression x -> map ve_expression (list_set i e l) = map ve_expression l.
Proof.
  revert i. induction l as [|y l IH]; intros [|i]; cbn; try discriminate.
  - intros [= ->] ->. reflexivity.
  - intros N E. f_equal. now apply IH.
Qed.
Lemma list_set_Forall {X} (P : X -> Prop) i e l : P e -> Forall P l -> Forall P (list_set i e l).
Proof. intros H F. revert i. induction F as [|x l K F IH]; intros [|i]; cbn; constructor; auto. Qed.
Lemma replace_one_sound mapping merger q i pool : map ve_expression (fst (replace_one mapping merger q i pool)) = map ve_expression pool
  /\ (Forall valid_entry pool -> Forall valid_entry (fst (replace_one mapping merger q i pool))).
Proof.
  unfold replace_one. destruct (dict_get q mapping) as [new|]; [|auto]. destruct (nth_error pool i) as [e|] eqn:N; [|auto].
  set (e1 := match merger with None => e | Some f => _ end).
  assert (E1 : ve_expression e1 = ve_expression e /\ ve_qualifier e1 = ve_qualifier e) by (destruct merger; split; reflexivity).
  assert (Same : map ve_expression (list_set i e1 pool) = map ve_expression pool /\ (Forall valid_entry pool -> Forall valid_entry (list_set i e1 pool))).
  { split; [eapply list_set_expressions; [exact N|apply E1]|]. intros F. apply list_set_Forall; [|exact F].
    rewrite Forall_forall in F. specialize (F e (nth_error_In _ _ N)). destruct E1 as (E1 & E2). unfold valid_entry in *. now rewrite E1, E2. }
  destruct (check_is_edifact_qualifier new) as [[]|x] eqn:Ck; [|exact Same]. destruct new as [q'|]; [|exact Same]. cbn [fst]. split.
  - eapply list_set_expressions; [exact N|apply E1].
  - intros F. apply list_set_Forall; [|exact F]. rewrite Forall_forall in F. specialize (F e (nth_error_In _ _ N)). destruct E1 as (E1 & E2). unfold valid_entry in *. cbn. rewrite E1. split; [|apply F].
    apply check_qualifier_ok in Ck as (s0 & [= <-] & Ck). exact Ck.
Qed.
Lemma replace_loop_sound mapping merger todo : forall pool, map ve_expression (fst (replace_loop mapping merger todo pool)) = map ve_expression pool
  /\ (Forall valid_entry pool -> Forall valid_entry (fst (replace_loop mapping merger todo pool))).
Proof.
  induction todo as [|[q i] todo IH]; intros pool; cbn [replace_loop]; [auto|]. destruct (replace_one_sound mapping merger q i pool) as (A & B).
  destruct (replace_one mapping merger q i pool) as [pool' [x|]]; cbn [fst] in *; [auto|]. destruct (IH pool') as (C & D). split; [congruence|auto].
Qed.
Lemma replace_sound mapping merger p : sound_update (DPool p) (DPool (fst (replace_value_pool mapping merger p))).
Proof.
  unfold replace_value_pool. pose proof (replace_loop_sound mapping merger (entries_by_qualifier (vp_pool p)) (vp_pool p)) as (A & B).
  destruct (replace_loop mapping merger (entries_by_qualifier (vp_pool p)) (vp_pool p)) as [pool x]. cbn [fst] in *. split; cbn; [auto|]. intuition.
Qed.
Lemma only_input_sound v d d' : only_input_set v d d' -> sound_update d d'.
Proof.
  destruct d as [f|p], d' as [f'|p']; cbn; try contradiction; intros (E0 & E1 & E2 & E3 & E4); split; cbn; rewrite ?E1, ?E2, ?E3, ?E4; auto.
Qed.
Lemma input_sound f d d' : input_replaced f d d' -> sound_update d d'.
Proof.
  intros (A & B & C). destruct (discriminator_of d) as [disc|]; [|rewrite (C eq_refl); apply sound_refl].
  destruct (rp_found (f disc)) eqn:E.
  - eapply only_input_sound. now apply (A disc).
  - rewrite (B disc eq_refl E). apply sound_refl.
Qed.
Lemma replace_asking_sound {W} (merger : pystr -> pystr -> W -> W * result pystr) mapping p w : sound_update (DPool p) (DPool (fst (snd (replace_value_pool_asking W merger mapping p w)))).
Proof.
  destruct (replace_value_pool_asking W merger mapping p w) as [w' [p' x]] eqn:E. cbn. apply C96_merger in E as (before & behind & qs & answers & o & f & _ & _ & _ & _ & H).
  assert (K : exists m y, replace_value_pool m (Some f) p = (p', y)) by (destruct o as [e|]; [destruct H as (_ & t & q & _ & _ & H)|destruct H as (H & _)]; eauto).
  destruct K as (m & y & K). pose proof (replace_sound m (Some f) p) as S0. rewrite K in S0. exact S0.
Qed.

Section Histories.
  Variable class_attribute : pystr -> option bool.
  (** indexes can be lost but not changed *)
  Notation kept_or_lost := (fun i i' : option Z => i' = i \/ i' = None).

  Lemma updated_sound a a' : updated class_attribute a a' -> valid_deep a -> ahbs_related sound_update kept_or_lost a a'.
  Proof.
    intros H V. destruct H as [a|a f|a pos mapping merger|a W f w|a pos mapping W merger w|a a' L].
    - eapply ahbs_mono; [| |apply C31_all_reset_nothing_else_changed]; cbn; [intros x y ->; apply sound_refl|auto].
    - eapply ahbs_mono; [| |apply C30_inputs_replaced]; cbn; [apply input_sound|auto].
    - apply ahbs_modify; auto using sound_refl. intros p. apply replace_sound.
    - destruct (replace_inputs_asking W f a w) as [w' [a' x]] eqn:E. cbn. apply (ahb_turn f) in E as (E & S0). eapply ahbs_mono with (R := sound_update); [auto| |].
      + intros i j H. left. symmetry. exact H.
      + apply ahb_lifted; [exact S0|]. eapply turn_relates; [apply sound_refl|apply only_input_sound|exact E].
    - apply ahbs_modify; auto using sound_refl. intros p. apply replace_asking_sound.
    - rewrite (deep_round_trip class_attribute a V) in L. destruct (forallb tree_complete (da_lines a)); [|discriminate]. injection L as <-.
      eapply ahbs_mono; [| |apply C31_all_reset_nothing_else_changed]; cbn; [intros x y ->; apply sound_refl|auto].
  Qed.
  Lemma history_sound a a' : history class_attribute a a' -> valid_deep a -> valid_deep a' /\ ahbs_related sound_update kept_or_lost a a'.
  Proof.
    intros H V. induction H as [|b c H (VB & RB) U]; [split; [exact V|apply ahbs_refl; auto using sound_refl]|].
    pose proof (updated_sound b c U VB) as Q. split.
    - eapply related_valid; [|exact Q|exact VB]. intros d d' (_ & K). exact K.
    - eapply ahbs_trans; [apply sound_trans| |exact RB|exact Q]. intros i j k [-> | ->] [-> | ->]; auto.
  Qed.

  (** * C80 *)
  Theorem C80_structure_and_validity_are_kept a a' :
    history class_attribute a a' -> valid_deep a -> valid_deep a' /\ ahbs_related essence_kept kept_or_lost a a'.
  Proof.
    intros H V. destruct (history_sound a a' H V) as (V' & Q). split; [exact V'|]. eapply ahbs_mono; [| |exact Q]; [intros x y (K & _); exact K|auto].
  Qed.

  Lemma history_related a a' : history class_attribute a a' -> valid_deep a -> ahbs_related essence_kept kept_or_lost a a'.
  Proof. intros H V. exact (proj2 (C80_structure_and_validity_are_kept a a' H V)). Qed.
  Lemma essence_type d d' : essence_kept d d' -> type_of d' = type_of d.
  Proof. destruct d, d'; cbn; intuition. Qed.
  (** an AHB that can be stored and read back can be stored and read back after every history *)
  Theorem C80_can_always_be_stored a a' :
    history class_attribute a a' -> valid_deep a -> complete a ->
    exists b, load_deep class_attribute (dump_deep a') = Ok b /\ ahbs_related eq (fun _ i => i = None) a' b.
  Proof.
    intros H V C. apply C45_round_trip; [exact (proj1 (C80_structure_and_validity_are_kept a a' H V))|].
    eapply related_complete; [apply essence_type|exact (history_related a a' H V)|exact C].
  Qed.
End Histories.

(** ** backwards *)
Lemma Forall2_flip_in {X Y} (P : X -> Y -> Prop) (Q : Y -> X -> Prop) l l' : (forall x y, In x l -> P x y -> Q y x) -> Forall2 P l l' -> Forall2 Q l' l.
Proof. intros T F. induction F as [|x y l l' H F IH]; constructor; [apply T; [now left|exact H]|]. apply IH. intros; apply T; [now right|assumption]. Qed.
Lemma segments_flip (R : DataElement -> DataElement -> Prop) s s' : segments_related R (fun _ _ => True) s s' -> segments_related (fun x y => R y x) (fun _ _ => True) s' s.
Proof. intros (A1 & A2 & A3 & A4 & A5 & A6). repeat split; auto. eapply Forall2_flip_in; [|exact A4]. auto. Qed.
Lemma groups_flip (R : DataElement -> DataElement -> Prop) g : forall g', groups_related R (fun _ _ => True) g g' -> groups_related (fun x y => R y x) (fun _ _ => True) g' g.
Proof.
  induction g as [d e i ss gs IH] using group_ind'. rewrite Forall_forall in IH. intros g' H. inversion H as [? ? ? i2 ? ss2 ? gs2 Ei Es Eg]; subst. constructor; [exact I| |].
  - inversion Es as [|l l' F]; subst; constructor. eapply Forall2_flip_in; [|exact F]. auto using segments_flip.
  - inversion Eg as [|l l' F]; subst; constructor. eapply Forall2_flip_in; [|exact F]. auto.
Qed.
Lemma ahbs_flip (R : DataElement -> DataElement -> Prop) a a' : ahbs_related R (fun _ _ => True) a a' -> ahbs_related (fun x y => R y x) (fun _ _ => True) a' a.
Proof. intros (M & F). split; [now symmetry|]. eapply Forall2_flip_in; [|exact F]. auto using groups_flip. Qed.
Lemma essence_flip d d' : essence_kept d d' -> essence_kept d' d.
Proof. destruct d, d'; cbn; intuition. Qed.
Lemma expressions_kept a a' x : ahbs_related essence_kept (fun _ _ => True) a a' -> expression_of a' x -> expression_of a x.
Proof.
  intros Q [g' G|s' S0|s' f' S0 D|s' p' e' S0 D E].
  - destruct (related_group _ _ _ _ _ Q G) as (g & G' & T). rewrite (related_discriminator _ _ _ _ T). now constructor.
  - destruct (related_segment _ _ _ _ _ Q S0) as (s & S' & T). destruct T as (_ & -> & _). now apply of_segment.
  - destruct (related_segment _ _ _ _ _ Q S0) as (s & S' & T). destruct T as (_ & _ & _ & F & _). destruct (forall2_in_r _ _ _ _ F D) as ([f|p] & D' & K); [|destruct K].
    destruct K as (_ & _ & _ & ->). now apply (of_free_text a s).
  - destruct (related_segment _ _ _ _ _ Q S0) as (s & S' & T). destruct T as (_ & _ & _ & F & _). destruct (forall2_in_r _ _ _ _ F D) as ([f|p] & D' & K); [destruct K|].
    destruct K as (_ & _ & _ & K). apply (in_map ve_expression) in E. rewrite K in E. apply in_map_iff in E as (e & <- & E). now apply (of_pool_entry a s p).
Qed.
Theorem C80_expressions_are_kept class_attribute a a' : history class_attribute a a' -> valid_deep a -> forall x, expression_of a' x <-> expression_of a x.
Proof.
  intros H V x. assert (Q : ahbs_related essence_kept (fun _ _ => True) a a') by (eapply ahbs_mono; [| |exact (history_related class_attribute a a' H V)]; auto). split; [now apply expressions_kept|].
  apply expressions_kept. eapply ahbs_mono; [| |apply (ahbs_flip _ _ _ Q)]; [intros d d'; apply essence_flip|auto].
Qed.

(** at every moment of transform_all_value_pools, whatever the schedule and whether it raises or not *)
Lemma history_trans class_attribute a b c : history class_attribute a b -> history class_attribute b c -> history class_attribute a c.
Proof. intros H K. induction K as [|x y K IH U]; [exact H|]. eapply one_more; [exact IH|exact U]. Qed.
Section Transforming.
  Context {D A : Type}.
  Variable to_edi : A -> co D ref.
  Variable to_app : ref -> co D A.
  Variable edi_get : D -> pystr -> result (option pystr).
  Variable edi_set : D -> pystr -> pystr -> D * option exn.
  Variable app_get : A -> pystr -> result (option pystr).
  Variable application : A.
  Variable path_mapping : list (pystr * pystr).
  Lemma step_history class_attribute i c w w' : transformation_step D A to_app edi_set app_get i c w = Some w' -> history class_attribute (w_ahb _ w) (w_ahb _ w').
  Proof.
    unfold transformation_step. destruct (nth_error (w_jobs _ w) i) as [[pos p [g|x g]]|]; try discriminate.
    2:{ destruct c as [|k]; [discriminate|]. destruct (generation_step D A to_app edi_set app_get p (Inner k) g (w_store _ w)) as [[g' s']|]; [|discriminate]. intros [= <-]. apply no_update. }
    destruct (generation_step D A to_app edi_set app_get p c g (w_store _ w)) as [[[co|h f ts|[m|e]] s']|]; try discriminate; intros [= <-]; cbn; try apply no_update.
    eapply one_more; [apply no_update|apply pool_replaced].
  Qed.
  Theorem C80_transforming_is_a_history class_attribute a s schedule w :
    transformation_run D A to_app edi_set app_get schedule (start_transformation D A to_edi edi_get app_get application path_mapping a s) = Some w ->
    history class_attribute a (w_ahb _ w).
  Proof.
    change a with (w_ahb _ (start_transformation D A to_edi edi_get app_get application path_mapping a s)) at 2.
    generalize (start_transformation D A to_edi edi_get app_get application path_mapping a s) as v. induction schedule as [|[i c] schedule IH]; intros v; cbn.
    - intros [= ->]. apply no_update.
    - destruct (transformation_step D A to_app edi_set app_get i c v) as [v'|] eqn:E; [|discriminate]. intros H. eapply history_trans; [eapply step_history, E|now apply IH].
  Qed.
End Transforming.
Print Assumptions C80_structure_and_validity_are_kept.
Print Assumptions C80_can_always_be_stored.
Print Assumptions C80_expressions_are_kept.
Print Assumptions C80_transforming_is_a_history.

(** a history in which every update changes something: the inputs, the qualifiers, the indexes *)
Definition ex_replaced := replace_inputs_based_on_discriminator ex_json_deep (fun _ => mkReplacement true (Some (u "new"))).
Definition ex_renamed := modify_pool ([0], 0, 0) (fun p => fst (replace_value_pool [(u "D", Some (u "Q1"))] None p)) ex_replaced.
Definition ex_observe (a : DeepAhb) : list (option Z) * list (list (option pystr * list pystr)) :=
  (map g_index (da_lines a),
   map (fun g => flat_map (fun s => map (fun d => match d with DFree f => (ft_input f, []) | DPool p => (vp_input p, map ve_qualifier (vp_pool p)) end) (seg_elements s))
                          (olist (g_segments g))) (da_lines a)).
Example C80_instance :
  valid_deep ex_json_deep /\ complete ex_json_deep /\ history (fun _ => None) ex_json_deep (deep_reset_index ex_renamed)
  /\ map ex_observe [ex_json_deep; ex_replaced; ex_renamed; deep_reset_index ex_renamed]
     = [([Some 1%Z], [[(None, [u "D"]); (Some (u "x"), [])]]);
        ([Some 1%Z], [[(None, [u "D"]); (Some (u "new"), [])]]);
        ([Some 1%Z], [[(None, [u "Q1"]); (Some (u "new"), [])]]);
        ([None], [[(None, [u "Q1"]); (Some (u "new"), [])]])].
Proof.
  split; [exact (proj1 C45_instance)|split; [exact (proj2 C45_instance)|split]].
  - apply (one_more _ _ ex_renamed); [|apply dumped_and_loaded; vm_compute; reflexivity]. apply (one_more _ _ ex_replaced); [|apply pool_replaced].
    apply (one_more _ _ ex_json_deep); [apply no_update|apply inputs_replaced].
  - vm_compute. reflexivity.
Qed.
