(** Lemmas about functions of the user that remember something or raise exceptions. *)
From Coq Require Import Ascii String List NArith ZArith Bool Lia.
From Verif Require Import PyBase PyStr M_Components M_Ahb M_Callbacks S_FlatAhb S_ValuePool S_DeepAhb S_Callbacks L_Base L_ValuePool L_DeepAhb.
Import ListNotations.
Local Open Scope list_scope.

Lemma Forall2_true {A B} (l : list A) (l' : list B) : List.length l' = List.length l -> Forall2 (fun _ _ => True) l l'.
Proof. revert l'. induction l as [|x l IH]; intros [|y l']; try discriminate; constructor; auto. Qed.

Lemma Forall2_len {A B} (R : A -> B -> Prop) l l' : Forall2 R l l' -> List.length l' = List.length l.
Proof. induction 1; cbn; congruence. Qed.

Lemma Forall2_in_r {A B} (R : A -> B -> Prop) l l' y : Forall2 R l l' -> In y l' -> exists x, In x l /\ R x y.
Proof. induction 1 as [|a b l l' H F IH]; cbn; [tauto|]. intros [<-|I]; [eauto|]. destruct (IH I) as (x & ? & ?). eauto. Qed.

Section Inputs.
  Context {W : Type} (f : pystr -> W -> W * result Replacement).
  Notation turn := (replaced_in_turn f).

  Lemma turn_app l1 l1' l2 l2' w w1 w2 x : turn l1 l1' w w1 None -> turn l2 l2' w1 w2 x -> turn (l1 ++ l2) (l1' ++ l2') w w2 x.
  Proof.
    intros H K. remember (@None exn) as o eqn:E. revert E K. induction H; intros E K; cbn; try discriminate; auto.
    - now apply without_discriminator; auto.
    - eapply with_replacement; eauto.
    - eapply without_replacement; eauto.
  Qed.
  Lemma turn_stop l1 l1' l2 w w1 e : turn l1 l1' w w1 (Some e) -> turn (l1 ++ l2) (l1' ++ l2) w w1 (Some e).
  Proof.
    intros H. remember (Some e) as o eqn:E. revert E. induction H; intros E; cbn; try discriminate.
    - now apply without_discriminator; auto.
    - eapply with_replacement; eauto.
    - eapply without_replacement; eauto.
    - injection E as ->. eapply interrupted; eauto.
  Qed.
  Lemma turn_length l l' w w' x : turn l l' w w' x -> List.length l' = List.length l.
  Proof. induction 1; cbn; congruence. Qed.
  Lemma only_input_det v d d1 d2 : only_input_set v d d1 -> only_input_set v d d2 -> d1 = d2.
  Proof.
    destruct d as [a|a], d1 as [b|b], d2 as [c|c]; cbn; try contradiction; destruct a, b, c; cbn; intuition congruence.
  Qed.
  Lemma turn_det l l1 w w1 x1 : turn l l1 w w1 x1 -> forall l2 w2 x2, turn l l2 w w2 x2 -> l2 = l1 /\ w2 = w1 /\ x2 = x1.
  Proof.
    induction 1; intros l2 w2 x2 K; inversion K; subst; try congruence; auto;
      repeat match goal with
             | D : discriminator_of ?d = Some ?a, D' : discriminator_of ?d = Some ?b |- _ => assert (a = b) by congruence; subst; clear D'
             | C : f ?d ?w = _, C' : f ?d ?w = _ |- _ => rewrite C in C'; injection C'; intros; subst; clear C'
             end; try congruence; auto;
      match goal with
      | IH : forall l2 w2 x2, turn _ l2 _ w2 x2 -> _, L : turn _ _ _ _ _ |- _ => destruct (IH _ _ _ L) as (-> & -> & ->)
      end; auto.
    split; [|auto]. f_equal. eapply only_input_det; eassumption.
  Qed.

  (** one loop *)
  Lemma change_each_turn {A} (h : A -> W -> W * (A * option exn)) (els : A -> list DataElement) (R : A -> A -> Prop) l :
    (forall x, R x x) ->
    (forall x w w' x' o, In x l -> h x w = (w', (x', o)) -> turn (els x) (els x') w w' o /\ R x x') ->
    forall w w' l' o, change_each W h l w = (w', (l', o)) -> turn (flat_map els l) (flat_map els l') w w' o /\ Forall2 R l l'.
  Proof.
    intros Refl. induction l as [|x l IH]; intros H w w' l' o E; cbn in E; [injection E as <- <- <-; split; constructor|].
    destruct (h x w) as [w1 [x1 [e|]]] eqn:E1; destruct (H x w _ _ _ (or_introl eq_refl) E1) as (T & Q).
    - injection E as <- <- <-. cbn [flat_map]. split; [now apply turn_stop|]. constructor; [exact Q|]. clear - Refl. induction l; constructor; auto.
    - destruct (change_each W h l w1) as [w2 [l1 o1]] eqn:E2. injection E as <- <- <-. destruct (IH (fun y v v' y' p I => H y v v' y' p (or_intror I)) _ _ _ _ E2) as (T' & Q').
      cbn [flat_map]. split; [eapply turn_app; eassumption|now constructor].
  Qed.

  Notation T := (fun _ _ : DataElement => True).
  Lemma element_turn d w w' d' o : element_asks W f d w = (w', (d', o)) -> turn [d] [d'] w w' o.
  Proof.
    unfold element_asks. destruct (de_discriminator d) as [disc|] eqn:D.
    - destruct (f disc w) as [w1 [r|e]] eqn:F; intros [= <- <- <-].
      + destruct (rp_found r) eqn:K; [eapply with_replacement|eapply without_replacement]; try eassumption; try constructor. destruct d; cbn; auto.
      + eapply interrupted; eassumption.
    - intros [= <- <- <-]. apply without_discriminator; [exact D|constructor].
  Qed.
  Lemma flat_map_single {A} (l : list A) : flat_map (fun x => [x]) l = l.
  Proof. induction l; cbn; congruence. Qed.
  Lemma segment_turn s w w' s' o : segment_asks W f s w = (w', (s', o)) -> turn (seg_elements s) (seg_elements s') w w' o /\ segments_related T eq s s'.
  Proof.
    unfold segment_asks. destruct (change_each W (element_asks W f) (seg_elements s) w) as [w1 [l x]] eqn:E. intros [= <- <- <-].
    destruct (change_each_turn (element_asks W f) (fun d => [d]) T (seg_elements s)) with (3 := E) as (A & B); auto.
    { intros d v v' d' p _ H. split; [now apply element_turn|exact I]. }
    rewrite !flat_map_single in A. cbn. split; [exact A|]. repeat split. exact B.
  Qed.
  Lemma segments_refl' s : segments_related T eq s s.
  Proof. repeat split. now apply Forall2_true. Qed.
  Lemma groups_refl' g : groups_related T eq g g.
  Proof.
    induction g as [d e i ss gs IH] using group_ind'. constructor; [reflexivity| |].
    - destruct ss as [l|]; constructor. induction l; constructor; auto using segments_refl'.
    - destruct gs as [l|]; constructor. cbn in IH. induction IH; constructor; auto.
  Qed.
  Lemma group_turn g : forall w w' g' o, group_asks W f g w = (w', (g', o)) -> turn (elements_in_turn g) (elements_in_turn g') w w' o /\ groups_related T eq g g'.
  Proof.
    induction g as [d e i ss gs IH] using group_ind'. rewrite Forall_forall in IH. intros w w' g' o E. cbn [group_asks] in E.
    set (inner := match gs with None => _ | Some l => _ end) in E.
    assert (G : forall w1 gs1 x, inner = (w1, (gs1, x)) ->
              turn (match gs with None => [] | Some l => flat_map elements_in_turn l end) (match gs1 with None => [] | Some l => flat_map elements_in_turn l end) w w1 x
              /\ opt_related (Forall2 (groups_related T eq)) gs gs1).
    { subst inner. destruct gs as [l|]; intros w1 gs1 x H.
      - destruct (change_each W (group_asks W f) l w) as [w2 [l2 x2]] eqn:E2. injection H as <- <- <-.
        destruct (change_each_turn (group_asks W f) elements_in_turn (groups_related T eq) l) with (3 := E2) as (A & B); auto using groups_refl'.
        split; [exact A|now constructor].
      - injection H as <- <- <-. split; constructor. }
    destruct inner as [w1 [gs1 x1]]. destruct (G w1 gs1 x1 eq_refl) as (A & B). clear G. destruct x1 as [e1|].
    - injection E as <- <- <-. cbn [elements_in_turn]. split; [now apply turn_stop|]. constructor; [reflexivity| |exact B].
      destruct ss as [l|]; constructor. induction l; constructor; auto using segments_refl'.
    - destruct ss as [l|]; cbn [elements_in_turn olist].
      + destruct (change_each W (segment_asks W f) l w1) as [w2 [l2 x2]] eqn:E2. injection E as <- <- <-.
        destruct (change_each_turn (segment_asks W f) seg_elements (segments_related T eq) l) with (3 := E2) as (C & D); auto using segments_refl'.
        { intros s v v' s' p _ H. now apply segment_turn. }
        cbn [elements_in_turn olist]. split; [eapply turn_app; eassumption|]. constructor; [reflexivity|now constructor|exact B].
      + injection E as <- <- <-. cbn [elements_in_turn olist flat_map]. rewrite !app_nil_r. split; [exact A|]. constructor; [reflexivity|constructor|exact B].
  Qed.
  Lemma ahb_turn a w w' a' o : replace_inputs_asking W f a w = (w', (a', o)) ->
    turn (all_elements_in_turn a) (all_elements_in_turn a') w w' o /\ same_shape a a'.
  Proof.
    unfold replace_inputs_asking. destruct (change_each W (group_asks W f) (da_lines a) w) as [w1 [l x]] eqn:E. intros [= <- <- <-].
    destruct (change_each_turn (group_asks W f) elements_in_turn (groups_related T eq) (da_lines a)) with (3 := E) as (A & B); auto using groups_refl'.
    { intros g v v' g' p _ H. now apply group_turn. }
    split; [exact A|]. split; [reflexivity|exact B].
  Qed.

  (** shape and elements determine an AHB *)
  Lemma app_same_length {A} (a a' b b' : list A) : List.length a = List.length a' -> a ++ b = a' ++ b' -> a = a' /\ b = b'.
  Proof. revert a'. induction a as [|x a IH]; intros [|y a'] L E; try discriminate; [auto|]. cbn in *. injection E as -> E. destruct (IH a') as (-> & ->); auto. Qed.
  Lemma flat_map_determines {A} (els : A -> list DataElement) (R : A -> A -> Prop) l :
    (forall x y, In x l -> R x y -> List.length (els y) = List.length (els x)) ->
    (forall x y z, In x l -> R x y -> R x z -> els y = els z -> y = z) ->
    forall l1 l2, Forall2 R l l1 -> Forall2 R l l2 -> flat_map els l1 = flat_map els l2 -> l1 = l2.
  Proof.
    intros L H l1. revert L H. revert l1. induction l as [|x l IH]; intros l1 L H l2 F1 F2 E; inversion F1; subst; inversion F2; subst; [reflexivity|].
    cbn in E. apply app_same_length in E as (E1 & E2); [|rewrite (L x y), (L x y0); auto with datatypes].
    f_equal; [eapply H; eauto with datatypes|]. eapply IH; eauto with datatypes. 
  Qed.
  Lemma flat_map_lengths {A} (els : A -> list DataElement) (R : A -> A -> Prop) l l' :
    (forall x y, In x l -> R x y -> List.length (els y) = List.length (els x)) -> Forall2 R l l' -> List.length (flat_map els l') = List.length (flat_map els l).
  Proof.
    intros L F. induction F as [|x y l l' H F IH]; [reflexivity|]. cbn. rewrite !app_length, (L x y), IH; auto with datatypes. 
  Qed.
  Lemma segment_lengths s s' : segments_related T eq s s' -> List.length (seg_elements s') = List.length (seg_elements s).
  Proof. intros (_ & _ & _ & F & _). exact (Forall2_len _ _ _ F). Qed.
  Lemma group_lengths g : forall g', groups_related T eq g g' -> List.length (elements_in_turn g') = List.length (elements_in_turn g).
  Proof.
    induction g as [d e i ss gs IH] using group_ind'. rewrite Forall_forall in IH. intros g' H. inversion H as [? ? ? i' ? ss' ? gs' _ S0 G]; subst. cbn [elements_in_turn].
    rewrite !app_length. f_equal.
    - inversion G as [|l l' F]; subst; [reflexivity|]. eapply flat_map_lengths; [|exact F]. auto.
    - inversion S0 as [|l l' F]; subst; [reflexivity|]. eapply flat_map_lengths; [|exact F]. auto using segment_lengths.
  Qed.
  Lemma segment_determined s s1 s2 : segments_related T eq s s1 -> segments_related T eq s s2 -> seg_elements s1 = seg_elements s2 -> s1 = s2.
  Proof. destruct s, s1, s2. unfold segments_related. cbn. intuition congruence. Qed.
  Lemma group_determined g : forall g1 g2, groups_related T eq g g1 -> groups_related T eq g g2 -> elements_in_turn g1 = elements_in_turn g2 -> g1 = g2.
  Proof.
    induction g as [d e i ss gs IH] using group_ind'. rewrite Forall_forall in IH. intros g1 g2 H K E.
    inversion H as [? ? ? i1 ? ss1 ? gs1 -> S1 G1]; subst. inversion K as [? ? ? i2 ? ss2 ? gs2 -> S2 G2]; subst. cbn [elements_in_turn] in E.
    assert (EE : match gs1 with None => [] | Some l => flat_map elements_in_turn l end = match gs2 with None => [] | Some l => flat_map elements_in_turn l end
                 /\ flat_map seg_elements (olist ss1) = flat_map seg_elements (olist ss2)).
    { apply app_same_length; [|exact E]. inversion G1 as [|l l1 F1]; subst; inversion G2 as [|l' l2 F2]; subst; [reflexivity|].
      rewrite (flat_map_lengths _ _ l l1) with (2 := F1), (flat_map_lengths _ _ l l2) with (2 := F2); auto using group_lengths. }
    destruct EE as (EG & ES). f_equal.
    - inversion S1 as [|l l1 F1]; subst; inversion S2 as [|l' l2 F2]; subst; [reflexivity|]. f_equal. eapply flat_map_determines with (els := seg_elements); try eassumption; auto using segment_lengths.
      intros x y z _. apply segment_determined.
    - inversion G1 as [|l l1 F1]; subst; inversion G2 as [|l' l2 F2]; subst; [reflexivity|]. f_equal. eapply flat_map_determines with (els := elements_in_turn); try eassumption; auto using group_lengths.
      intros x y z In0. now apply IH.
  Qed.
  Lemma ahb_determined a a1 a2 : same_shape a a1 -> same_shape a a2 -> all_elements_in_turn a1 = all_elements_in_turn a2 -> a1 = a2.
  Proof.
    intros (M1 & F1) (M2 & F2) E. destruct a1 as [m1 l1], a2 as [m2 l2]. cbn in *. f_equal; [congruence|].
    eapply flat_map_determines with (els := elements_in_turn); try eassumption; auto using group_lengths. intros x y z _. apply group_determined.
  Qed.
End Inputs.

(** ** interviews *)
Section Interviews.
  Context {W Q B : Type} (f : Q -> W -> W * result B).
  Lemma interview_app qs bs qs' bs' w w1 w2 x : interview f qs bs w w1 None -> interview f qs' bs' w1 w2 x -> interview f (qs ++ qs') (bs ++ bs') w w2 x.
  Proof.
    intros H K. remember (@None exn) as o eqn:E. revert E K. induction H; intros E K; cbn; try discriminate; auto. eapply answered; eauto.
  Qed.
  Lemma interview_stop qs bs qs' w w1 e : interview f qs bs w w1 (Some e) -> interview f (qs ++ qs') bs w w1 (Some e).
  Proof.
    intros H. remember (Some e) as o eqn:E. revert E. induction H; intros E; cbn; try discriminate; [eapply answered; eauto|injection E as ->; now apply refused].
  Qed.
  Lemma interview_length qs bs w w' : interview f qs bs w w' None -> List.length bs = List.length qs.
  Proof. intros H. remember (@None exn) as o eqn:E. induction H; cbn; try discriminate; auto. Qed.
  Lemma interview_det qs bs w w' x : interview f qs bs w w' x -> forall bs2 w2 x2, interview f qs bs2 w w2 x2 -> bs2 = bs /\ w2 = w' /\ x2 = x.
  Proof.
    induction 1; intros bs2 w2 x2 K; inversion K; subst; auto;
      match goal with C : f ?q ?w = _, C' : f ?q ?w = _ |- _ => rewrite C in C'; try discriminate C'; injection C'; intros; subst; clear C' end; auto.
    match goal with IH : forall bs2 w2 x2, interview f _ bs2 _ w2 x2 -> _, L : interview f ?qs ?bs ?w ?w2 ?x2 |- _ :: ?bs = _ /\ _ => destruct (IH _ _ _ L) as (-> & -> & ->) end. auto.
  Qed.
End Interviews.

Lemma chosen_app {A} (l l' : list A) bs bs' : List.length bs = List.length l -> chosen (l ++ l') (bs ++ bs') = chosen l bs ++ chosen l' bs'.
Proof.
  unfold chosen. revert bs. induction l as [|x l IH]; intros [|b bs] L; try discriminate; [reflexivity|]. cbn in *. destruct b; cbn; rewrite IH by congruence; reflexivity.
Qed.

Section Collecting.
  Context {W A B : Type} (p : B -> W -> W * result bool).
  (** [h x] asks for [asks x] and returns what has been chosen *)
  Definition does (asks : A -> list B) (h : A -> W -> W * result (list B)) (x : A) : Prop :=
    forall w w' r, h x w = (w', r) -> exists bs o, interview p (asks x) bs w w' o
      /\ r = match o with None => Ok (chosen (asks x) bs) | Some e => Raise e end.
  Lemma collect_each_does asks h l : (forall x, In x l -> does asks h x) -> forall w w' r, collect_each W h l w = (w', r) ->
    exists bs o, interview p (flat_map asks l) bs w w' o /\ r = match o with None => Ok (chosen (flat_map asks l) bs) | Some e => Raise e end.
  Proof.
    induction l as [|x l IH]; intros H w w' r E; cbn in E; [injection E as <- <-; exists [], None; split; [constructor|reflexivity]|].
    destruct (h x w) as [w1 r1] eqn:E1. destruct (H x (or_introl eq_refl) _ _ _ E1) as (bs & [e|] & I1 & ->).
    - injection E as <- <-. exists bs, (Some e). split; [now apply interview_stop|reflexivity].
    - destruct (collect_each W h l w1) as [w2 r2] eqn:E2. destruct (IH (fun y Y => H y (or_intror Y)) _ _ _ E2) as (bs' & [e|] & I2 & ->); injection E as <- <-.
      + exists (bs ++ bs'), (Some e). split; [eapply interview_app; eassumption|reflexivity].
      + exists (bs ++ bs'), None. split; [eapply interview_app; eassumption|]. cbn [flat_map]. rewrite chosen_app; [reflexivity|]. now apply interview_length in I1.
  Qed.
End Collecting.

Section Groups.
  Context {W : Type} (p : SegmentGroup -> W -> W * result bool).
  Lemma query_does g : does p preorder (query_asking W p) g.
  Proof.
    induction g as [d e i ss gs IH] using group_ind'. rewrite Forall_forall in IH. intros w w' r E. cbn [query_asking] in E. rewrite preorder_eq.
    set (g := mkGroup d e i ss gs) in *. destruct (p g w) as [w1 [b|x]] eqn:P; [|injection E as <- <-; exists [], (Some x); split; [now apply refused|reflexivity]].
    unfold nested. cbn [g_groups g]. destruct gs as [l|].
    - destruct (collect_each W (query_asking W p) l w1) as [w2 r2] eqn:E2. destruct (collect_each_does p preorder (query_asking W p) l IH _ _ _ E2) as (bs & [x|] & I2 & ->); injection E as <- <-.
      + exists (b :: bs), (Some x). split; [eapply answered; eassumption|reflexivity].
      + exists (b :: bs), None. split; [eapply answered; eassumption|]. unfold chosen. cbn. destruct b; reflexivity.
    - injection E as <- <-. exists [b], None. split; [eapply answered; [eassumption|constructor]|]. unfold chosen. cbn. destruct b; reflexivity.
  Qed.

  Lemma append_new_with_new l : forall r, with_new r l (append_new r l).
  Proof.
    induction l as [|g l IH]; intros r; cbn; [constructor|]. unfold append_new in IH. destruct (existsb (group_eqb g) r) eqn:E.
    - apply is_known; [now apply existsb_group|apply IH].
    - apply is_new; [|apply IH]. intros K. apply existsb_group in K. congruence.
  Qed.
  Lemma with_new_det {A} (r l r1 : list A) : with_new r l r1 -> forall r2, with_new r l r2 -> r2 = r1.
  Proof. induction 1; intros r2 K; inversion K; subst; auto; contradiction. Qed.

  Definition questions (lines : list SegmentGroup) : list SegmentGroup := flat_map (fun line => nested line ++ preorder line) lines.
  Lemma asked_for_iff lines qs : asked_for lines qs <-> qs = questions lines.
  Proof.
    split.
    - induction 1 as [|line lines inner qs H _ IH]; [reflexivity|]. apply (proj2 preorder_unique) in H as ->. subst. unfold questions. cbn. rewrite preorder_eq. cbn.
      fold (nested line). now rewrite <- app_assoc.
    - intros ->. induction lines as [|line lines IH]; [constructor|]. cbn. rewrite preorder_eq. rewrite <- app_assoc. cbn.
      apply asked_for_line; [apply nested_lists|exact IH].
  Qed.
  Lemma app_inj_length_r {A} (a a' b b' : list A) : List.length b = List.length b' -> a ++ b = a' ++ b' -> a = a' /\ b = b'.
  Proof. intros L E. apply app_same_length; [|exact E]. apply (f_equal (@List.length A)) in E. rewrite !app_length in E. lia. Qed.
  Lemma groups_found_det lines answers r : groups_found lines answers r -> forall r', groups_found lines answers r' -> r' = r.
  Proof.
    induction 1 as [|lines answers result line inner a1 a2 result' H IH P L1 L2 N]; intros r' K.
    - inversion K; [reflexivity|]. destruct lines; discriminate.
    - remember (lines ++ [line]) as ls eqn:El. remember (answers ++ a1 ++ a2) as as' eqn:Ea. destruct K as [|lines' answers' result0 line' inner' b1 b2 result1 K P' L1' L2' N'].
      + destruct lines; discriminate.
      + apply app_inj_tail in El as (-> & ->). apply (proj2 preorder_unique) in P, P'. subst inner inner'.
        apply app_inj_length_r in Ea as (-> & Ea); [|rewrite !app_length; lia]. apply app_inj_length_r in Ea as (-> & ->); [|lia].
        rewrite (IH _ K) in N'. eapply with_new_det; eassumption.
  Qed.

  Lemma loop_found lines : forall before answers0 result0 w w' r, groups_found before answers0 result0 -> find_groups_loop W p lines result0 w = (w', r) ->
    exists bs o, interview p (questions lines) bs w w' o
      /\ match o with None => exists result, groups_found (before ++ lines) (answers0 ++ bs) result /\ r = Ok result | Some e => r = Raise e end.
  Proof.
    induction lines as [|line lines IH]; intros before answers0 result0 w w' r F E; cbn in E.
    - injection E as <- <-. exists [], None. split; [constructor|]. rewrite !app_nil_r. eauto.
    - destruct (collect_each W (query_asking W p) (olist (g_groups line)) w) as [w1 r1] eqn:E1.
      destruct (collect_each_does p preorder (query_asking W p) _ (fun g _ => query_does g) _ _ _ E1) as (b1 & [e|] & I1 & ->).
      { injection E as <- <-. exists b1, (Some e). split; [|reflexivity]. cbn [questions flat_map]. rewrite <- app_assoc. now apply interview_stop. }
      destruct (query_asking W p line w1) as [w2 r2] eqn:E2. destruct (query_does line _ _ _ E2) as (b2 & [e|] & I2 & ->).
      { injection E as <- <-. exists (b1 ++ b2), (Some e). split; [|reflexivity]. cbn [questions flat_map]. rewrite <- app_assoc.
        eapply interview_app; [exact I1|]. now apply interview_stop. }
      cbn [questions flat_map]. fold (questions lines). fold (nested line) in I1, E.
      assert (F' : groups_found (before ++ [line]) (answers0 ++ b1 ++ b2) (append_new (result0 ++ chosen (nested line) b1) (chosen (preorder line) b2))).
      { eapply found_for_line; [exact F|apply nested_lists| | |].
        - exact (interview_length _ _ _ _ _ I1).
        - rewrite (interview_length _ _ _ _ _ I2), preorder_eq. reflexivity.
        - rewrite <- preorder_eq. apply append_new_with_new. }
      destruct (IH _ _ _ _ _ _ F' E) as (b3 & o & I3 & K). exists (b1 ++ b2 ++ b3), o. split.
      + rewrite <- app_assoc. eapply interview_app; [exact I1|]. eapply interview_app; [exact I2|exact I3].
      + destruct o as [e|]; [exact K|]. destruct K as (result & K & ->). exists result. split; [|reflexivity]. rewrite <- !app_assoc in K. exact K.
  Qed.
  Lemma find_groups_found a w w' r : find_segment_groups_asking W p a w = (w', r) ->
    exists bs o, interview p (questions (da_lines a)) bs w w' o
      /\ match o with None => exists result, groups_found (da_lines a) bs result /\ r = Ok result | Some e => r = Raise e end.
  Proof. intros E. exact (loop_found (da_lines a) [] [] [] w w' r found_nothing E). Qed.
End Groups.

Section Segments.
  Context {W : Type} (p : Segment -> W -> W * result bool).
  Definition asks_segments (g : SegmentGroup) : list Segment := flat_map (fun h => olist (g_segments h)) (preorder g).
  Lemma segment_does s : does p (fun s => [s]) (segment_asking W p) s.
  Proof.
    intros w w' r E. unfold segment_asking in E. destruct (p s w) as [w1 [b|e]] eqn:P; injection E as <- <-.
    - exists [b], None. split; [eapply answered; [exact P|constructor]|]. destruct b; reflexivity.
    - exists [], (Some e). split; [now apply refused|reflexivity].
  Qed.
  Lemma direct_does (get : SegmentGroup -> list Segment) g : does p get (fun line => collect_each W (segment_asking W p) (get line)) g.
  Proof.
    intros w w' r E. destruct (collect_each_does p (fun s => [s]) (segment_asking W p) _ (fun s _ => segment_does s) _ _ _ E) as (bs & o & I & H).
    rewrite flat_map_single in *. eauto.
  Qed.
  Lemma flat_map_flat_map {A B C} (f : B -> list C) (g : A -> list B) l : flat_map f (flat_map g l) = flat_map (fun x => flat_map f (g x)) l.
  Proof. induction l; cbn; [reflexivity|]. now rewrite flat_map_app, IHl. Qed.
  Lemma group_does g : does p asks_segments (group_find_segments_asking W p) g.
  Proof.
    induction g as [d e i ss gs IH] using group_ind'. rewrite Forall_forall in IH. intros w w' r E. cbn [group_find_segments_asking] in E.
    unfold asks_segments. rewrite preorder_eq. cbn [flat_map g_segments]. unfold nested. cbn [g_groups]. rewrite flat_map_flat_map. fold asks_segments.
    destruct (collect_each W (segment_asking W p) (olist ss) w) as [w1 r1] eqn:E1.
    destruct (collect_each_does p (fun s => [s]) (segment_asking W p) _ (fun s _ => segment_does s) _ _ _ E1) as (b1 & o1 & I1 & ->). rewrite flat_map_single in *.
    destruct o1 as [x|]; [injection E as <- <-; exists b1, (Some x); split; [now apply interview_stop|reflexivity]|].
    destruct gs as [l|]; [|injection E as <- <-; exists b1, None; cbn; rewrite app_nil_r; auto].
    destruct (collect_each W (group_find_segments_asking W p) l w1) as [w2 r2] eqn:E2.
    destruct (collect_each_does p asks_segments (group_find_segments_asking W p) l IH _ _ _ E2) as (b2 & o2 & I2 & ->). cbn [olist].
    change (flat_map (fun x => flat_map (fun h => olist (g_segments h)) (preorder x)) l) with (flat_map asks_segments l).
    destruct o2 as [x|]; injection E as <- <-.
    - exists (b1 ++ b2), (Some x). split; [eapply interview_app; eassumption|reflexivity].
    - exists (b1 ++ b2), None. split; [eapply interview_app; eassumption|]. rewrite chosen_app; [reflexivity|]. now apply interview_length in I1.
  Qed.
  Definition segment_questions (lines groups : list SegmentGroup) : list Segment :=
    flat_map asks_segments groups ++ flat_map (fun line => olist (g_segments line)) lines.
  Lemma segments_in_order_iff g l : segments_in_order g l <-> l = asks_segments g.
  Proof.
    split.
    - intros (gs & H & ->). apply (proj1 preorder_unique) in H as ->. reflexivity.
    - intros ->. exists (preorder g). split; [apply preorder_lists|reflexivity].
  Qed.
  Lemma asked_segments_iff lines groups l : asked_segments lines groups l <-> l = segment_questions lines groups.
  Proof.
    unfold asked_segments, segment_questions. split.
    - intros (inner & F & ->). f_equal. induction F as [|g s groups inner H _ IH]; [reflexivity|]. apply segments_in_order_iff in H as ->. cbn. now f_equal.
    - intros ->. exists (map asks_segments groups). split; [|now rewrite flat_map_concat_map].
      induction groups; constructor; [now apply segments_in_order_iff|assumption].
  Qed.
End Segments.
Lemma find_segments_found {W} (gp : SegmentGroup -> W -> W * result bool) (sp : Segment -> W -> W * result bool) a w w' r :
  find_segments_asking W gp sp a w = (w', r) ->
  (exists bs e, interview gp (questions (da_lines a)) bs w w' (Some e) /\ r = Raise e)
  \/ exists bs groups w1 bs' o, interview gp (questions (da_lines a)) bs w w1 None /\ groups_found (da_lines a) bs groups
     /\ interview sp (segment_questions (da_lines a) groups) bs' w1 w' o
     /\ r = match o with None => Ok (chosen (segment_questions (da_lines a) groups) bs') | Some e => Raise e end.
Proof.
  unfold find_segments_asking. destruct (find_segment_groups_asking W gp a w) as [w1 r1] eqn:E1. destruct (find_groups_found gp a w w1 r1 E1) as (bs & [e|] & I1 & K).
  { subst r1. intros [= <- <-]. left. eauto. }
  destruct K as (groups & F & ->). intros E. right. exists bs, groups, w1.
  destruct (collect_each W (group_find_segments_asking W sp) groups w1) as [w2 r2] eqn:E2.
  destruct (collect_each_does sp asks_segments (group_find_segments_asking W sp) groups (fun g _ => group_does sp g) _ _ _ E2) as (b2 & o2 & I2 & ->).
  destruct o2 as [x|]; [injection E as <- <-; exists b2, (Some x); split; [exact I1|split; [exact F|split; [unfold segment_questions; now apply interview_stop|reflexivity]]]|].
  destruct (collect_each W (fun line => collect_each W (segment_asking W sp) (olist (g_segments line))) (da_lines a) w2) as [w3 r3] eqn:E3.
  destruct (collect_each_does sp (fun line => olist (g_segments line)) _ (da_lines a) (fun g _ => direct_does sp (fun line => olist (g_segments line)) g) _ _ _ E3) as (b3 & o3 & I3 & ->).
  assert (w3 = w') as -> by (destruct o3; congruence).
  exists (b2 ++ b3), o3. split; [exact I1|]. split; [exact F|]. split; [eapply interview_app; eassumption|]. unfold segment_questions.
  destruct o3 as [x|]; injection E as <-; [reflexivity|]. rewrite chosen_app; [reflexivity|]. now apply interview_length in I2.
Qed.

(** ** mergers *)
Section Mergers.
  Context {W : Type} (merger : pystr -> pystr -> W -> W * result pystr) (mapping : list (pystr * option pystr)).
  Notation ask := (fun (mq : pystr * pystr) w => merger (fst mq) (snd mq) w).
  Notation mapped := (is_mapped mapping).

  Lemma mapped_iff q : mapped q = true <-> dict_get q mapping <> None.
  Proof.
    unfold is_mapped. rewrite str_in_In. pose proof (dict_get_None q mapping) as H. destruct (dict_get q mapping); split; intros K; try congruence; [|tauto].
    destruct (in_dec (list_eq_dec N.eq_dec) q (map fst mapping)) as [I|I]; [exact I|]. apply H in I. discriminate.
  Qed.
  Lemma replace_loop_same (f f' : pystr -> pystr -> pystr) m m' todo : (forall q i, In (q, i) todo -> dict_get q m = dict_get q m' /\ forall x, f x q = f' x q) ->
    forall pool, replace_loop m (Some f) todo pool = replace_loop m' (Some f') todo pool.
  Proof.
    induction todo as [|[q i] todo IH]; intros H pool; [reflexivity|]. cbn [replace_loop].
    assert (E : replace_one m (Some f) q i pool = replace_one m' (Some f') q i pool).
    { unfold replace_one. destruct (H q i (or_introl eq_refl)) as (-> & Hf). destruct (dict_get q m') as [v|]; [|reflexivity]. destruct (nth_error pool i) as [e|]; [|reflexivity]. now rewrite Hf. }
    rewrite E. destruct (replace_one m' (Some f') q i pool) as [pool1 [x|]]; [reflexivity|]. apply IH. intros q' i' I. apply (H q' i'). now right.
  Qed.
  Lemma replace_loop_app m mg a b : forall pool, replace_loop m mg (a ++ b) pool = match replace_loop m mg a pool with (pool', None) => replace_loop m mg b pool' | r => r end.
  Proof.
    induction a as [|[q i] a IH]; intros pool; [reflexivity|]. cbn [app replace_loop]. destruct (replace_one m mg q i pool) as [pool1 [x|]]; [reflexivity|apply IH].
  Qed.
  Lemma replace_loop_unmapped m mg todo pool : (forall q i, In (q, i) todo -> dict_get q m = None) -> replace_loop m mg todo pool = (pool, None).
  Proof.
    induction todo as [|[q i] todo IH]; intros H; [reflexivity|]. cbn [replace_loop]. unfold replace_one. rewrite (H q i (or_introl eq_refl)). apply IH. intros q' i' I. apply (H q' i'). now right.
  Qed.
  Lemma dict_get_only qs q : dict_get q (only qs mapping) = if str_in q qs then dict_get q mapping else None.
  Proof.
    unfold only. induction mapping as [|[k v] m IH]; cbn [filter fst dict_get]; [now destruct (str_in q qs)|].
    destruct (str_in k qs) eqn:E; cbn [dict_get]; destruct (str_eqb q k) eqn:K; try exact IH.
    - apply str_eqb_eq in K as ->. now rewrite E.
    - apply str_eqb_eq in K as ->. rewrite IH, E. reflexivity.
  Qed.

  Variable original : list ValuePoolEntry.
  Lemma loop_asking todo : forall pool w w' pool' x,
    NoDup (map fst todo) -> NoDup (map snd todo) ->
    (forall q i, In (q, i) todo -> nth_error pool i = nth_error original i /\ exists e, nth_error original i = Some e /\ ve_qualifier e = q /\ last_of_its_qualifier original i) ->
    replace_loop_asking W merger mapping todo pool w = (w', (pool', x)) ->
    exists a b questions answers o f, todo = a ++ b
      /\ Forall2 (merger_question original) (filter mapped (map fst a)) questions
      /\ interview ask questions answers w w' o
      /\ Forall2 (fun mq m => m = f (fst mq) (snd mq)) (firstn (List.length answers) questions) answers
      /\ match o with
         | None => replace_loop mapping (Some f) todo pool = (pool', x)
                   /\ (x = None -> b = []) /\ (x <> None -> exists a' q i, a = a' ++ [(q, i)] /\ ~ valid_image (fun q => dict_get q mapping) q)
         | Some e => x = Some e /\ exists a' q i, a = a' ++ [(q, i)] /\ mapped q = true /\ replace_loop mapping (Some f) a' pool = (pool', None)
         end.
  Proof.
    induction todo as [|[q i] todo IH]; intros pool w w' pool' x ND1 ND2 H E.
    - injection E as <- <- <-. exists [], [], [], [], None, (fun m _ => m). cbn. repeat split; try constructor. congruence.
    - cbn [replace_loop_asking] in E. unfold replace_one_asking in E. destruct (H q i (or_introl eq_refl)) as (Hn & e & He & Hq & Hl).
      inversion ND1 as [|? ? N1 ND1']; subst. inversion ND2 as [|? ? N2 ND2']; subst. cbn [fst snd] in *.
      assert (H' : forall j y, (forall q' i', In (q', i') todo -> j <> i') ->
                forall q' i', In (q', i') todo -> nth_error (list_set j y pool) i' = nth_error original i' /\ exists e', nth_error original i' = Some e' /\ ve_qualifier e' = q' /\ last_of_its_qualifier original i').
      { intros j y D q' i' I. destruct (H q' i' (or_intror I)) as (A & B). split; [|exact B]. rewrite list_set_nth_other; [exact A|]. eapply D; eassumption. }
      assert (D : forall q' i', In (q', i') todo -> i <> i') by (intros q' i' I ->; apply N2; apply in_map_iff; exists (q', i'); auto).
      assert (Dq : forall q' i', In (q', i') todo -> str_eqb q' (ve_qualifier e) = false).
      { intros q' i' I. destruct (str_eqb q' (ve_qualifier e)) eqn:K; [|reflexivity]. apply str_eqb_eq in K as ->. exfalso. apply N1. apply in_map_iff. exists (ve_qualifier e, i'). auto. }
      destruct (dict_get (ve_qualifier e) mapping) as [new|] eqn:G.
      + rewrite Hn, He in E. destruct (merger (ve_meaning e) (ve_qualifier e) w) as [w1 [m|y]] eqn:M.
        * assert (One : forall f, f (ve_meaning e) (ve_qualifier e) = m -> replace_one mapping (Some f) (ve_qualifier e) i pool
            = match check_is_edifact_qualifier new, new with
              | Ok _, Some q' => (list_set i (mkEntry q' m (ve_expression e)) pool, None)
              | Ok _, None => (list_set i (mkEntry (ve_qualifier e) m (ve_expression e)) pool, Some ValueError)
              | Raise y, _ => (list_set i (mkEntry (ve_qualifier e) m (ve_expression e)) pool, Some y)
              end).
          { intros f Hf. unfold replace_one. rewrite G, Hn, He, Hf. cbn. destruct (check_is_edifact_qualifier new), new; reflexivity. }
          assert (Q : Forall2 (merger_question original) (filter mapped (map fst [(ve_qualifier e, i)])) [(ve_meaning e, ve_qualifier e)]).
          { cbn [map fst filter]. assert (mapped (ve_qualifier e) = true) as -> by (apply mapped_iff; congruence). constructor; [|constructor]. split; [reflexivity|]. exists i, e. auto. }
          assert (Stop : forall y pool1, check_is_edifact_qualifier new = Raise y \/ new = None -> (w1, (pool1, Some y)) = (w', (pool', x)) ->
              (forall f, f (ve_meaning e) (ve_qualifier e) = m -> replace_one mapping (Some f) (ve_qualifier e) i pool = (pool1, Some y)) ->
              exists a b questions answers o f, (ve_qualifier e, i) :: todo = a ++ b
                /\ Forall2 (merger_question original) (filter mapped (map fst a)) questions
                /\ interview ask questions answers w w' o
                /\ Forall2 (fun mq m => m = f (fst mq) (snd mq)) (firstn (List.length answers) questions) answers
                /\ match o with
                   | None => replace_loop mapping (Some f) ((ve_qualifier e, i) :: todo) pool = (pool', x)
                             /\ (x = None -> b = []) /\ (x <> None -> exists a' q i, a = a' ++ [(q, i)] /\ ~ valid_image (fun q => dict_get q mapping) q)
                   | Some e => x = Some e /\ exists a' q i, a = a' ++ [(q, i)] /\ mapped q = true /\ replace_loop mapping (Some f) a' pool = (pool', None)
                   end).
          { intros y pool1 Bad [= <- <- <-] R. exists [(ve_qualifier e, i)], todo, [(ve_meaning e, ve_qualifier e)], [m], None, (fun _ _ => m).
            split; [reflexivity|]. split; [exact Q|]. split; [eapply answered; [exact M|constructor]|]. split; [cbn; constructor; [reflexivity|constructor]|].
            cbn [replace_loop]. rewrite R by reflexivity. split; [reflexivity|]. split; [discriminate|]. intros _. exists [], (ve_qualifier e), i. split; [reflexivity|].
            unfold valid_image. rewrite G. destruct new as [q'|]; [|tauto]. intros K. assert (check_is_edifact_qualifier (Some q') = Ok tt) by (apply check_qualifier_ok; eauto). destruct Bad; congruence. }
          destruct (check_is_edifact_qualifier new) as [[]|y] eqn:C; [|eapply Stop; [left; reflexivity|exact E|exact One]].
          destruct new as [q'|]; [|eapply Stop; [right; reflexivity|exact E|exact One]]. clear Stop.
          destruct (IH _ _ _ _ _ ND1' ND2' (H' i _ D) E) as (a & b & qs & bs & o & f & -> & Q' & I & F & K).
          set (f' := fun x0 q0 => if str_eqb q0 (ve_qualifier e) then m else f x0 q0).
          assert (Hf' : f' (ve_meaning e) (ve_qualifier e) = m) by (unfold f'; now rewrite str_eqb_refl).
          assert (Same : forall q0 i0, In (q0, i0) (a ++ b) -> forall x0, f' x0 q0 = f x0 q0) by (intros q0 i0 I0 x0; unfold f'; now rewrite (Dq q0 i0 I0)).
          exists ((ve_qualifier e, i) :: a), b, ((ve_meaning e, ve_qualifier e) :: qs), (m :: bs), o, f'.
          split; [reflexivity|]. split.
          { cbn [map fst filter]. assert (mapped (ve_qualifier e) = true) as -> by (apply mapped_iff; congruence). constructor; [|exact Q']. split; [reflexivity|]. exists i, e. auto. }
          split; [eapply answered; [exact M|exact I]|]. split.
          { cbn [List.length firstn]. constructor; [cbn; now rewrite Hf'|].
            assert (In0 : forall mq, In mq qs -> exists i0, In (snd mq, i0) (a ++ b)).
            { intros mq Im. destruct (Forall2_in_r _ _ _ _ Q' Im) as (q0 & Iq & (Eq & _)). apply filter_In in Iq as (Iq & _). apply in_map_iff in Iq as ([q1 i1] & E1 & Iq). cbn in E1. rewrite Eq, <- E1. exists i1. apply in_or_app. now left. }
            assert (In1 : forall mq, In mq (firstn (List.length bs) qs) -> In mq qs) by (intros mq Im; rewrite <- (firstn_skipn (List.length bs) qs); apply in_or_app; now left).
            clear I. revert F In0 In1. generalize (firstn (List.length bs) qs) as l. intros l F In0 In1. induction F as [|mq m0 l l' E0 F IHF]; constructor.
            - destruct (In0 mq (In1 mq (or_introl eq_refl))) as (i0 & I0). rewrite (Same _ _ I0). exact E0.
            - apply IHF. intros mq' I'. apply In1. now right. }
          destruct o as [y|].
          { destruct K as (-> & a' & q0 & i0 & -> & Mq & R). split; [reflexivity|]. exists ((ve_qualifier e, i) :: a'), q0, i0. split; [reflexivity|]. split; [exact Mq|].
            cbn [replace_loop]. rewrite (One f' Hf'). rewrite <- R. apply replace_loop_same. intros q1 i1 I1. split; [reflexivity|]. apply (Same q1 i1). rewrite <- app_assoc. apply in_or_app. now left. }
          destruct K as (R & K1 & K2). split; [|split; [exact K1|]].
          { cbn [app replace_loop]. rewrite (One f' Hf'). rewrite <- R. apply replace_loop_same. intros q1 i1 I1. split; [reflexivity|]. exact (Same q1 i1 I1). }
          intros Nx. destruct (K2 Nx) as (a' & q0 & i0 & -> & V). exists ((ve_qualifier e, i) :: a'), q0, i0. auto.
        * injection E as <- <- <-. exists [(ve_qualifier e, i)], todo, [(ve_meaning e, ve_qualifier e)], [], (Some y), (fun m _ => m).
          split; [reflexivity|]. assert (Mq : mapped (ve_qualifier e) = true) by (apply mapped_iff; congruence). split.
          { cbn [map fst filter]. rewrite Mq. constructor; [|constructor]. split; [reflexivity|]. exists i, e. auto. }
          split; [now apply refused|]. split; [constructor|]. split; [reflexivity|]. exists [], (ve_qualifier e), i. auto.
      + destruct (IH _ _ _ _ _ ND1' ND2' (fun q' i' I => H q' i' (or_intror I)) E) as (a & b & qs & bs & o & f & -> & Q' & I & F & K).
        exists ((ve_qualifier e, i) :: a), b, qs, bs, o, f. split; [reflexivity|]. split.
        { cbn [map fst filter]. assert (mapped (ve_qualifier e) = false) as -> by (destruct (mapped (ve_qualifier e)) eqn:Mq; [apply mapped_iff in Mq; congruence|reflexivity]). exact Q'. }
        split; [exact I|]. split; [exact F|]. assert (One : replace_one mapping (Some f) (ve_qualifier e) i pool = (pool, None)) by (unfold replace_one; now rewrite G).
        destruct o as [y|].
        * destruct K as (-> & a' & q0 & i0 & -> & Mq & R). split; [reflexivity|]. exists ((ve_qualifier e, i) :: a'), q0, i0. split; [reflexivity|]. split; [exact Mq|]. cbn [replace_loop]. now rewrite One.
        * destruct K as (R & K1 & K2). split; [cbn [app replace_loop]; now rewrite One|]. split; [exact K1|]. intros Nx. destruct (K2 Nx) as (a' & q0 & i0 & -> & V). exists ((ve_qualifier e, i) :: a'), q0, i0. auto.
  Qed.
End Mergers.

(** ** from elements to AHBs *)
Section Shape.
  Variable R : DataElement -> DataElement -> Prop.
  Notation T := (fun _ _ : DataElement => True).
  Lemma Forall2_app_length {A B} (P : A -> B -> Prop) a b a' b' : List.length a' = List.length a -> Forall2 P (a ++ b) (a' ++ b') -> Forall2 P a a' /\ Forall2 P b b'.
  Proof.
    revert a'. induction a as [|x a IH]; intros [|y a'] L H; try discriminate; [split; [constructor|exact H]|]. cbn in H. inversion H; subst. destruct (IH a') as (X & Y); auto. 
  Qed.
  Lemma flat_map_Forall2 {A} (els : A -> list DataElement) (P Q : A -> A -> Prop) l l' :
    (forall x y, In x l -> P x y -> List.length (els y) = List.length (els x)) -> (forall x y, In x l -> P x y -> Forall2 R (els x) (els y) -> Q x y) ->
    Forall2 P l l' -> Forall2 R (flat_map els l) (flat_map els l') -> Forall2 Q l l'.
  Proof.
    intros L H F. induction F as [|x y l l' K F IH]; intros E; constructor; cbn in E; apply Forall2_app_length in E as (E1 & E2); auto with datatypes.
  Qed.
  Lemma segment_shape s s' : segments_related T eq s s' -> Forall2 R (seg_elements s) (seg_elements s') -> segments_related R eq s s'.
  Proof. unfold segments_related. intuition. Qed.
  Lemma group_shape g : forall g', groups_related T eq g g' -> Forall2 R (elements_in_turn g) (elements_in_turn g') -> groups_related R eq g g'.
  Proof.
    induction g as [d e i ss gs IH] using group_ind'. rewrite Forall_forall in IH. intros g' H F. inversion H as [? ? ? i' ? ss' ? gs' -> S0 G]; subst. cbn [elements_in_turn] in F.
    apply Forall2_app_length in F as (F1 & F2); [|inversion G as [|l l' F']; subst; [reflexivity|]; eapply flat_map_lengths; [|exact F']; auto using group_lengths].
    constructor; [reflexivity| |].
    - inversion S0 as [|l l' F]; subst; constructor. eapply flat_map_Forall2 with (els := seg_elements); [| |exact F|exact F2]; auto using segment_lengths, segment_shape.
    - inversion G as [|l l' F]; subst; constructor. eapply flat_map_Forall2 with (els := elements_in_turn); [| |exact F|exact F1]; auto using group_lengths.
  Qed.
  Lemma ahb_shape a a' : same_shape a a' -> Forall2 R (all_elements_in_turn a) (all_elements_in_turn a') -> ahbs_related R eq a a'.
  Proof.
    intros (M & F) E. split; [exact M|]. eapply flat_map_Forall2 with (els := elements_in_turn); [| |exact F|exact E]; auto using group_lengths, group_shape.
  Qed.
End Shape.

Lemma Forall2_map_eq {A B} (R : A -> A -> Prop) (h k : A -> B) l l' : (forall x y, In x l -> R x y -> h x = k y) -> Forall2 R l l' -> map h l = map k l'.
Proof. intros H F. induction F as [|x y l l' K F IH]; [reflexivity|]. cbn. f_equal; auto with datatypes. Qed.
Lemma replace_related (R : DataElement -> DataElement -> Prop) f : (forall d d', R d d' -> element_replace_input f d' = element_replace_input f d) ->
  forall g g', groups_related R eq g g' -> group_replace_inputs f g' = group_replace_inputs f g.
Proof.
  intros H g. induction g as [d e i ss gs IH] using group_ind'. rewrite Forall_forall in IH. intros g' K. inversion K as [? ? ? i' ? ss' ? gs' -> S0 G]; subst. cbn [group_replace_inputs]. f_equal.
  - inversion S0 as [|l l' F]; subst; [reflexivity|]. cbn. f_equal. symmetry. eapply Forall2_map_eq; [|exact F]. intros s s' _ (-> & -> & <- & E & -> & ->). f_equal.
    eapply Forall2_map_eq; [|exact E]. intros x y _ Rxy. symmetry. now apply H.
  - inversion G as [|l l' F]; subst; [reflexivity|]. cbn. f_equal. symmetry. eapply Forall2_map_eq; [|exact F]. intros x y I Rxy. symmetry. now apply IH.
Qed.
Lemma replace_related_ahb (R : DataElement -> DataElement -> Prop) f a a' : (forall d d', R d d' -> element_replace_input f d' = element_replace_input f d) ->
  ahbs_related R eq a a' -> replace_inputs_based_on_discriminator a' f = replace_inputs_based_on_discriminator a f.
Proof.
  intros H (M & F). unfold replace_inputs_based_on_discriminator. f_equal; [exact M|]. symmetry. eapply Forall2_map_eq; [|exact F]. intros x y _ K. symmetry. eapply replace_related; eassumption.
Qed.
Lemma replaced_exactly f : forall g g', groups_related (fun d d' => d' = element_replace_input f d) eq g g' -> g' = group_replace_inputs f g.
Proof.
  intros g. induction g as [d e i ss gs IH] using group_ind'. rewrite Forall_forall in IH. intros g' K. inversion K as [? ? ? i' ? ss' ? gs' -> S0 G]; subst. cbn [group_replace_inputs]. f_equal.
  - inversion S0 as [|l l' F]; subst; [reflexivity|]. cbn. f_equal. rewrite <- (map_id l') at 1. symmetry. eapply Forall2_map_eq; [|exact F]. intros s [] _ (E1 & E2 & E3 & E & E4 & E5). cbn in *. f_equal; auto.
    rewrite <- (map_id seg_elements) at 1. eapply Forall2_map_eq; [|exact E]. auto.
  - inversion G as [|l l' F]; subst; [reflexivity|]. cbn. f_equal. rewrite <- (map_id l') at 1. symmetry. eapply Forall2_map_eq; [|exact F]. intros x y I Rxy. symmetry. now apply IH.
Qed.
Lemma replaced_exactly_ahb f a a' : ahbs_related (fun d d' => d' = element_replace_input f d) eq a a' -> a' = replace_inputs_based_on_discriminator a f.
Proof.
  intros (M & F). destruct a' as [m l]. unfold replace_inputs_based_on_discriminator. cbn in *. f_equal; [exact M|]. rewrite <- (map_id l) at 1. symmetry. eapply Forall2_map_eq; [|exact F]. intros x y _ K. symmetry. now apply replaced_exactly.
Qed.

(** ** a relation between the elements, in turn, is one between the AHBs *)
Section Lifting.
  Variable R : DataElement -> DataElement -> Prop.
  Notation T := (fun _ _ : DataElement => True).
  Lemma Forall2_app_parts {A} (P : A -> A -> Prop) a a' b b' : List.length a' = List.length a -> Forall2 P (a ++ b) (a' ++ b') -> Forall2 P a a' /\ Forall2 P b b'.
  Proof. revert a'. induction a as [|x a IH]; intros [|y a'] L F; try discriminate; [auto|]. cbn in F. inversion F; subst. destruct (IH a') as (F1 & F2); auto. Qed.
  Lemma flat_map_lifted {A} (els : A -> list DataElement) (P Q : A -> A -> Prop) l :
    (forall x y, In x l -> P x y -> List.length (els y) = List.length (els x)) ->
    (forall x y, In x l -> P x y -> Forall2 R (els x) (els y) -> Q x y) ->
    forall l', Forall2 P l l' -> Forall2 R (flat_map els l) (flat_map els l') -> Forall2 Q l l'.
  Proof.
    intros L H l' F. induction F as [|x y l l' K F IH]; intros G; [constructor|]. cbn in G. apply Forall2_app_parts in G as (G1 & G2); [|auto with datatypes].
    constructor; auto with datatypes.
  Qed.
  Lemma segment_lifted s s' : segments_related T eq s s' -> Forall2 R (seg_elements s) (seg_elements s') -> segments_related R eq s s'.
  Proof. intros (E1 & E2 & E3 & _ & E4 & E5) F. repeat split; auto. Qed.
  Lemma group_lifted g : forall g', groups_related T eq g g' -> Forall2 R (elements_in_turn g) (elements_in_turn g') -> groups_related R eq g g'.
  Proof.
    induction g as [d e i ss gs IH] using group_ind'. rewrite Forall_forall in IH. intros g' H F. inversion H as [? ? ? i' ? ss' ? gs' -> S0 G]; subst. cbn [elements_in_turn] in F.
    apply Forall2_app_parts in F as (F1 & F2).
    - constructor; [reflexivity| |].
      + inversion S0 as [|l l' K]; subst; constructor. eapply flat_map_lifted with (els := seg_elements); [| |exact K|exact F2]; auto using segment_lifted, segment_lengths.
      + inversion G as [|l l' K]; subst; constructor. eapply flat_map_lifted with (els := elements_in_turn); [| |exact K|exact F1]; auto using group_lengths.
    - inversion G as [|l l' K]; subst; [reflexivity|]. eapply flat_map_lengths; [|exact K]. auto using group_lengths.
  Qed.
  Lemma ahb_lifted a a' : same_shape a a' -> Forall2 R (all_elements_in_turn a) (all_elements_in_turn a') -> ahbs_related R eq a a'.
  Proof.
    intros (M & F) K. split; [exact M|]. eapply flat_map_lifted with (els := elements_in_turn); [| |exact F|exact K]; auto using group_lifted, group_lengths.
  Qed.
End Lifting.
Lemma turn_relates {W} (f : pystr -> W -> W * result Replacement) (R : DataElement -> DataElement -> Prop) l l' w w' x :
  (forall d, R d d) -> (forall v d d', only_input_set v d d' -> R d d') -> replaced_in_turn f l l' w w' x -> Forall2 R l l'.
Proof.
  intros Refl H. induction 1; constructor; eauto. clear - Refl. induction l; constructor; auto.
Qed.
