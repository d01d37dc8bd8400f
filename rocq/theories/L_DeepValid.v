(** What to_deep_ahb creates satisfies the validators. *)
From Coq Require Import Ascii String List NArith ZArith Bool Lia.
From Verif Require Import PyBase PyStr PyRe M_Components M_Ahb M_Sgh M_Navigation M_Matching M_Schema
  L_Base S_Text L_Str L_Validators S_FlatAhb S_ValuePool L_ValuePool S_DeepAhb L_DeepAhb S_Matching L_Matching L_DeepTree L_DeepLoop S_Json L_Json.
Import ListNotations.
Local Open Scope list_scope.

(** a data element that is valid and has a type *)
Definition element_fine (d : DataElement) : Prop := valid_element d /\ type_of d <> None.
Definition segment_fine (s : Segment) : Prop := valid_segment s /\ forall d, In d (seg_elements s) -> type_of d <> None.
Definition cell_fine (c : GroupCell) : Prop := ~ blank (gc_expression c) /\ Forall segment_fine (gc_segments c).
Definition heap_fine (h : Heap) : Prop := Forall cell_fine (hp_cells h).

Lemma Forall_list_set {A} (P : A -> Prop) i x l : Forall P l -> P x -> Forall P (list_set i x l).
Proof. revert i; induction l as [|y l IH]; intros [|i] F H; cbn; auto; inversion F; subst; constructor; auto. Qed.
Lemma update_fine g f h : (forall c, cell_fine c -> cell_fine (f c)) -> heap_fine h -> heap_fine (update_cell g f h).
Proof.
  intros Hf Hh. unfold update_cell. destruct (nth_error (hp_cells h) g) as [c|] eqn:E; [|exact Hh].
  unfold heap_fine. cbn [hp_cells]. apply Forall_list_set; [exact Hh|]. apply Hf.
  unfold heap_fine in Hh. rewrite Forall_forall in Hh. apply Hh. eapply nth_error_In; exact E.
Qed.
Lemma append_group_fine r g h : heap_fine h -> heap_fine (append_group r g h).
Proof.
  intros H. destruct r as [|p]; cbn [append_group]; [exact H|]. apply update_fine; [|exact H]. intros c Hc. exact Hc.
Qed.
Lemma append_segment_fine g s h : segment_fine s -> heap_fine h -> heap_fine (append_segment g s h).
Proof.
  intros Hs H. unfold append_segment. apply update_fine; [|exact H]. intros c [H1 H2]. split; [exact H1|]. cbn.
  apply Forall_app. auto.
Qed.
Lemma add_element_fine d s : element_fine d -> segment_fine s -> segment_fine (add_element d s).
Proof.
  intros [V T] [(H1 & H2 & H3) H4]. split.
  - split; [exact H1|]. split; [|exact H3]. cbn. apply Forall_app. auto.
  - cbn. intros d' I. apply in_app_iff in I as [I|[<- |[]]]; auto.
Qed.
Lemma append_element_fine ref d h : element_fine d -> heap_fine h -> heap_fine (append_element ref d h).
Proof.
  intros Hd H. unfold append_element. apply update_fine; [|exact H]. intros c [H1 H2]. split; [exact H1|]. cbn [gc_segments].
  destruct (nth_error (gc_segments c) (snd ref)) as [s|] eqn:E; [|exact H2]. apply Forall_list_set; [exact H2|].
  apply add_element_fine; [exact Hd|]. rewrite Forall_forall in H2. apply H2. eapply nth_error_In; exact E.
Qed.
Lemma some_path st : some_text (option_map to_json_path st).
Proof. intros s E. destruct st as [x|]; [|discriminate]. injection E as <-. apply json_path_not_blank. Qed.
Lemma merge_fine lines st d : merge_lines_with_same_data_element lines st = Ok d -> element_fine d.
Proof.
  unfold merge_lines_with_same_data_element. intros H. apply bind_ok in H as (x & _ & H).
  destruct lines as [|l0 rest]; [discriminate|]. destruct (is_some (al_entry l0)).
  - apply bind_ok in H as (p & Hp & H). apply bind_ok in H as (es & Hes & H). injection H as <-.
    destruct (al_element l0) as [i|] eqn:Ei.
    2:{ unfold new_ValuePool in Hp. apply bind_ok in Hp as (i & Hi & _). unfold check_data_element in Hi. apply bind_ok in Hi as (y & _ & Hi). discriminate. }
    apply new_ValuePool_ok in Hp as (-> & T & D). split; [|discriminate]. cbn. split; [exact T|]. split; [exact D|].
    apply value_pool_entries_ok in Hes. clear - Hes. induction Hes as [|l e ls es (A1 & A2 & A3 & A4 & A5) _ IH]; constructor; [split; assumption|exact IH].
  - apply bind_ok in H as (f & Hf & H). unfold new_FreeText in Hf.
    assert (F : exists i e, al_element l0 = Some i /\ al_expression l0 = Some e).
    { destruct (al_expression l0) as [e|].
      - destruct (al_element l0) as [i|]; [eauto|]. apply bind_ok in Hf as (i & Hi & _).
        unfold check_data_element in Hi. apply bind_ok in Hi as (y & _ & Hi). discriminate.
      - exfalso. apply bind_ok in Hf as (i & _ & Hf). discriminate. }
    destruct F as (i & e & Ei & Ee). rewrite Ei, Ee in Hf. apply new_FreeText_ok in Hf as (-> & T & D & B).
    destruct (derive_data_type_from_segment_code (al_segment l0)) as [t|]; injection H as <-; (split; [|discriminate]);
      cbn; auto.
Qed.

Section Steps.
  Variable reader : Location -> result EdifactStack.
  Variable str_of_location : Location -> pystr.
  Lemma open_group_fine st pos path first st' : open_group st pos path first = Ok st' -> heap_fine (ds_heap st) -> heap_fine (ds_heap st').
  Proof.
    unfold open_group. intros H F. apply bind_ok in H as (g & Hg & H). apply new_SegmentGroup_ok in Hg as (x & _ & B & ->).
    cbv zeta in H. cbn [g_discriminator g_expression g_index] in H.
    set (hp := mkHeap _ _) in H. assert (Fh : heap_fine hp).
    { unfold hp, heap_fine. cbn [hp_cells]. apply Forall_app. split; [exact F|]. constructor; [|constructor]. split; [exact B|constructor]. }
    clearbody hp. destruct (str_eqb path root_discriminator).
    - injection H as <-. cbn [ds_heap]. exact Fh.
    - destruct (ds_previous st) as [pp|]; [|discriminate]. destruct (is_sub_location_of pos pp).
      + destruct (ds_sg_here st) as [r|]; [|discriminate]. injection H as <-. cbn [ds_heap]. now apply append_group_fine.
      + apply bind_ok in H as (dd & _ & H). apply bind_ok in H as ([a b] & _ & H). apply bind_ok in H as ([a' b'] & _ & H).
        destruct a' as [r|]; [|discriminate]. injection H as <-. cbn [ds_heap]. now apply append_group_fine.
  Qed.
  Lemma add_segment_fine st pos stack lines f l st' : add_segment str_of_location st pos stack lines f l = Ok st' ->
    heap_fine (ds_heap st) -> heap_fine (ds_heap st').
  Proof.
    unfold add_segment. intros H F. apply bind_ok in H as (x & _ & H). apply bind_ok in H as (y & _ & H).
    destruct (find _ lines) as [fe|] eqn:Ef; [|injection H as <-; exact F].
    apply bind_ok in H as (s & Hs & H). destruct (ds_segments_here st) as [g|]; [|discriminate]. injection H as <-. cbn [ds_heap].
    apply find_some in Ef as [_ Ef]. apply otruthy_true in Ef as (e & Ee & _). rewrite Ee in Hs.
    apply L_Json.new_Segment_ok in Hs as (-> & B & _). apply append_segment_fine; [|exact F].
    split; [|intros d []]. split; [exact B|]. split; [constructor|]. intros i [=].
  Qed.
  Lemma deep_step_fine st x st' : deep_step reader str_of_location st x = Ok st' -> heap_fine (ds_heap st) -> heap_fine (ds_heap st').
  Proof.
    destruct x as [key run]. cbn [deep_step]. intros H F.
    destruct (negb _); [injection H as <-; exact F|]. apply bind_ok in H as (stack & _ & H).
    destruct (existsb _ _).
    - destruct (negb _); [injection H as <-; exact F|]. apply bind_ok in H as (d & Hd & H).
      destruct (ds_elements_here st) as [ref|]; [|discriminate]. injection H as <-. cbn [ds_heap].
      apply append_element_fine; [|exact F]. eapply merge_fine; exact Hd.
    - apply bind_ok in H as (f & _ & H). apply bind_ok in H as (l & _ & H). apply bind_ok in H as (op & _ & H).
      apply bind_ok in H as (st1 & H1 & H). apply add_segment_fine in H; [exact H|].
      destruct op; [|injection H1 as <-; exact F]. destruct stack as [s|]; [|injection H1 as <-; exact F].
      eapply open_group_fine; eassumption.
  Qed.
  Lemma steps_fine runs : forall st st', foldM (deep_step reader str_of_location) st runs = Ok st' -> heap_fine (ds_heap st) -> heap_fine (ds_heap st').
  Proof.
    induction runs as [|r runs IH]; intros st st' H F; cbn [foldM] in H; [injection H as <-; exact F|].
    apply bind_ok in H as (st1 & H1 & H). apply (IH st1 st' H). eapply deep_step_fine; eassumption.
  Qed.
End Steps.

Definition tree_fine (G : SegmentGroup) : Prop :=
  forall h, inside G h -> ~ blank (g_expression h) /\ forall s, direct_segment h s -> segment_fine s.
Lemma render_fine cells fuel : Forall cell_fine cells -> forall g, Forall tree_fine (render fuel cells g).
Proof.
  intros F. induction fuel as [|fuel IH]; intros g; cbn [render]; [constructor|].
  destruct (nth_error cells g) as [c|] eqn:E; [|constructor]. constructor; [|constructor].
  rewrite Forall_forall in F. destruct (F c (nth_error_In _ _ E)) as [B S0].
  intros h I. apply inside_inv in I as [-> |(k & l & El & Ik & Ih)].
  - cbn [g_expression]. split; [exact B|]. intros s (l & El & Is). cbn in El. injection El as <-. rewrite Forall_forall in S0. auto.
  - cbn in El. injection El as <-. apply in_flat_map in Ik as (g' & _ & Ik). specialize (IH g'). rewrite Forall_forall in IH. exact (IH k Ik h Ih).
Qed.
Lemma to_deep_fine reader str_of_location flat h deep flat' : to_deep_ahb reader str_of_location flat h = (Ok deep, flat') ->
  valid_meta (fa_meta flat) -> valid_deep deep /\ forall s d, segment_of deep s -> In d (seg_elements s) -> type_of d <> None.
Proof.
  unfold to_deep_ahb. intros H M. injection H as H _. apply bind_ok in H as (locs & _ & H). apply bind_ok in H as (st & Hst & H).
  injection H as <-. apply steps_fine in Hst; [|constructor].
  assert (T : Forall tree_fine (render_lines (ds_heap st))).
  { unfold render_lines. apply Forall_forall. intros G I. apply in_flat_map in I as (g & _ & I).
    pose proof (render_fine (hp_cells (ds_heap st)) (List.length (hp_cells (ds_heap st))) Hst g) as R. rewrite Forall_forall in R. auto. }
  rewrite Forall_forall in T. split; [split; [exact M|]; split|].
  - intros g (line & I & J). apply (T line I g J).
  - intros s (g & (line & I & J) & D). destruct (T line I g J) as [_ Q]. apply (Q s D).
  - intros s d (g & (line & I & J) & D) Id. destruct (T line I g J) as [_ Q]. now apply (Q s D).
Qed.
