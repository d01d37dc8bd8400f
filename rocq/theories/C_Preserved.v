(** Property C76: what is in a deep AHB comes from the flat AHB, and what is in the flat AHB gets there. *)
From Coq Require Import Ascii String List NArith ZArith Bool Lia.
From Verif Require Import PyBase PyStr M_Components M_Ahb M_Sgh M_Navigation M_Matching
  S_Text S_ValuePool S_DeepAhb S_Matching L_Base L_DeepAhb L_Matching L_Parts C_DeepAhb C_Navigation C_Matching.
Import ListNotations.
Local Open Scope list_scope.

(** ** groups and segments, listed and described *)
Lemma with_ancestors_inside g : forall around h, In h (map snd (with_ancestors around g)) <-> inside g h.
Proof.
  induction g as [d e i ss gs IH] using group_ind'. intros around h. cbn [with_ancestors map snd g_groups]. split.
  - intros [<-|H]; [constructor|]. destruct gs as [gs|]; [|destruct H]. apply in_map_iff in H as ((a & h') & <- & H). cbn [snd].
    apply in_flat_map in H as (k & K & H). cbn [olist] in IH. rewrite Forall_forall in IH.
    eapply inside_trans; [eapply inside_child; [reflexivity|exact K]|]. apply (IH k K (around ++ [mkGroup d e i ss (Some gs)])). apply (in_map snd) in H. exact H.
  - intros H. apply inside_inv in H as [-> |(k & l & E & K & H)]; [now left|]. cbn [g_groups] in E. subst gs. right. cbn [olist] in IH. rewrite Forall_forall in IH.
    apply (IH k K (around ++ [mkGroup d e i ss (Some l)])) in H. apply in_map_iff in H as (x & <- & H). apply in_map. apply in_flat_map. eauto.
Qed.
Lemma all_groups_of a g : In g (all_groups a) <-> group_of a g.
Proof.
  unfold all_groups, groups_with_ancestors, group_of. split.
  - intros H. apply in_map_iff in H as (x & <- & H). apply in_flat_map in H as (l & L & H). exists l. split; [exact L|].
    apply (with_ancestors_inside l []). now apply in_map.
  - intros (l & L & H). apply (with_ancestors_inside l []) in H. apply in_map_iff in H as (x & <- & H). apply in_map. apply in_flat_map. eauto.
Qed.
Lemma all_segments_of a s : In s (all_segments a) <-> segment_of a s.
Proof.
  unfold all_segments, segment_of, direct_segment. rewrite in_flat_map. split.
  - intros (g & G & H). exists g. split; [now apply all_groups_of|]. destruct (g_segments g) as [l|]; [|destruct H]. exists l. auto.
  - intros (g & G & l & E & H). exists g. split; [now apply all_groups_of|]. now rewrite E.
Qed.
Lemma forall2_in_r {A B} (R : A -> B -> Prop) l l' y : Forall2 R l l' -> In y l' -> exists x, In x l /\ R x y.
Proof. induction 1 as [|a b l l' H _ IH]; [intros []|]. intros [<-|I]; [exists a; split; [now left|exact H]|]. destruct (IH I) as (x & X & K). exists x. split; [now right|exact K]. Qed.
Lemma forall2_in_l {A B} (R : A -> B -> Prop) l l' x : Forall2 R l l' -> In x l -> exists y, In y l' /\ R x y.
Proof. induction 1 as [|a b l l' H _ IH]; [intros []|]. intros [<-|I]; [exists b; split; [now left|exact H]|]. destruct (IH I) as (y & Y & K). exists y. split; [now right|exact K]. Qed.

(** the runs of the sections are among the runs *)
Lemma sections_runs runs : (forall r, In r (fst (sections runs)) -> In r runs)
  /\ forall sec, In sec (snd (sections runs)) -> In (fst sec) runs /\ forall r, In r (snd sec) -> In r runs.
Proof.
  induction runs as [|r runs [IH1 IH2]]; cbn [sections]; [split; intros ? []|]. destruct (sections runs) as [els secs]. cbn [fst snd] in *.
  destruct (counts_as_segment r); [|destruct (counts_as_element r)]; cbn [fst snd]; split.
  - intros x [].
  - intros sec [<-|H]; cbn [fst snd]; [split; [now left|intros x X; right; auto]|]. destruct (IH2 sec H) as [H1 H2]. split; [now right|intros x X; right; auto].
  - intros x [<-|H]; [now left|right; auto].
  - intros sec H. destruct (IH2 sec H) as [H1 H2]. split; [now right|intros x X; right; auto].
  - intros x H. right. auto.
  - intros sec H. destruct (IH2 sec H) as [H1 H2]. split; [now right|intros x X; right; auto].
Qed.
Lemma sections_elements runs r : In r runs -> counts_as_segment r = false -> counts_as_element r = true ->
  In r (fst (sections runs)) \/ exists sec, In sec (snd (sections runs)) /\ In r (snd sec).
Proof.
  induction runs as [|x runs IH]; intros I S E; [destruct I|]. cbn [sections]. destruct (sections runs) as [els secs]. cbn [fst snd] in *.
  destruct I as [->|I].
  - rewrite S, E. left. now left.
  - destruct (IH I S E) as [H|(sec & H & K)].
    + destruct (counts_as_segment x); [right; exists (x, els); split; [now left|exact H]|]. destruct (counts_as_element x); left; [now right|exact H].
    + right. exists sec. split; [|exact K]. destruct (counts_as_segment x); [now right|]. destruct (counts_as_element x); exact H.
Qed.

Section Preserved.
  Variable reader : Location -> result EdifactStack.
  Variable str_of_location : Location -> pystr.
  Variable flat : FlatAhb.
  Variable h : Sgh.
  Variable deep : DeepAhb.
  Variable flat' : FlatAhb.
  Hypothesis returned : to_deep_ahb reader str_of_location flat h = (Ok deep, flat').

  (** the line is a line of the flat AHB *)
  Let line (l : AhbLine) : Prop := In l (fa_lines flat).

  Lemma run_lines_in located runs r l : determine_locations h (fa_lines flat) = Ok located -> maximal_runs located runs -> In r runs ->
    In l (run_lines r) -> line l.
  Proof.
    intros L (C & _) R I. unfold line. rewrite <- (C13_locations_line_by_line h (fa_lines flat) located L). rewrite <- C.
    unfold run_lines in I. apply in_map_iff in I as (x & <- & I). apply in_map. apply in_concat. eauto.
  Qed.
  Lemma hd_in {A} (l : list A) x : hd_error l = Some x -> In x l.
  Proof. destruct l; [discriminate|]. intros [= ->]. now left. Qed.

  (** every expression of the deep AHB is the expression of a line; those of groups have been stripped *)
  Theorem C76_expressions e : expression_of deep e ->
    exists l x, In l (fa_lines flat) /\ al_expression l = Some x /\ (x = e \/ stripped x e).
  Proof.
    destruct (C40_segments_go_to_the_latest_group _ _ _ _ _ _ returned) as (located & runs & parts & L & M & S & P & _).
    assert (Secs : Forall2 (section_becomes reader str_of_location) (concat parts) (all_segments deep)).
    { destruct (C38_nothing_is_lost _ _ _ _ _ _ returned) as (located' & runs' & secs & L' & M' & S' & F).
      assert (located' = located) as -> by congruence. assert (runs' = runs) as -> by (eapply maximal_runs_unique; eassumption). congruence. }
    destruct (sections_runs runs) as [_ SR]. rewrite S in SR. cbn [snd] in SR.
    assert (Elements : forall s d, segment_of deep s -> In d (seg_elements s) -> exists r, In r runs /\ element_of_run reader r d).
    { intros s d Hs Hd. apply all_segments_of in Hs. destruct (forall2_in_r _ _ _ _ Secs Hs) as (sec & I & _ & F).
      destruct (forall2_in_r _ _ _ _ F Hd) as (r & R & E). exists r. split; [|exact E]. apply (SR sec I). exact R. }
    intros H. inversion H as [g G E|s G E|s f G F E|s p x G F X E]; subst.
    - apply all_groups_of in G. destruct (forall2_in_r _ _ _ _ P G) as (part & I & _ & o & rest & first & x & -> & _ & Hd & X & St & _).
      exists first, x. split; [|split; [exact X|now right]].
      apply (run_lines_in located runs (fst o) first L M); [|now apply hd_in]. apply (proj1 (SR o ltac:(apply in_concat; exists (o :: rest); split; [exact I|now left]))).
    - apply all_segments_of in G. destruct (forall2_in_r _ _ _ _ Secs G) as (sec & I & (_ & (before & l & after & R & _ & _ & X) & _) & _).
      exists l, (seg_expression s). split; [|split; [exact X|now left]]. apply (run_lines_in located runs (fst sec) l L M); [exact (proj1 (SR sec I))|]. rewrite R. apply in_app_iff. right. now left.
    - destruct (Elements s _ G F) as (r & R & first & rest & id & RL & _ & _ & [(_ & es & K & _)|(_ & x & t & K & X & _)]); [discriminate|].
      injection K as ->. cbn [ft_expression]. exists first, x. split; [|split; [exact X|now left]]. apply (run_lines_in located runs r first L M R). rewrite RL. now left.
    - destruct (Elements s _ G F) as (r & R & first & rest & id & RL & _ & _ & [(_ & es & K & EL)|(_ & y & t & K & _)]); [|discriminate].
      injection K as ->. cbn [vp_pool] in X. destruct (forall2_in_r _ _ _ _ EL X) as (l & I & _ & _ & _ & A & _).
      exists l, (ve_expression x). split; [|split; [exact A|now left]]. apply (run_lines_in located runs r l L M R). apply filter_In in I as [I _]. exact I.
  Qed.
  (** every value pool entry is a line of the flat AHB, of the same data element *)
  Theorem C76_value_pool_entries p e : pool_of deep p -> In e (vp_pool p) ->
    exists l, In l (fa_lines flat) /\ entry_of_line l e /\ al_element l = Some (vp_id p).
  Proof.
    destruct (C38_nothing_is_lost _ _ _ _ _ _ returned) as (located & runs & secs & L & M & S & F).
    destruct (sections_runs runs) as [_ SR]. rewrite S in SR. cbn [snd] in SR.
    intros (s & G & I) X. apply all_segments_of in G. destruct (forall2_in_r _ _ _ _ F G) as (sec & J & _ & E).
    destruct (forall2_in_r _ _ _ _ E I) as (r & R & first & rest & id & RL & (_ & Same) & _ & [(_ & es & K & EL)|(_ & y & t & K & _)]); [|discriminate].
    injection K as ->. cbn [vp_pool vp_id] in *. destruct (forall2_in_r _ _ _ _ EL X) as (l & I' & A). exists l. apply filter_In in I' as [I' _].
    split; [|split; [exact A|now apply Same]]. apply (run_lines_in located runs r l L M); [exact (proj2 (SR sec J) r R)|exact I'].
  Qed.
  (** section names and indexes of segments are those of lines *)
  Theorem C76_segments s : segment_of deep s ->
    exists first l, In first (fa_lines flat) /\ In l (fa_lines flat)
      /\ seg_section s = al_section first /\ seg_index s = al_index first /\ al_expression l = Some (seg_expression s).
  Proof.
    destruct (C38_nothing_is_lost _ _ _ _ _ _ returned) as (located & runs & secs & L & M & S & F).
    destruct (sections_runs runs) as [_ SR]. rewrite S in SR. cbn [snd] in SR.
    intros G. apply all_segments_of in G. destruct (forall2_in_r _ _ _ _ F G) as (sec & J & (_ & (before & l & after & R & _ & _ & X) & (first & rest & R' & I1 & I2) & _) & _).
    exists first, l. split; [|split; [|auto]]; (apply (run_lines_in located runs (fst sec) _ L M); [exact (proj1 (SR sec J))|]).
    - rewrite R'. now left.
    - rewrite R. apply in_app_iff. right. now left.
  Qed.
  (** every line of a data element that has an expression gets into the deep AHB: as an entry of a value pool, or
      as (part of) a free text, whose expression is the one of the first line in its run *)
  Theorem C76_lines l id : In l (fa_lines flat) -> al_segment l <> None -> al_element l = Some id -> has_expression l = true ->
    exists s d, segment_of deep s /\ In d (seg_elements s)
      /\ ((exists p e, d = DPool p /\ vp_id p = id /\ In e (vp_pool p) /\ entry_of_line l e)
          \/ (exists f first, d = DFree f /\ ft_id f = id /\ In first (fa_lines flat) /\ al_entry first = None
                /\ al_element first = Some id /\ al_expression first = Some (ft_expression f))).
  Proof.
    destruct (C38_nothing_is_lost _ _ _ _ _ _ returned) as (located & runs & secs & L & M & S & F).
    intros I Sg El Ex.
    assert (R : exists r, In r runs /\ In l (run_lines r)).
    { rewrite <- (C13_locations_line_by_line h (fa_lines flat) located L) in I. destruct M as (C & _). rewrite <- C in I. apply in_map_iff in I as (x & <- & I).
      apply in_concat in I as (r & R & I). exists r. split; [exact R|]. now apply in_map. }
    destruct R as (r & R & I').
    assert (D : has_data_element r = true) by (apply existsb_exists; exists l; split; [exact I'|now rewrite El]).
    assert (CS : counts_as_segment r = false) by (unfold counts_as_segment; rewrite D; now rewrite andb_false_r).
    assert (CE : counts_as_element r = true).
    { unfold counts_as_element. rewrite D. assert (has_segment_code r = true) as -> by (apply existsb_exists; exists l; split; [exact I'|destruct (al_segment l); [reflexivity|congruence]]).
      apply existsb_exists. exists l. split; [exact I'|]. unfold has_expression, otruthy in Ex. now destruct (al_expression l). }
    destruct (sections_elements runs r R CS CE) as [K|(sec & J & K)]; rewrite S in *; cbn [fst snd] in *; [destruct K|].
    destruct (forall2_in_l _ _ _ _ F J) as (s & G & _ & E). destruct (forall2_in_l _ _ _ _ E K) as (d & Dd & first & rest & id' & RL & (_ & Same) & _ & H).
    assert (id' = id) as -> by (specialize (Same l I'); congruence).
    exists s, d. split; [now apply all_segments_of|]. split; [exact Dd|]. destruct H as [(_ & es & -> & EL)|(N & x & t & -> & X & _)].
    - left. destruct (forall2_in_l _ _ _ l EL) as (e & Ie & A); [apply filter_In; auto|]. eexists _, e. split; [reflexivity|]. cbn. auto.
    - right. eexists _, first. split; [reflexivity|]. cbn [ft_id ft_expression]. split; [reflexivity|]. split; [|split; [exact N|split; [|exact X]]].
      + apply (run_lines_in located runs r first L M R). rewrite RL. now left.
      + apply Same. rewrite RL. now left.
  Qed.
End Preserved.
Print Assumptions C76_expressions.
Print Assumptions C76_value_pool_entries.
Print Assumptions C76_segments.
Print Assumptions C76_lines.

Example C76_instance : exists a, ex_deep ex_deep_lines = Ok a
  /\ Forall (expression_of a) [u "Muss"; u "Kann"; u "X"]
  /\ (exists l, In l ex_deep_lines /\ al_segment l <> None /\ al_element l = Some (u "3035") /\ has_expression l = true)
  /\ (exists p e, pool_of a p /\ In e (vp_pool p)) /\ exists s, segment_of a s /\ seg_section s <> None.
Proof.
  set (d := ex_deep ex_deep_lines). destruct d as [a|] eqn:E; [|subst d; vm_compute in E; discriminate]. exists a. split; [reflexivity|].
  assert (Sg : match d with
               | Ok a => match nth_error (all_segments a) 1 with
                         | Some s => seg_section s = Some (u "Absender") /\ (exists p e, seg_elements s = [DPool p] /\ vp_pool p = [e])
                         | None => False end
               | Raise _ => False end) by (subst d; vm_compute; eauto).
  rewrite E in Sg. destruct (nth_error (all_segments a) 1) as [s|] eqn:N; [|destruct Sg]. apply nth_error_In, all_segments_of in N.
  destruct Sg as (S1 & p & e & S2 & S3).
  split; [|split; [|split]].
  - assert (X : match d with Ok a => forallb (fun x => str_in x (get_all_expressions a)) [u "Muss"; u "Kann"; u "X"] = true | Raise _ => False end) by (subst d; vm_compute; reflexivity).
    rewrite E in X. apply Forall_forall. intros x I. rewrite forallb_forall in X. apply X, str_in_In in I. exact (proj1 (proj1 (C29_expressions a x) I)).
  - exists (nth 3 ex_deep_lines ex_unt). split; [apply nth_In; cbn; lia|]. split; [discriminate|]. split; vm_compute; reflexivity.
  - exists p, e. split; [|rewrite S3; now left]. exists s. split; [exact N|]. rewrite S2. now left.
  - exists s. split; [exact N|congruence].
Qed.
